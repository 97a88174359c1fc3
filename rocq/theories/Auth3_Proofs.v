From Verif Require Import Common CommonProofs Ws_Proofs WsStream_Proofs Pixels_Model Init_Model Auth_Model Auth_Spec Auth_Proofs Auth2_Proofs.

(** ** Credentials *)

Lemma be_app_firstn n v r : firstn n (be n v ++ r) = be n v.
Proof. apply firstn_app_eq, be_length. Qed.
Lemma be_app_skipn n v r : skipn n (be n v ++ r) = r.
Proof. apply skipn_app_eq, be_length. Qed.
Lemma unbe_be4 v : 0 <= v < 2 ^ 32 -> unbe (be 4 v) = v.
Proof. intros H. apply unbe_be. change (256 ^ Z.of_nat 4) with (2 ^ 32). exact H. Qed.

Lemma firstn_min {A} (l r : list A) k : firstn (Nat.min (length l) k) (l ++ r) = firstn k l.
Proof.
  rewrite firstn_app. replace (Nat.min (length l) k - length l)%nat with O by lia. rewrite firstn_O, app_nil_r.
  destruct (Nat.le_ge_cases k (length l)) as [L|L].
  - f_equal. lia.
  - rewrite Nat.min_l by lia. rewrite firstn_all. now rewrite firstn_all2 by lia.
Qed.

Lemma authenticate_log e c used u p :
  let a := auth_fn e (log c) u p in
  let c' := authenticate e c used u p in
  log c' = log c ++ [AuthCalled (ch c) (existsb (fun x => negb (fst x)) used) u p a;
                     Sent (ch c) (if a then be 4 0 else be 4 1 ++ be 4 28 ++ codes "Invalid username or password")] /\
  st c' = (if a then SInit else SError).
Proof.
  unfold authenticate. cbv zeta. destruct (auth_fn e (log c) u p); cbn [log st ch goto note send
    security_handshake_ok security_handshake_failed]; rewrite <- app_assoc; split; reflexivity.
Qed.

Lemma plain_ok cfg e c b u p rest :
  st c = SVenPlain -> zlen u < 2 ^ 32 -> zlen p < 2 ^ 32 ->
  bytes b = plain_message u p ++ rest ->
  exists used, bytes used = plain_message u p /\ used = firstn (length (plain_message u p)) b /\
  try_read cfg e c b =
    Ok (Some (authenticate e c used (cstr (firstn 255 u)) (cstr (firstn 255 p)), zlen (plain_message u p))).
Proof.
  intros S U P B. unfold try_read. rewrite S. unfold on_vencrypt_plain.
  assert (L := bytes_length b).
  assert (Lm : zlen (plain_message u p) = 8 + zlen u + zlen p).
  { unfold plain_message, zlen. rewrite !app_length, !be_length. lia. }
  assert (Lb : avail b = 8 + zlen u + zlen p + zlen rest).
  { rewrite <- L, B, app_length. unfold zlen in *. lia. }
  assert (0 <= zlen u /\ 0 <= zlen p /\ 0 <= zlen rest) by (unfold zlen; lia).
  replace (avail b <? 8) with false by lia. cbv zeta.
  assert (B1 : bytes b = be 4 (zlen u) ++ (be 4 (zlen p) ++ (u ++ (p ++ rest)))).
  { rewrite B. unfold plain_message. now rewrite <- !app_assoc. }
  assert (E1 : firstn 4 (bytes b) = be 4 (zlen u)) by (rewrite B1; apply be_app_firstn).
  assert (E2 : skipn 4 (bytes b) = be 4 (zlen p) ++ (u ++ (p ++ rest))) by (rewrite B1; apply be_app_skipn).
  assert (E3 : skipn 8 (bytes b) = u ++ (p ++ rest)).
  { change 8%nat with (4 + 4)%nat. rewrite <- skipn_skipn, E2. apply be_app_skipn. }
  rewrite E1, E2, be_app_firstn, E3, !unbe_be4 by lia.
  replace (avail b <? 8 + zlen u + zlen p) with false by lia.
  replace (skipn (Z.to_nat (zlen u)) (u ++ p ++ rest)) with (p ++ rest)
    by (unfold zlen; rewrite Nat2Z.id; now rewrite skipn_app_exact).
  replace (Z.to_nat (Z.min (zlen u) 255)) with (Nat.min (length u) 255) by (unfold zlen; lia).
  replace (Z.to_nat (Z.min (zlen p) 255)) with (Nat.min (length p) 255) by (unfold zlen; lia).
  rewrite !firstn_min.
  eexists. split; [|split; [reflexivity|]].
  - rewrite bytes_firstn, B. apply firstn_app_eq. reflexivity.
  - rewrite Lm. replace (Z.to_nat (8 + zlen u + zlen p)) with (length (plain_message u p)); [reflexivity|].
    unfold zlen in *. lia.
Qed.

Lemma plain_waits cfg e c b :
  st c = SVenPlain -> rx_ok b -> (forall u p rest, zlen u < 2 ^ 32 -> zlen p < 2 ^ 32 -> bytes b <> plain_message u p ++ rest) ->
  try_read cfg e c b = Ok (Some (c, 0)).
Proof.
  intros S R N. unfold try_read. rewrite S. unfold on_vencrypt_plain.
  destruct (avail b <? 8) eqn:A; [reflexivity|]. cbv zeta.
  set (ulen := unbe (firstn 4 (bytes b))). set (plen := unbe (firstn 4 (skipn 4 (bytes b)))).
  destruct (avail b <? 8 + ulen + plen) eqn:A2; [reflexivity|]. exfalso.
  assert (L := bytes_length b).
  assert (BU : 0 <= ulen < 2 ^ 32).
  { unfold ulen. assert (X := unbe_bound (firstn 4 (bytes b)) ltac:(apply Forall_firstn, R)).
    rewrite firstn_length_le in X by lia. exact X. }
  assert (BP : 0 <= plen < 2 ^ 32).
  { unfold plen. assert (X := unbe_bound (firstn 4 (skipn 4 (bytes b))) ltac:(apply Forall_firstn, Forall_skipn, R)).
    rewrite firstn_length_le in X by (rewrite skipn_length; lia). exact X. }
  set (u := firstn (Z.to_nat ulen) (skipn 8 (bytes b))).
  set (p := firstn (Z.to_nat plen) (skipn (Z.to_nat ulen) (skipn 8 (bytes b)))).
  assert (Lu : zlen u = ulen).
  { unfold zlen, u. rewrite firstn_length_le; [lia|]. rewrite skipn_length. lia. }
  assert (Lp : zlen p = plen).
  { unfold zlen, p. rewrite firstn_length_le; [lia|]. rewrite !skipn_length. lia. }
  apply (N u p (skipn (Z.to_nat plen) (skipn (Z.to_nat ulen) (skipn 8 (bytes b))))); [lia..|].
  unfold plain_message. rewrite Lu, Lp. unfold ulen at 1, plen at 1.
  assert (F4 : length (firstn 4 (bytes b)) = 4%nat) by (rewrite firstn_length_le; lia).
  assert (F8 : length (firstn 4 (skipn 4 (bytes b))) = 4%nat) by (rewrite firstn_length_le; [lia|rewrite skipn_length; lia]).
  assert (X4 := be_unbe (firstn 4 (bytes b)) ltac:(apply Forall_firstn, R)). rewrite F4 in X4.
  assert (X8 := be_unbe (firstn 4 (skipn 4 (bytes b))) ltac:(apply Forall_firstn, Forall_skipn, R)). rewrite F8 in X8.
  rewrite X4, X8.
  rewrite <- !app_assoc. unfold u, p. rewrite !firstn_skipn.
  change 8%nat with (4 + 4)%nat. rewrite <- skipn_skipn. now rewrite !firstn_skipn.
Qed.

Lemma rsa_cred_ok cfg e c b u p rest :
  st c = SRsaCred -> zlen u < 256 -> zlen p < 256 ->
  bytes b = rsa_message u p ++ rest ->
  exists used, bytes used = rsa_message u p /\ used = firstn (length (rsa_message u p)) b /\
  try_read cfg e c b = Ok (Some (authenticate e c used (cstr u) (cstr p), zlen (rsa_message u p))).
Proof.
  intros S U P B. unfold try_read. rewrite S. unfold on_rsa_aes_credentials.
  assert (L := bytes_length b).
  assert (Lm : zlen (rsa_message u p) = 2 + zlen u + zlen p).
  { unfold rsa_message, zlen. cbn [app length]. rewrite app_length. cbn [length]. lia. }
  assert (Lb : avail b = 2 + zlen u + zlen p + zlen rest).
  { rewrite <- L, B, app_length. unfold zlen in *. lia. }
  assert (0 <= zlen u /\ 0 <= zlen p /\ 0 <= zlen rest) by (unfold zlen; lia).
  replace (avail b <? 2) with false by lia. cbv zeta.
  assert (B1 : bytes b = zlen u :: u ++ (zlen p :: p ++ rest)).
  { rewrite B. unfold rsa_message. cbn [app]. f_equal. now rewrite <- app_assoc. }
  replace (hd 0 (bytes b)) with (zlen u) by (rewrite B1; reflexivity).
  replace (avail b <? 2 + zlen u) with false by lia.
  assert (E1 : nth (Z.to_nat (1 + zlen u)) (bytes b) 0 = zlen p).
  { rewrite B1. replace (Z.to_nat (1 + zlen u)) with (Datatypes.S (length u + 0)) by (unfold zlen; lia).
    cbn [nth]. rewrite app_nth2_plus. reflexivity. }
  rewrite E1. replace (avail b <? 2 + zlen u + zlen p) with false by lia.
  assert (E2 : firstn (Z.to_nat (zlen u)) (skipn 1 (bytes b)) = u).
  { rewrite B1. cbn [skipn]. apply firstn_app_eq. unfold zlen. lia. }
  assert (E3 : firstn (Z.to_nat (zlen p)) (skipn (Z.to_nat (2 + zlen u)) (bytes b)) = p).
  { rewrite B1. replace (Z.to_nat (2 + zlen u)) with (1 + (length u + 1))%nat by (unfold zlen; lia).
    rewrite <- (skipn_skipn _ 1 (length u + 1)), <- (skipn_skipn _ (length u) 1).
    change (skipn 1 (zlen u :: u ++ zlen p :: p ++ rest)) with (u ++ zlen p :: p ++ rest).
    rewrite skipn_app_eq by reflexivity. cbn [skipn]. apply firstn_app_eq. unfold zlen. lia. }
  rewrite E2, E3. eexists. split; [|split; [reflexivity|]].
  - rewrite bytes_firstn, B. apply firstn_app_eq. reflexivity.
  - rewrite Lm. replace (Z.to_nat (2 + zlen u + zlen p)) with (length (rsa_message u p)); [reflexivity|].
    unfold zlen in *. lia.
Qed.

Lemma nth_split_skip (l : list Z) k d : (k < length l)%nat -> skipn k l = nth k l d :: skipn (S k) l.
Proof.
  revert l. induction k; intros [|x l] H; cbn [length] in H; try lia; [reflexivity|].
  cbn [skipn nth]. apply IHk. lia.
Qed.

Lemma rsa_cred_waits cfg e c b :
  st c = SRsaCred -> rx_ok b -> (forall u p rest, zlen u < 256 -> zlen p < 256 -> bytes b <> rsa_message u p ++ rest) ->
  try_read cfg e c b = Ok (Some (c, 0)).
Proof.
  intros S R N. unfold try_read. rewrite S. unfold on_rsa_aes_credentials.
  destruct (avail b <? 2) eqn:A; [reflexivity|]. cbv zeta.
  assert (L := bytes_length b).
  assert (Bn : forall k, 0 <= nth k (bytes b) 0 < 256).
  { intros k. destruct (Nat.lt_ge_cases k (length (bytes b))) as [K|K].
    - apply (nth_In _ 0) in K. unfold rx_ok, all_bytes in R. rewrite Forall_forall in R. exact (R _ K).
    - rewrite nth_overflow; [lia|exact K]. }
  assert (Hh : hd 0 (bytes b) = nth 0 (bytes b) 0) by (destruct (bytes b); reflexivity).
  rewrite Hh. set (ulen := nth 0 (bytes b) 0). assert (BU := Bn O : 0 <= ulen < 256).
  destruct (avail b <? 2 + ulen) eqn:A1; [reflexivity|].
  set (plen := nth (Z.to_nat (1 + ulen)) (bytes b) 0). assert (BP := Bn (Z.to_nat (1 + ulen)) : 0 <= plen < 256).
  destruct (avail b <? 2 + ulen + plen) eqn:A2; [reflexivity|]. exfalso.
  set (u := firstn (Z.to_nat ulen) (skipn 1 (bytes b))).
  set (p := firstn (Z.to_nat plen) (skipn (Z.to_nat (2 + ulen)) (bytes b))).
  assert (Lu : zlen u = ulen).
  { unfold zlen, u. rewrite firstn_length_le; [lia|]. rewrite skipn_length. lia. }
  assert (Lp : zlen p = plen).
  { unfold zlen, p. rewrite firstn_length_le; [lia|]. rewrite !skipn_length. lia. }
  apply (N u p (skipn (Z.to_nat plen) (skipn (Z.to_nat (2 + ulen)) (bytes b)))); [lia..|].
  unfold rsa_message. rewrite Lu, Lp. cbn [app].
  rewrite <- (firstn_skipn 1 (bytes b)) at 1.
  assert (F1 : firstn 1 (bytes b) = [ulen]).
  { unfold ulen. destruct (bytes b); cbn in *; [lia|reflexivity]. }
  rewrite F1. cbn [app]. f_equal. rewrite <- app_assoc. cbn [app].
  unfold p. rewrite firstn_skipn. unfold u.
  rewrite <- (firstn_skipn (Z.to_nat ulen) (skipn 1 (bytes b))) at 1. f_equal.
  rewrite skipn_skipn. replace (Z.to_nat ulen + 1)%nat with (Z.to_nat (1 + ulen)) by lia.
  rewrite (nth_split_skip _ _ 0) by lia. f_equal. f_equal. lia.
Qed.
