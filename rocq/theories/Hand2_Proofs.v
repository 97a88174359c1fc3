From Verif Require Import Common CommonProofs Ws_Proofs WsStream_Proofs Pixels_Model Init_Model Auth_Model Auth_Spec Auth_Proofs Auth2_Proofs Auth3_Proofs Auth4_Proofs Auth5_Proofs Hand_Spec Hand_Proofs.

Section Any.
Variable cfg : config.
Variable e : env.

Lemma firstn_longer {A} k (a x : list A) : (k <= length a)%nat -> firstn k (a ++ x) = firstn k a.
Proof. intros H. rewrite firstn_app. replace (k - length a)%nat with O by lia. apply app_nil_r. Qed.
Lemma field_longer {A} k j (a x : list A) : (j + k <= length a)%nat -> firstn k (skipn j (a ++ x)) = firstn k (skipn j a).
Proof.
  intros H. rewrite skipn_app. apply firstn_longer. rewrite skipn_length. lia.
Qed.

(* with more bytes behind, a message that is complete is taken as before *)
Lemma try_stable c b x : rx_ok b -> st c <> SError ->
  try_read cfg e c b = Ok (Some (c, 0)) \/ try_read cfg e c (b ++ x) = try_read cfg e c b.
Proof.
  intros R NE.
  assert (L := bytes_length b).
  assert (LX : avail (b ++ x) = avail b + avail x) by (unfold avail; rewrite app_length; lia).
  assert (X0 : 0 <= avail x) by (unfold avail; lia).
  assert (U : forall k j, 0 <= unbe (firstn k (skipn j (bytes b)))).
  { intros. apply unbe_nonneg. apply Forall_firstn, Forall_skipn, R. }
  assert (U0 : forall k, 0 <= unbe (firstn k (bytes b))).
  { intros. apply unbe_nonneg. apply Forall_firstn, R. }
  unfold try_read. destruct (st c) eqn:S; [congruence|..].
  - unfold on_version_message. destruct (avail b <? 12) eqn:A; [left; reflexivity|]. right.
    replace (avail (b ++ x) <? 12) with false by lia. rewrite bytes_app, firstn_longer by lia. reflexivity.
  - unfold on_security_message. rewrite bytes_app. destruct (bytes b); [left; reflexivity|right; reflexivity].
  - unfold on_vencrypt_version. rewrite bytes_app. destruct (bytes b) as [|y [|z r]]; [left; reflexivity..|right; reflexivity].
  - unfold on_vencrypt_subtype. destruct (avail b <? 4) eqn:A; [left; reflexivity|]. right.
    replace (avail (b ++ x) <? 4) with false by lia. rewrite bytes_app, firstn_longer by lia. reflexivity.
  - unfold on_vencrypt_plain. destruct (avail b <? 8) eqn:A; [left; reflexivity|].
    replace (avail (b ++ x) <? 8) with false by lia. cbv zeta.
    specialize (U 4%nat 4%nat). specialize (U0 4%nat).
    rewrite !bytes_app. rewrite (firstn_longer 4) by lia. rewrite (field_longer 4 4) by lia.
    set (u := unbe (firstn 4 (bytes b))) in *. set (p := unbe (firstn 4 (skipn 4 (bytes b)))) in *.
    destruct (avail b <? 8 + u + p) eqn:B; [left; reflexivity|]. right.
    replace (avail (b ++ x) <? 8 + u + p) with false by lia.
    rewrite (field_longer (Z.to_nat (Z.min u 255)) 8) by lia.
    rewrite !skipn_skipn. rewrite (field_longer (Z.to_nat (Z.min p 255))) by lia.
    rewrite firstn_longer by (unfold avail in *; lia). reflexivity.
  - unfold apple_dh_handle_response. destruct (avail b <? 128 + 256) eqn:A; [left; reflexivity|]. right.
    replace (avail (b ++ x) <? 128 + 256) with false by lia.
    rewrite !bytes_app. rewrite (field_longer 256) by lia. rewrite !firstn_longer by (unfold avail in *; lia). reflexivity.
  - unfold on_rsa_aes_public_key. destruct (avail b <? 4) eqn:A; [left; reflexivity|].
    replace (avail (b ++ x) <? 4) with false by lia. cbv zeta.
    rewrite !bytes_app. rewrite (firstn_longer 4) by lia.
    pose proof (bits_to_bytes_nonneg (unbe (firstn 4 (bytes b)))) as P.
    set (k := bits_to_bytes (unbe (firstn 4 (bytes b)))) in *.
    destruct (avail b <? 4 + k * 2) eqn:B; [left; reflexivity|]. right.
    replace (avail (b ++ x) <? 4 + k * 2) with false by lia.
    rewrite !field_longer by lia. reflexivity.
  - unfold on_rsa_aes_challenge. destruct (avail b <? 2) eqn:A; [left; reflexivity|].
    replace (avail (b ++ x) <? 2) with false by lia. cbv zeta.
    rewrite !bytes_app. rewrite (firstn_longer 2) by lia. specialize (U0 2%nat).
    set (k := unbe (firstn 2 (bytes b))) in *.
    destruct (avail b <? 2 + k) eqn:B; [left; reflexivity|]. right.
    replace (avail (b ++ x) <? 2 + k) with false by lia.
    rewrite !field_longer by lia. reflexivity.
  - unfold on_rsa_aes_client_hash. assert (0 <= hash_len c) by (unfold hash_len; destruct (sha256 c); lia).
    destruct (avail b <? hash_len c) eqn:A; [left; reflexivity|]. right.
    replace (avail (b ++ x) <? hash_len c) with false by lia.
    rewrite bytes_app, firstn_longer by lia. reflexivity.
  - unfold on_rsa_aes_credentials. destruct (avail b <? 2) eqn:A; [left; reflexivity|].
    replace (avail (b ++ x) <? 2) with false by lia. cbv zeta.
    assert (HD : hd 0 (bytes (b ++ x)) = hd 0 (bytes b)).
    { rewrite bytes_app. destruct (bytes b); [cbn in L; lia|reflexivity]. }
    rewrite HD.
    assert (H0 : 0 <= hd 0 (bytes b)).
    { unfold rx_ok in R. destruct (bytes b); cbn; [lia|]. inversion R; unfold is_byte in *; lia. }
    set (u := hd 0 (bytes b)) in *.
    destruct (avail b <? 2 + u) eqn:B; [left; reflexivity|].
    replace (avail (b ++ x) <? 2 + u) with false by lia.
    assert (NT : nth (Z.to_nat (1 + u)) (bytes (b ++ x)) 0 = nth (Z.to_nat (1 + u)) (bytes b) 0).
    { rewrite bytes_app, app_nth1 by lia. reflexivity. }
    rewrite NT.
    assert (H1 : 0 <= nth (Z.to_nat (1 + u)) (bytes b) 0).
    { assert (K : (Z.to_nat (1 + u) < length (bytes b))%nat) by lia.
      apply (nth_In (bytes b) 0) in K. unfold rx_ok, all_bytes in R. rewrite Forall_forall in R. specialize (R _ K).
      unfold is_byte in *; lia. }
    set (p := nth (Z.to_nat (1 + u)) (bytes b) 0) in *.
    destruct (avail b <? 2 + u + p) eqn:D; [left; reflexivity|]. right.
    replace (avail (b ++ x) <? 2 + u + p) with false by lia.
    rewrite !bytes_app. rewrite !field_longer by lia. rewrite firstn_longer by (unfold avail in *; lia). reflexivity.
  - unfold on_init_message. rewrite bytes_app. destruct (bytes b); [left; reflexivity|right; reflexivity].
  - left. reflexivity.
Qed.

Lemma stuck c b c' : try_read cfg e c b = Ok (Some (c', 0)) -> rx_ok b -> st c <> SError -> c' = c \/ st c' = SError.
Proof.
  intros H R NE.
  assert (L := bytes_length b).
  assert (U : forall k j, 0 <= unbe (firstn k (skipn j (bytes b)))).
  { intros. apply unbe_nonneg. apply Forall_firstn, Forall_skipn, R. }
  assert (U0 : forall k, 0 <= unbe (firstn k (bytes b))).
  { intros. apply unbe_nonneg. apply Forall_firstn, R. }
  unfold try_read in H. destruct (st c) eqn:S; [congruence|..].
  - unfold on_version_message in H. destruct (avail b <? 12) eqn:A; [apply taken_inj in H as [-> _]; now left|].
    destruct (negb _); [apply taken_inj in H as [-> _]; right; reflexivity|].
    apply bind_ok in H as (l & _ & H). apply taken_inj in H as [_ H]. discriminate.
  - unfold on_security_message in H. crack H; apply taken_inj in H as [Hc Hn]; try discriminate Hn; auto.
  - unfold on_vencrypt_version in H. crack H; apply taken_inj in H as [Hc Hn]; try discriminate Hn; auto.
  - unfold on_vencrypt_subtype in H. crack H; apply taken_inj in H as [Hc Hn]; try discriminate Hn; auto.
  - unfold on_vencrypt_plain in H. specialize (U 4%nat 4%nat). specialize (U0 4%nat). cbv zeta in H.
    destruct (avail b <? 8); [apply taken_inj in H as [-> _]; now left|].
    destruct (avail b <? _); apply taken_inj in H as [Hc Hn]; [now left|lia].
  - unfold apple_dh_handle_response in H. destruct (avail b <? _); apply taken_inj in H as [Hc Hn]; [now left|discriminate].
  - unfold on_rsa_aes_public_key in H. cbv zeta in H.
    pose proof (bits_to_bytes_nonneg (unbe (firstn 4 (bytes b)))) as P.
    destruct (avail b <? 4); [apply taken_inj in H as [-> _]; now left|].
    destruct (avail b <? _); [apply taken_inj in H as [-> _]; now left|].
    apply bind_ok in H as (l & _ & H). apply taken_inj in H as [_ Hn]. lia.
  - unfold on_rsa_aes_challenge in H. cbv zeta in H. specialize (U0 2%nat).
    destruct (avail b <? 2); [apply taken_inj in H as [-> _]; now left|].
    destruct (avail b <? _); [apply taken_inj in H as [-> _]; now left|].
    destruct (rsa_decrypt _ _); [|discriminate].
    apply bind_ok in H as (? & _ & H). apply bind_ok in H as (? & _ & H). apply taken_inj in H as [_ Hn]. lia.
  - unfold on_rsa_aes_client_hash in H.
    destruct (avail b <? _); [apply taken_inj in H as [-> _]; now left|].
    apply bind_ok in H as (? & _ & H). apply bind_ok in H as (? & _ & H).
    destruct (list_eq_dec _ _ _); [|discriminate]. apply taken_inj in H as [_ Hn].
    unfold hash_len in Hn. destruct (sha256 c); discriminate.
  - unfold on_rsa_aes_credentials in H. cbv zeta in H.
    destruct (avail b <? 2) eqn:A; [apply taken_inj in H as [-> _]; now left|].
    assert (H0 : 0 <= hd 0 (bytes b)).
    { unfold rx_ok in R. destruct (bytes b); cbn; [lia|]. inversion R; unfold is_byte in *; lia. }
    destruct (avail b <? 2 + hd 0 (bytes b)) eqn:B; [apply taken_inj in H as [-> _]; now left|].
    assert (H1 : 0 <= nth (Z.to_nat (1 + hd 0 (bytes b))) (bytes b) 0).
    { assert (K : (Z.to_nat (1 + hd 0 (bytes b))%Z < length (bytes b))%nat) by lia.
      apply (nth_In (bytes b) 0) in K. unfold rx_ok, all_bytes in R. rewrite Forall_forall in R. specialize (R _ K).
      unfold is_byte in *; lia. }
    destruct (avail b <? 2 + hd 0 (bytes b) + nth (Z.to_nat (1 + hd 0 (bytes b))) (bytes b) 0);
      apply taken_inj in H as [Hc Hn]; [now left|lia].
  - unfold on_init_message in H. crack H; apply taken_inj in H as [Hc Hn]; try discriminate Hn; auto.
  - apply taken_inj in H as [-> _]. now left.
Qed.

(* the loop, with enough fuel *)
Definition loop (c : conn) (b : rx) : res (conn * rx) := read_loop cfg e (S (length b)) c b.

Lemma read_loop_fuel : forall f c b, rx_ok b -> (length b < f)%nat -> read_loop cfg e f c b = loop c b.
Proof.
  unfold loop. induction f as [f IH] using lt_wf_ind. intros c b R L.
  destruct f as [|f]; [lia|]. cbn [read_loop]. destruct (try_read cfg e c b) as [[[c1 n]|]|] eqn:T; cbn [bind]; try reflexivity.
  destruct (n =? 0) eqn:N0; [reflexivity|]. destruct (avail b <? n) eqn:A; [reflexivity|].
  assert (N := try_read_taken cfg e c b c1 n R T).
  assert (LS : (length (skipn (Z.to_nat n) b) < length b)%nat) by (rewrite skipn_length; unfold avail in *; lia).
  rewrite (IH f) by (try apply rx_skipn; try assumption; lia).
  destruct f as [|f]; [lia|]. symmetry. apply (IH (length b)); [lia|now apply rx_skipn|lia].
Qed.

Lemma loop_eq c b : rx_ok b -> loop c b =
  let* r := try_read cfg e c b in
  match r with
  | None => Fault UseAfterFree
  | Some (c, n) =>
      if n =? 0 then Ok (c, b) else if avail b <? n then Fault AssertFail else loop c (skipn (Z.to_nat n) b)
  end.
Proof.
  intros R. unfold loop at 1. cbn [read_loop]. destruct (try_read cfg e c b) as [[[c1 n]|]|] eqn:T; cbn [bind]; try reflexivity.
  destruct (n =? 0) eqn:N0; [reflexivity|]. destruct (avail b <? n) eqn:A; [reflexivity|].
  assert (N := try_read_taken cfg e c b c1 n R T).
  apply read_loop_fuel; [now apply rx_skipn|]. rewrite skipn_length. unfold avail in *. lia.
Qed.

Definition outcome_of (r : res (conn * rx)) : res conn := let* s := r in Ok (fst s).

Lemma loop_error c b : rx_ok b -> st c = SError -> outcome_of (loop c b) = Ok c.
Proof.
  intros R S. rewrite loop_eq by exact R. unfold try_read. rewrite S. cbn [bind].
  destruct (avail b =? 0) eqn:A; [reflexivity|]. replace (avail b <? avail b) with false by lia.
  rewrite skipn_all2 by (unfold avail; lia). rewrite loop_eq by constructor. unfold try_read. rewrite S. reflexivity.
Qed.

Lemma skipn_longer {A} n (b x : list A) : (n <= length b)%nat -> skipn n (b ++ x) = skipn n b ++ x.
Proof. intros H. rewrite skipn_app. now replace (n - length b)%nat with O by lia. Qed.

(* first some bytes, then more: the same as all at once *)
Lemma loop_split : forall k c b x, (length b <= k)%nat -> rx_ok b -> rx_ok x ->
  outcome_of (loop c (b ++ x)) =
  match loop c b with
  | Ok (c', b') => outcome_of (loop c' (b' ++ x))
  | Fault f => Fault f
  end.
Proof.
  assert (RA : forall b x, rx_ok b -> rx_ok x -> rx_ok (b ++ x)).
  { intros b x R X. unfold rx_ok. rewrite bytes_app. apply Forall_app. auto. }
  induction k as [k IH] using lt_wf_ind. intros c b x L R X.
  assert (RX := RA b x R X).
  assert (E : st c = SError \/ st c <> SError) by (destruct (st c); auto; right; discriminate). destruct E as [E|E].
  { rewrite (loop_error c (b ++ x)) by auto. assert (Q := loop_error c b R E).
    destruct (loop c b) as [[c' b']|] eqn:LB; [|discriminate]. cbn in Q. apply ok_inj in Q. subst c'.
    symmetry. apply loop_error; [|exact E]. apply RA; [|exact X].
    assert (I := read_loop_inv cfg e (fun _ _ => True) ltac:(auto) (S (length b)) c b c b' I R LB). apply I. }
  destruct (try_stable c b x R E) as [W|W].
  { rewrite (loop_eq c b R), W. reflexivity. }
  rewrite (loop_eq c b R), (loop_eq c (b ++ x) RX), W.
  destruct (try_read cfg e c b) as [[[c1 n]|]|] eqn:T; cbn [bind]; try reflexivity.
  destruct (n =? 0) eqn:N0.
  { assert (n = 0) by lia. subst n. destruct (stuck _ _ _ T R E) as [->|S1].
    - rewrite (loop_eq c (_ ++ x) RX), W. reflexivity.
    - symmetry. now apply loop_error. }
  assert (N := try_read_taken cfg e c b c1 n R T).
  replace (avail b <? n) with false by lia.
  replace (avail (b ++ x) <? n) with false by (unfold avail in *; rewrite app_length; lia).
  rewrite skipn_longer by (unfold avail in *; lia).
  apply (IH (length (skipn (Z.to_nat n) b))); [|lia|now apply rx_skipn|exact X].
  rewrite skipn_length. unfold avail in *. lia.
Qed.
(* a connection that is not encrypted never was *)
Lemma clear_before c b c' n : try_read cfg e c b = Ok (Some (c', n)) -> ch c' = Clear -> ch c = Clear.
Proof.
  intros H K. unfold try_read in H. destruct (st c) eqn:S.
  - apply taken_inj in H as [-> _]. exact K.
  - unfold on_version_message in H. crack H; apply taken_inj in H as [-> _]; exact K.
  - unfold on_security_message in H. destruct (bytes b); [apply taken_inj in H as [-> _]; exact K|].
    destruct (negb _); [apply taken_inj in H as [-> _]; exact K|]. cbv zeta in H.
    assert (RSA : forall is256 len,
      (let* c1 := rsa_aes_send_public_key e (mk_conn (st c) (ch c) (types c) is256 (repeat 0 len) (pub c) (secret c) (log c)) in
       Ok (Some (goto c1 SRsaPub, 1))) = Ok (Some (c', n)) -> ch c = Clear).
    { intros is256 len H2. apply bind_ok in H2 as (c1 & Q & H2). apply taken_inj in H2 as [-> _].
      unfold rsa_aes_send_public_key in Q. destruct (server_key e) as [[l0 n0] x0].
      apply bind_ok in Q as (? & _ & Q). apply bind_ok in Q as (? & _ & Q). apply ok_inj in Q. subst c1. exact K. }
    destruct (z =? TYPE_NONE); [apply taken_inj in H as [-> _]; exact K|].
    destruct (enable_tls cfg && _); [apply taken_inj in H as [-> _]; exact K|].
    destruct (have_crypto cfg && (z =? TYPE_APPLE_DH)).
    { apply bind_ok in H as (c1 & Q & H). apply taken_inj in H as [-> _].
      unfold apple_dh_send_public_key in Q. cbv zeta in Q. apply bind_ok in Q as (? & _ & Q).
      destruct (negb _); [discriminate|]. apply bind_ok in Q as (? & _ & Q). destruct (negb _); [discriminate|].
      apply ok_inj in Q. subst c1. exact K. }
    destruct (have_crypto cfg && (z =? TYPE_RSA_AES)); [now apply RSA in H|].
    destruct (have_crypto cfg && (z =? TYPE_RSA_AES256)); [now apply RSA in H|].
    apply taken_inj in H as [-> _]; exact K.
  - unfold on_vencrypt_version in H. crack H; apply taken_inj in H as [-> _]; exact K.
  - unfold on_vencrypt_subtype in H. crack H; apply taken_inj in H as [-> _]; first [discriminate K|exact K].
  - unfold on_vencrypt_plain, authenticate in H. crack H; apply taken_inj in H as [-> _]; exact K.
  - unfold apple_dh_handle_response, authenticate in H. crack H; apply taken_inj in H as [-> _]; exact K.
  - unfold on_rsa_aes_public_key in H. cbv zeta in H.
    destruct (avail b <? 4); [apply taken_inj in H as [-> _]; exact K|].
    destruct (avail b <? _); [apply taken_inj in H as [-> _]; exact K|].
    apply bind_ok in H as (c1 & Q & H). apply taken_inj in H as [-> _].
    apply challenge_keeps in Q as (_ & Q & _). cbn [ch] in Q. congruence.
  - unfold on_rsa_aes_challenge in H. cbv zeta in H.
    destruct (avail b <? 2); [apply taken_inj in H as [-> _]; exact K|].
    destruct (avail b <? _); [apply taken_inj in H as [-> _]; exact K|].
    destruct (rsa_decrypt _ _); [|discriminate].
    apply bind_ok in H as (? & _ & H). apply bind_ok in H as (? & _ & H). apply taken_inj in H as [-> _]. discriminate K.
  - unfold on_rsa_aes_client_hash in H.
    destruct (avail b <? _); [apply taken_inj in H as [-> _]; exact K|].
    apply bind_ok in H as (? & _ & H). apply bind_ok in H as (? & _ & H).
    destruct (list_eq_dec _ _ _); [|discriminate]. apply taken_inj in H as [-> _]. exact K.
  - unfold on_rsa_aes_credentials, authenticate in H. crack H; apply taken_inj in H as [-> _]; exact K.
  - unfold on_init_message in H. crack H; apply taken_inj in H as [-> _]; exact K.
  - apply taken_inj in H as [-> _]. exact K.
Qed.

Lemma enc_before c b c' n : try_read cfg e c b = Ok (Some (c', n)) -> encrypted (ch c') = false -> encrypted (ch c) = false.
Proof.
  intros H K. assert (ch c' = Clear) by (destruct (ch c'); [reflexivity|discriminate..]).
  now rewrite (clear_before c b c' n H).
Qed.

Lemma loop_clear_before c b c' b' : rx_ok b -> loop c b = Ok (c', b') -> encrypted (ch c') = false -> encrypted (ch c) = false.
Proof.
  intros R L. refine (proj1 (read_loop_inv cfg e (fun c' _ => encrypted (ch c') = false -> encrypted (ch c) = false) _ (S (length b)) c b c' b' (fun H => H) R L)).
  intros c1 b1 c2 n I _ T K. apply I. now apply (enc_before c1 b1 c2 n).
Qed.

Lemma loop_ok c b c' b' : rx_ok b -> loop c b = Ok (c', b') -> rx_ok b'.
Proof. intros R L. now apply (read_loop_inv cfg e (fun _ _ => True) ltac:(auto) (S (length b)) c b c' b' I R L). Qed.

Lemma loop_shorter : forall k c b c' b', (length b <= k)%nat -> rx_ok b -> loop c b = Ok (c', b') -> (length b' <= length b)%nat.
Proof.
  induction k as [k IH] using lt_wf_ind. intros c b c' b' L R H. rewrite loop_eq in H by exact R.
  destruct (try_read cfg e c b) as [[[c1 n]|]|] eqn:T; cbn [bind] in H; try discriminate H.
  destruct (n =? 0) eqn:N0; [apply ok_inj in H; injection H as _ <-; lia|].
  assert (N := try_read_taken cfg e c b c1 n R T). replace (avail b <? n) with false in H by lia.
  assert (LS : (length (skipn (Z.to_nat n) b) < length b)%nat) by (rewrite skipn_length; unfold avail in *; lia).
  apply (IH (length (skipn (Z.to_nat n) b))) in H; [lia|lia|lia|now apply rx_skipn].
Qed.

Lemma between (k0 k1 k2 : chan) (f : bool) : (encrypted k1 = false -> encrypted k0 = false) ->
  (encrypted k2 = false -> encrypted k1 = false) -> encrypted k0 = f -> encrypted k2 = f -> encrypted k1 = f.
Proof. destruct (encrypted k0), (encrypted k1), (encrypted k2), f; intuition discriminate. Qed.

(* any number of reads, while the connection stays as encrypted as it is *)
Lemma pieces (f : bool) : forall reads c b c' b', rx_ok b -> Forall all_bytes reads ->
  session cfg e (c, b) reads = Ok (c', b') -> encrypted (ch c') = f -> encrypted (ch c) = f ->
  (length b + length (concat reads) <= 4096)%nat -> concat reads <> [] ->
  outcome_of (loop c (b ++ map (pair f) (concat reads))) = Ok c'.
Proof.
  induction reads as [|d reads IH]; intros c b c' b' R F E K K0 L NE; [now destruct NE|].
  cbn [session] in E. apply bind_ok in E as ([c1 b1] & E1 & E). assert (F1 := Forall_inv F). assert (F2 := Forall_inv_tail F).
  cbn [concat] in *. destruct d as [|z d].
  { cbn in E1. apply ok_inj in E1. injection E1 as <- <-. cbn [app] in *. now apply (IH c b c' b'). }
  cbn [on_client_event] in E1. rewrite K0 in E1.
  set (d' := z :: d) in *. rewrite app_length in L.
  replace (4096 <? _) with false in E1 by (unfold avail; rewrite app_length, map_length; lia).
  fold (loop c (b ++ map (pair f) d')) in E1.
  assert (RX : rx_ok (b ++ map (pair f) d')) by now apply rx_app.
  destruct (concat reads) as [|y r] eqn:C.
  - rewrite app_nil_r. rewrite E1. cbn.
    clear IH L. revert c1 b1 E1 E C. clear -F2. intros c1 b1 _ E C.
    assert (X : c1 = c'); [|now subst]. clear F2. revert c1 b1 E. induction reads as [|x reads IH]; intros c1 b1 E.
    + cbn in E. apply ok_inj in E. congruence.
    + cbn [concat] in C. apply app_eq_nil in C as [-> C]. cbn in E. now apply (IH C c1 b1).
  - assert (Fr : all_bytes (y :: r)).
    { rewrite <- C. clear -F2. induction F2; cbn; [constructor|apply Forall_app; auto]. }
    rewrite map_app, app_assoc. rewrite (loop_split (length (b ++ map (pair f) d'))); [|lia|exact RX|].
    2:{ unfold rx_ok. now rewrite bytes_tag. }
    rewrite E1. assert (R1 := loop_ok _ _ _ _ RX E1).
    assert (SB := loop_shorter _ _ _ _ _ (le_n _) RX E1). rewrite app_length, map_length in SB.
    assert (K1 : encrypted (ch c1) = f).
    { apply (between (ch c) (ch c1) (ch c')); [| |exact K0|exact K].
      2:{ refine (proj1 (session_inv cfg e (fun c2 _ => encrypted (ch c2) = false -> encrypted (ch c1) = false) _ (fun _ _ _ H => H) reads c1 b1 c' b' F2 (fun H => H) R1 E)).
        intros c2 b2 c3 n I _ T Q. apply I. now apply (enc_before c2 b2 c3 n). }
      apply (loop_clear_before _ _ _ _ RX E1). }
    apply (IH c1 b1 c' b' R1 F2 E K K1); [lia|discriminate].
Qed.

Lemma empty_reads : forall reads c b, concat reads = [] -> session cfg e (c, b) reads = Ok (c, b).
Proof.
  induction reads as [|x reads IH]; intros c b C; [reflexivity|].
  cbn [concat] in C. apply app_eq_nil in C as [-> C]. cbn. now apply IH.
Qed.

(* and back: reads in other pieces *)
Lemma pieces_back (f : bool) : forall reads c b c' b', rx_ok b -> Forall all_bytes reads -> concat reads <> [] ->
  (length b + length (concat reads) <= 4096)%nat -> encrypted (ch c) = f -> encrypted (ch c') = f ->
  loop c (b ++ map (pair f) (concat reads)) = Ok (c', b') ->
  exists b'', session cfg e (c, b) reads = Ok (c', b'').
Proof.
  induction reads as [|d reads IH]; intros c b c' b' R F NE L K0 K E; [now destruct NE|].
  assert (F1 := Forall_inv F). assert (F2 := Forall_inv_tail F). cbn [concat session] in *. destruct d as [|z d].
  { cbn [on_client_event bind]. cbn [app] in *. now apply (IH c b c' b'). }
  cbn [on_client_event]. rewrite K0.
  set (d' := z :: d) in *. rewrite app_length in L.
  replace (4096 <? _) with false by (unfold avail; rewrite app_length, map_length; lia).
  fold (loop c (b ++ map (pair f) d')).
  assert (RX : rx_ok (b ++ map (pair f) d')) by now apply rx_app.
  destruct (concat reads) as [|y r] eqn:C.
  - rewrite app_nil_r in E. rewrite E. cbn [bind]. exists b'. now apply empty_reads.
  - assert (Fr : all_bytes (y :: r)).
    { rewrite <- C. clear -F2. induction F2; cbn; [constructor|apply Forall_app; auto]. }
    rewrite map_app, app_assoc in E.
    assert (Q := loop_split (length (b ++ map (pair f) d')) c (b ++ map (pair f) d') (map (pair f) (y :: r)) (le_n _) RX).
    rewrite E in Q. unfold rx_ok in Q at 1. rewrite bytes_tag in Q. specialize (Q Fr). cbn [outcome_of bind fst] in Q.
    destruct (loop c (b ++ map (pair f) d')) as [[c1 b1]|] eqn:E1; [|discriminate]. cbn [bind].
    assert (R1 := loop_ok _ _ _ _ RX E1).
    assert (SB := loop_shorter _ _ _ _ _ (le_n _) RX E1). rewrite app_length, map_length in SB.
    destruct (loop c1 (b1 ++ map (pair f) (y :: r))) as [[c2 b2]|] eqn:E2; [|discriminate].
    cbn in Q. apply ok_inj in Q. subst c2.
    assert (K1 : encrypted (ch c1) = f).
    { apply (between (ch c) (ch c1) (ch c')); [| |exact K0|exact K].
      - apply (loop_clear_before _ _ _ _ RX E1).
      - apply (loop_clear_before _ _ _ _ (rx_app b1 f (y :: r) R1 Fr) E2). }
    apply (IH c1 b1 c' b2 R1 F2); try assumption; [discriminate|lia].
Qed.

Lemma any_pieces reads1 reads2 c b c1 b1 : rx_ok b -> Forall all_bytes reads1 -> Forall all_bytes reads2 ->
  concat reads1 = concat reads2 -> (length b + length (concat reads1) <= 4096)%nat ->
  session cfg e (c, b) reads1 = Ok (c1, b1) -> encrypted (ch c1) = encrypted (ch c) ->
  exists b2, session cfg e (c, b) reads2 = Ok (c1, b2).
Proof.
  intros R F1 F2 C L E K.
  destruct (list_eq_dec Z.eq_dec (concat reads1) []) as [N|N].
  - rewrite (empty_reads reads1 c b N) in E. apply ok_inj in E. injection E as <- <-.
    exists b. apply empty_reads. congruence.
  - assert (O := pieces (encrypted (ch c)) reads1 c b c1 b1 R F1 E K eq_refl L N).
    destruct (loop c (b ++ map (pair (encrypted (ch c))) (concat reads1))) as [[c2 b2]|] eqn:Q; [|discriminate].
    cbn in O. apply ok_inj in O. subst c2. rewrite C in *.
    now apply (pieces_back (encrypted (ch c)) reads2 c b c1 b2).
Qed.
End Any.
