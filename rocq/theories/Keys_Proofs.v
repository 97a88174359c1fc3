(** Proofs about the exchange of hashes in RSA-AES. *)
From Verif Require Import Common CommonProofs Ws_Proofs WsStream_Proofs Pixels_Model Init_Model Auth_Model Auth_Spec
  Auth_Proofs Auth2_Proofs Auth3_Proofs Auth4_Proofs Auth5_Proofs Keys_Spec.

Lemma key_message_length size n x : 0 <= size -> zlen (key_message size n x) = 4 + 2 * size.
Proof. intros. unfold zlen, key_message. rewrite !app_length, !be_length. lia. Qed.

Lemma tidy_size size n x : tidy_key size n x -> rsa_size n = size.
Proof.
  intros (S & _ & [L U] & O & _).
  assert (N : 0 < n) by (pose proof (Z.pow_pos_nonneg 256 (size - 1)); lia).
  assert (B : byte_size n <= size) by (apply byte_size_bound; lia).
  assert (B' : size <= byte_size n).
  { unfold byte_size. replace (n =? 0) with false by lia. apply Z.div_le_lower_bound; [lia|].
    assert (8 * (size - 1) <= Z.log2 n); [|lia]. apply Z.log2_le_pow2; [lia|].
    rewrite Z.pow_mul_r by lia. exact L. }
  unfold rsa_size. rewrite <- Z.negb_odd, O. cbn [negb orb]. replace (byte_size n <? 12) with false by lia. lia.
Qed.

Lemma export_be size n : 0 < size -> 0 <= n < 256 ^ size -> exists k, crypto_export size n = Ok (be (Z.to_nat size) n, k).
Proof. intros. rewrite crypto_export_ok by (apply byte_size_bound; lia). eauto. Qed.

Lemma key_entries_message size n x : 0 < size -> size * 8 < 2 ^ 32 -> 0 <= n < 256 ^ size -> 0 <= x < 256 ^ size ->
  exists l, key_entries (size, n, x) = Ok l /\ Forall (fun y => y <> []) l /\ concat l = key_message size n x.
Proof.
  intros S S2 N X. unfold key_entries. destruct (export_be size n S N) as [k ->]. destruct (export_be size x S X) as [k' ->].
  cbn [bind fst]. rewrite Z.mod_small by lia.
  assert (NE : forall j v, (0 < j)%nat -> be j v <> []) by (intros j v J E; apply (f_equal (@length Z)) in E; rewrite be_length in E; cbn in E; lia).
  eexists. split; [reflexivity|]. split.
  - repeat constructor; apply NE; lia.
  - cbn [concat]. rewrite app_nil_r. reflexivity.
Qed.

Lemma entries_concat l : Forall (fun y => y <> []) l -> entries l = concat l.
Proof. induction 1 as [|y l Y F IH]; [reflexivity|]. destruct y; [contradiction|]. cbn [entries concat]. now rewrite IH. Qed.

Section Any.
Variable cfg : config.
Variable e : env.

Lemma hash_many_digest c l : Forall (fun y => y <> []) l -> hash_many e c l = digest_of e c (concat l).
Proof. intros F. unfold hash_many, digest_of, hash_len. rewrite (entries_concat l F). now destruct (sha256 c). Qed.

Lemma server_entries : server_key_fine e ->
  exists l, key_entries (server_key e) = Ok l /\ Forall (fun y => y <> []) l /\ concat l = server_message e.
Proof.
  unfold server_key_fine, server_message. destruct (server_key e) as [[size n] x]. intros (A & B & C & D).
  now apply key_entries_message.
Qed.

Lemma tidy_entries size n x : tidy_key size n x ->
  exists l, key_entries (size, n, x) = Ok l /\ Forall (fun y => y <> []) l /\ concat l = key_message size n x.
Proof.
  intros (A & B & [C C'] & _ & D). apply key_entries_message; try lia.
Qed.

Lemma key_taken c b size n x rest c' k :
  st c = SRsaPub -> tidy_key size n x -> bytes b = key_message size n x ++ rest ->
  try_read cfg e c b = Ok (Some (c', k)) ->
  k = zlen (key_message size n x) /\ st c' = SRsaChallenge /\ pub c' = (size, n, x) /\ sha256 c' = sha256 c.
Proof.
  intros S T B H. unfold try_read in H. rewrite S in H. unfold on_rsa_aes_public_key in H.
  assert (Sz := tidy_size size n x T). destruct T as (T1 & T2 & [T3 T3'] & _ & T4).
  assert (P0 : 0 <= 256 ^ (size - 1)) by (apply Z.pow_nonneg; lia).
  assert (Lm := key_message_length size n x ltac:(lia)).
  assert (Lb := bytes_length b). rewrite B, app_length in Lb. unfold zlen in Lm.
  replace (avail b <? 4) with false in H by lia. cbv zeta in H.
  assert (P : 256 ^ Z.of_nat (Z.to_nat size) = 256 ^ size) by (rewrite Z2Nat.id by lia; reflexivity).
  assert (E1 : unbe (firstn 4 (bytes b)) = size * 8).
  { rewrite B. unfold key_message. rewrite <- !app_assoc, firstn_app_eq by apply be_length. apply unbe_be.
    change (256 ^ Z.of_nat 4) with (2 ^ 32). lia. }
  rewrite E1 in H. assert (E2 : bits_to_bytes (size * 8) = size).
  { unfold bits_to_bytes. destruct (Z.le_gt_cases (2 ^ 32) (size * 8 + 8 - 1)) as [G|G]; [|rewrite Z.mod_small by lia; replace (size * 8 + 8 - 1) with (7 + size * 8) by lia; rewrite Z.div_add by lia; reflexivity].
    exfalso. assert (size * 8 <= 2 ^ 32 - 8); [|lia]. change (2 ^ 32) with (536870912 * 8) in *. lia. }
  rewrite E2 in H. replace (avail b <? 4 + size * 2) with false in H by lia.
  assert (E3 : skipn 4 (bytes b) = be (Z.to_nat size) n ++ be (Z.to_nat size) x ++ rest).
  { rewrite B. unfold key_message. rewrite <- !app_assoc, skipn_app_eq by apply be_length. reflexivity. }
  assert (E4 : skipn (4 + Z.to_nat size) (bytes b) = be (Z.to_nat size) x ++ rest).
  { rewrite Nat.add_comm, <- skipn_skipn, E3, skipn_app_eq by apply be_length. reflexivity. }
  rewrite E3, E4, !firstn_app_eq, !unbe_be, Sz in H by (rewrite ?be_length; try lia; rewrite P; lia).
  apply bind_ok in H as (c1 & H & H2). apply taken_inj in H2 as [-> ->].
  split; [unfold zlen; lia|]. unfold rsa_aes_send_challenge in H. cbn [pub] in H. cbv zeta in H.
  destruct (rsa_encrypt e _ _ _ _).
  - apply bind_ok in H as (o & _ & H). destruct (1024 <? 2 + size); [discriminate|]. apply ok_inj in H as <-. auto.
  - apply ok_inj in H as <-. auto.
Qed.

Lemma server_proves c b size n x c' k :
  st c = SRsaChallenge -> pub c = (size, n, x) -> tidy_key size n x -> server_key_fine e ->
  try_read cfg e c b = Ok (Some (c', k)) -> k <> 0 ->
  st c' = SRsaHash /\ ch c' = RsaAes /\ pub c' = (size, n, x) /\ sha256 c' = sha256 c /\
  exists s s', log c' = log c ++ [Upgraded RsaAes s s'; Sent RsaAes (digest_of e c (server_message e ++ key_message size n x))].
Proof.
  intros S P T F H K. unfold try_read in H. rewrite S in H. unfold on_rsa_aes_challenge in H.
  destruct (avail b <? 2); [apply taken_inj in H as [_ ->]; lia|]. cbv zeta in H.
  destruct (avail b <? _); [apply taken_inj in H as [_ ->]; lia|].
  destruct (rsa_decrypt e _); [|discriminate].
  destruct (server_entries F) as (ls & E1 & F1 & C1). destruct (tidy_entries size n x T) as (l' & E2 & F2 & C2).
  rewrite E1 in H. cbn [bind pub note] in H. rewrite P in H. rewrite E2 in H. cbn [bind] in H. apply taken_inj in H as [-> _].
  split; [reflexivity|]. split; [reflexivity|]. split; [reflexivity|]. split; [reflexivity|]. eexists _, _.
  cbn [log goto send note ch]. rewrite <- app_assoc. cbn [app]. do 3 f_equal.
  rewrite hash_many_digest by (apply Forall_app; auto). rewrite concat_app, C1, C2. reflexivity.
Qed.

Lemma client_proves c b size n x :
  st c = SRsaHash -> pub c = (size, n, x) -> tidy_key size n x -> server_key_fine e ->
  let want := digest_of e c (key_message size n x ++ server_message e) in
  let len := if sha256 c then 32 else 20 in
  try_read cfg e c b =
    if avail b <? len then Ok (Some (c, 0))
    else if list_eq_dec Z.eq_dec (firstn (Z.to_nat len) (bytes b)) want
    then Ok (Some (goto (send c [1]) SRsaCred, len)) else Ok None.
Proof.
  intros S P T F want len. unfold try_read. rewrite S. unfold on_rsa_aes_client_hash. fold (hash_len c). unfold len. fold (hash_len c).
  destruct (avail b <? hash_len c); [reflexivity|].
  destruct (server_entries F) as (l & E1 & F1 & C1). destruct (tidy_entries size n x T) as (l' & E2 & F2 & C2).
  rewrite E1, P, E2. cbn [bind]. rewrite hash_many_digest by (apply Forall_app; auto). rewrite concat_app, C1, C2. reflexivity.
Qed.

(* the state in which credentials are read is entered from one state only *)
Lemma cred_entered c b c' k : try_read cfg e c b = Ok (Some (c', k)) -> st c' = SRsaCred ->
  st c = SRsaHash \/ (st c = SRsaCred /\ k = 0 /\ c' = c).
Proof.
  unfold try_read. destruct (st c) eqn:S; intros H K; try (left; reflexivity); lazymatch type of S with st c = SRsaCred => right; split; [reflexivity|] | _ => exfalso end.
  - apply taken_inj in H as [-> _]. congruence.
  - unfold on_version_message in H. destruct (avail b <? 12); [apply taken_inj in H as [-> _]; congruence|].
    destruct (negb _); [apply taken_inj in H as [-> _]; discriminate|].
    apply bind_ok in H as (? & _ & H). apply taken_inj in H as [-> _]. discriminate.
  - unfold on_security_message in H. destruct (bytes b) as [|t l]; [apply taken_inj in H as [-> _]; congruence|].
    destruct (negb _); [apply taken_inj in H as [-> _]; discriminate|]. cbv zeta in H.
    repeat match type of H with context [if ?x then _ else _] => destruct x end;
      try (apply bind_ok in H as (? & _ & H)); apply taken_inj in H as [-> _]; discriminate.
  - unfold on_vencrypt_version in H. destruct (bytes b) as [|t [|t' l]]; try (apply taken_inj in H as [-> _]; congruence).
    destruct (_ || _); apply taken_inj in H as [-> _]; discriminate.
  - unfold on_vencrypt_subtype in H. destruct (avail b <? 4); [apply taken_inj in H as [-> _]; congruence|].
    destruct (negb _); [apply taken_inj in H as [-> _]; discriminate|]. cbv zeta in H.
    destruct (tls_accepts e _); [apply taken_inj in H as [-> _]|]; discriminate.
  - unfold on_vencrypt_plain in H. destruct (avail b <? 8); [apply taken_inj in H as [-> _]; congruence|]. cbv zeta in H.
    destruct (avail b <? _); apply taken_inj in H as [-> _]; [congruence|]. unfold authenticate in K. destruct (auth_fn e _ _ _); discriminate.
  - unfold apple_dh_handle_response in H. destruct (avail b <? _); [apply taken_inj in H as [-> _]; congruence|]. cbv zeta in H.
    apply taken_inj in H as [-> _]. unfold authenticate in K. destruct (auth_fn e _ _ _); discriminate.
  - unfold on_rsa_aes_public_key in H. destruct (avail b <? 4); [apply taken_inj in H as [-> _]; congruence|]. cbv zeta in H.
    destruct (avail b <? _); [apply taken_inj in H as [-> _]; congruence|]. apply bind_ok in H as (c1 & H & H2). apply taken_inj in H2 as [-> _].
    unfold rsa_aes_send_challenge in H. cbn [pub] in H. cbv zeta in H. destruct (rsa_encrypt e _ _ _ _).
    + apply bind_ok in H as (o & _ & H). destruct (1024 <? _); [discriminate|]. apply ok_inj in H as <-. discriminate.
    + apply ok_inj in H as <-. discriminate.
  - unfold on_rsa_aes_challenge in H. destruct (avail b <? 2); [apply taken_inj in H as [-> _]; congruence|]. cbv zeta in H.
    destruct (avail b <? _); [apply taken_inj in H as [-> _]; congruence|]. destruct (rsa_decrypt e _); [|discriminate].
    apply bind_ok in H as (? & _ & H). apply bind_ok in H as (? & _ & H). apply taken_inj in H as [-> _]. discriminate.
  - unfold on_rsa_aes_credentials in H. destruct (avail b <? 2); [apply taken_inj in H as [-> ->]; auto|]. cbv zeta in H.
    destruct (avail b <? _); [apply taken_inj in H as [-> ->]; auto|]. destruct (avail b <? _); [apply taken_inj in H as [-> ->]; auto|].
    apply taken_inj in H as [-> _]. unfold authenticate in K. destruct (auth_fn e _ _ _); discriminate.
  - unfold on_init_message in H. destruct (bytes b) as [|t l]; [apply taken_inj in H as [-> _]; congruence|]. cbv zeta in H.
    destruct (send_server_init_message _ _) as [[m ?]|]; [|discriminate]. apply taken_inj in H as [-> _]. discriminate.
  - apply taken_inj in H as [-> _]. congruence.
Qed.
End Any.
