From Verif Require Import Common CommonProofs Ws_Proofs WsStream_Proofs Pixels_Model Init_Model Auth_Model Auth_Spec Auth_Proofs Auth2_Proofs Auth3_Proofs Auth4_Proofs.

(** ** Bytes, decided *)
Definition bytesb (l : list Z) : bool := forallb (fun b => (0 <=? b) && (b <? 256)) l.
Lemma bytesb_ok l : bytesb l = true -> all_bytes l.
Proof.
  unfold bytesb, all_bytes. rewrite forallb_forall, Forall_forall. intros H x I. apply H in I. unfold is_byte. lia.
Qed.
Lemma bytesbs_ok l : forallb bytesb l = true -> Forall all_bytes l.
Proof. rewrite forallb_forall, Forall_forall. intros H x I. apply bytesb_ok. auto. Qed.

(** ** Sizes of numbers *)

Lemma byte_size_pos n : 1 <= byte_size n.
Proof.
  unfold byte_size. destruct (n =? 0); [lia|].
  pose proof (Z.log2_nonneg n). apply Z.div_le_lower_bound; lia.
Qed.

Lemma byte_size_mono a b : 0 <= a <= b -> byte_size a <= byte_size b.
Proof.
  intros H. unfold byte_size. destruct (a =? 0) eqn:A.
  - apply (byte_size_pos b).
  - replace (b =? 0) with false by lia. apply Z.div_le_mono; [lia|].
    pose proof (Z.log2_le_mono a b). lia.
Qed.

Lemma byte_size_bound n k : 0 <= n < 256 ^ k -> 1 <= k -> byte_size n <= k.
Proof.
  intros H K. unfold byte_size. destruct (n =? 0) eqn:Z0; [lia|].
  assert (L : Z.log2 n < 8 * k).
  { apply Z.log2_lt_pow2; [lia|]. rewrite Z.pow_mul_r by lia. exact (proj2 H). }
  assert ((Z.log2 n + 1 + 7) / 8 < k + 1); [|lia]. apply Z.div_lt_upper_bound; lia.
Qed.

Lemma byte_size_upper n : 0 <= n -> n < 256 ^ byte_size n.
Proof.
  intros H. unfold byte_size. destruct (n =? 0) eqn:Z0.
  - assert (n = 0) by lia. subst. reflexivity.
  - assert (B := Z.log2_spec n ltac:(lia)). assert (N := Z.log2_nonneg n).
    change 256 with (2 ^ 8). rewrite <- Z.pow_mul_r; [|lia|apply Z.div_pos; lia].
    assert (D := Z.div_mod (Z.log2 n + 1 + 7) 8 ltac:(lia)). assert (M := Z.mod_pos_bound (Z.log2 n + 1 + 7) 8 ltac:(lia)).
    eapply Z.lt_le_trans; [apply B|]. apply Z.pow_le_mono_r; lia.
Qed.

Lemma crypto_export_ok size n : byte_size n <= size ->
  crypto_export size n = Ok (be (Z.to_nat size) n, if n =? 0 then 0 else byte_size n).
Proof. intros H. unfold crypto_export. now replace (byte_size n <=? size) with true by lia. Qed.

(** ** What RSA is assumed to do *)

(* a ciphertext is a number below the modulus, and unacceptable keys fail *)
Definition rsa_sound (e : env) : Prop :=
  forall l n x msg m, rsa_encrypt e l n x msg = Some m -> 0 <= m < n /\ rsa_size n <> 0.
(* the server's own key fits its length *)
Definition server_key_ok (e : env) : Prop :=
  let '(len, n, x) := server_key e in byte_size n <= len /\ byte_size x <= len.
(* a key of which the exponent is no longer than the modulus *)
Definition key_ok (k : Z * Z * Z) : Prop :=
  let '(size, n, x) := k in byte_size n <= size /\ byte_size x <= size.

Section Any.
Variable cfg : config.
Variable e : env.

Lemma key_entries_ok k : key_ok k -> exists l, key_entries k = Ok l.
Proof.
  destruct k as [[size n] x]. intros [H1 H2]. unfold key_entries. rewrite !crypto_export_ok by assumption.
  cbn. eauto.
Qed.

Lemma send_challenge_ok c size n x : rsa_sound e -> pub c = (size, n, x) -> size = rsa_size n -> size <= 1022 ->
  exists c', rsa_aes_send_challenge e c = Ok c'.
Proof.
  intros Sd P Sz Le. unfold rsa_aes_send_challenge. rewrite P. cbv zeta.
  destruct (rsa_encrypt _ _ _ _ _) as [m|] eqn:E; [|eauto].
  apply Sd in E as [E1 E2].
  rewrite crypto_export_ok.
  - cbn [bind]. replace (1024 <? 2 + size) with false by lia. eauto.
  - rewrite Sz. unfold rsa_size in *. destruct (Z.even n || _); [lia|]. apply byte_size_mono. lia.
Qed.

Lemma public_key_fits c b : rsa_sound e -> rx_ok b -> st c = SRsaPub ->
  bits_to_bytes (unbe (firstn 4 (bytes b))) <= 1022 ->
  exists r, try_read cfg e c b = Ok r.
Proof.
  intros Sd R S L. unfold try_read. rewrite S. unfold on_rsa_aes_public_key.
  destruct (avail b <? 4) eqn:A; [eauto|]. cbv zeta. set (len := bits_to_bytes _) in *.
  destruct (avail b <? 4 + len * 2) eqn:A2; [eauto|].
  assert (L0 : 0 <= len) by apply bits_to_bytes_nonneg.
  set (n := unbe (firstn _ (skipn 4 _))).
  assert (N : 0 <= n < 256 ^ len).
  { assert (X := unbe_bound (firstn (Z.to_nat len) (skipn 4 (bytes b))) ltac:(apply Forall_firstn, Forall_skipn, R)).
    pose proof (bytes_length b). rewrite firstn_length_le in X by (rewrite skipn_length; lia).
    rewrite Z2Nat.id in X by lia. exact X. }
  assert (Sz : rsa_size n <= 1022).
  { unfold rsa_size. destruct (Z.even n || _); [lia|].
    destruct (Z.eq_dec len 0) as [E0|E0]; [rewrite E0 in N; cbn in N; assert (n = 0) by lia; subst n|].
    - unfold byte_size. replace (unbe _) with 0. cbn. lia.
    - pose proof (byte_size_bound n len N). lia. }
  edestruct send_challenge_ok as [c' E]; [exact Sd| | | |rewrite E; cbn; eauto]; cbn [pub]; [reflexivity|reflexivity|exact Sz].
Qed.

Lemma public_key_overflows c b n m :
  st c = SRsaPub ->
  let k := Z.to_nat (bits_to_bytes (unbe (firstn 4 (bytes b)))) in
  4 <= avail b -> 4 + Z.of_nat k * 2 <= avail b ->
  n = unbe (firstn k (skipn 4 (bytes b))) -> 1023 <= rsa_size n ->
  (forall l x msg, rsa_encrypt e l n x msg = Some m) -> byte_size m <= rsa_size n ->
  try_read cfg e c b = Fault OobWrite.
Proof.
  intros S k A1 A2 N Sz E M. unfold try_read. rewrite S. unfold on_rsa_aes_public_key.
  replace (avail b <? 4) with false by lia. cbv zeta.
  pose proof (bits_to_bytes_nonneg (unbe (firstn 4 (bytes b)))).
  replace (avail b <? 4 + bits_to_bytes (unbe (firstn 4 (bytes b))) * 2) with false by (unfold k in A2; lia).
  fold k. rewrite <- N. unfold rsa_aes_send_challenge. cbn [pub]. cbv zeta. rewrite E.
  rewrite crypto_export_ok by exact M. cbn [bind]. now replace (1024 <? 2 + rsa_size n) with true by lia.
Qed.

Lemma rsa_messages_total c b : rx_ok b -> server_key_ok e -> key_ok (pub c) ->
  st c = SRsaChallenge \/ st c = SRsaHash \/ st c = SRsaCred ->
  exists r, try_read cfg e c b = Ok r.
Proof.
  intros R Sk Pk S.
  destruct (key_entries_ok (server_key e)) as [s Es].
  { unfold server_key_ok in Sk. destruct (server_key e) as [[? ?] ?]. exact Sk. }
  destruct (key_entries_ok (pub c) Pk) as [k Ek].
  unfold try_read. destruct S as [S|[S|S]]; rewrite S.
  - unfold on_rsa_aes_challenge. destruct (avail b <? 2); [eauto|]. cbv zeta.
    destruct (avail b <? _); [eauto|]. destruct (rsa_decrypt _ _); [|eauto].
    rewrite Es. cbn [bind pub note]. rewrite Ek. cbn [bind]. eauto.
  - unfold on_rsa_aes_client_hash. destruct (avail b <? _); [eauto|]. rewrite Es. cbn [bind].
    rewrite Ek. cbn [bind]. destruct (list_eq_dec _ _ _); eauto.
  - unfold on_rsa_aes_credentials. destruct (avail b <? 2); [eauto|]. cbv zeta.
    destruct (avail b <? _); [eauto|]. destruct (avail b <? _); eauto.
Qed.

(** ** Which failures are possible at all *)

Definition known (f : fault) : Prop := f = AssertFail \/ f = OobWrite \/ f = UseAfterFree.

Lemma bind_fault {A B} (x : res A) (f : A -> res B) y :
  bind x f = Fault y -> x = Fault y \/ exists a, x = Ok a /\ f a = Fault y.
Proof. destruct x; cbn; [eauto|]. intros E. left. congruence. Qed.

Lemma export_known size n f : crypto_export size n = Fault f -> known f.
Proof. unfold crypto_export. destruct (_ <=? _); [discriminate|]. intros E. left. congruence. Qed.

Lemma key_entries_known k f : key_entries k = Fault f -> known f.
Proof.
  destruct k as [[? ?] ?]. unfold key_entries. intros E.
  apply bind_fault in E as [E|(? & _ & E)]; [now apply export_known in E|].
  apply bind_fault in E as [E|(? & _ & E)]; [now apply export_known in E|]. discriminate.
Qed.

Lemma handler_faults c b f : try_read cfg e c b = Fault f -> known f.
Proof.
  intros H. unfold try_read in H. destruct (st c); try discriminate.
  - unfold on_version_message in H. destruct (avail b <? 12); [discriminate|]. destruct (negb _); [discriminate|].
    apply bind_fault in H as [H|(? & _ & H)]; [|discriminate].
    unfold init_security_types in H. destruct (types c); [|discriminate].
    apply bind_fault in H as [H|(l & _ & H)].
    + destruct (require_auth cfg); [|discriminate]. destruct (negb _); [|discriminate]. left; congruence.
    + destruct l; [left; congruence|discriminate].
  - unfold on_security_message in H. destruct (bytes b); [discriminate|]. cbv zeta in H.
    destruct (negb _); [discriminate|].
    destruct (z =? TYPE_NONE); [discriminate|]. destruct (enable_tls cfg && _); [discriminate|].
    assert (RSA : forall c0, rsa_aes_send_public_key e c0 = Fault f -> known f).
    { intros c0 K. unfold rsa_aes_send_public_key in K. destruct (server_key e) as [[? ?] ?].
      apply bind_fault in K as [K|(? & _ & K)]; [now apply export_known in K|].
      apply bind_fault in K as [K|(? & _ & K)]; [now apply export_known in K|]. discriminate. }
    destruct (have_crypto cfg && (z =? TYPE_APPLE_DH)).
    { apply bind_fault in H as [H|(? & _ & H)]; [|discriminate]. unfold apple_dh_send_public_key in H. cbv zeta in H.
      apply bind_fault in H as [H|(? & _ & H)]; [now apply export_known in H|].
      destruct (negb _); [left; congruence|].
      apply bind_fault in H as [H|(? & _ & H)]; [now apply export_known in H|].
      destruct (negb _); [left; congruence|discriminate]. }
    destruct (have_crypto cfg && (z =? TYPE_RSA_AES)).
    { apply bind_fault in H as [H|(? & _ & H)]; [eauto|discriminate]. }
    destruct (have_crypto cfg && (z =? TYPE_RSA_AES256)).
    { apply bind_fault in H as [H|(? & _ & H)]; [eauto|discriminate]. }
    discriminate.
  - unfold on_vencrypt_version in H. destruct (bytes b) as [|? [|? ?]]; try discriminate. destruct (_ || _); discriminate.
  - unfold on_vencrypt_subtype in H. destruct (avail b <? 4); [discriminate|]. destruct (negb _); [discriminate|].
    cbv zeta in H. destruct (tls_accepts _ _); discriminate.
  - unfold on_vencrypt_plain in H. destruct (avail b <? 8); [discriminate|]. cbv zeta in H. destruct (avail b <? _); discriminate.
  - unfold apple_dh_handle_response in H. destruct (avail b <? _); discriminate.
  - unfold on_rsa_aes_public_key in H. destruct (avail b <? 4); [discriminate|]. cbv zeta in H.
    destruct (avail b <? _); [discriminate|].
    apply bind_fault in H as [H|(? & _ & H)]; [|discriminate]. unfold rsa_aes_send_challenge in H. cbn [pub] in H.
    cbv zeta in H. destruct (rsa_encrypt _ _ _ _ _); [|discriminate].
    apply bind_fault in H as [H|(? & _ & H)]; [now apply export_known in H|].
    destruct (1024 <? _); [right; left; congruence|discriminate].
  - unfold on_rsa_aes_challenge in H. destruct (avail b <? 2); [discriminate|]. cbv zeta in H.
    destruct (avail b <? _); [discriminate|]. destruct (rsa_decrypt _ _); [|discriminate].
    apply bind_fault in H as [H|(? & _ & H)]; [now apply key_entries_known in H|].
    apply bind_fault in H as [H|(? & _ & H)]; [now apply key_entries_known in H|]. discriminate.
  - unfold on_rsa_aes_client_hash in H. destruct (avail b <? _); [discriminate|].
    apply bind_fault in H as [H|(? & _ & H)]; [now apply key_entries_known in H|].
    apply bind_fault in H as [H|(? & _ & H)]; [now apply key_entries_known in H|].
    destruct (list_eq_dec _ _ _); discriminate.
  - unfold on_rsa_aes_credentials in H. destruct (avail b <? 2); [discriminate|]. cbv zeta in H.
    destruct (avail b <? _); [discriminate|]. destruct (avail b <? _); discriminate.
  - unfold on_init_message in H. destruct (bytes b); [discriminate|]. cbv zeta in H.
    destruct (send_server_init_message _ _) as [[? ?]|]; [discriminate|]. right; right; congruence.
Qed.

Lemma session_known c b reads f : Forall all_bytes reads -> rx_ok b -> session cfg e (c, b) reads = Fault f -> known f.
Proof.
  intros F R H. apply (session_fault cfg e (fun _ _ => True)) in H; auto.
  destruct H as (c' & b' & _ & _ & [H|[_ H]]); [now apply handler_faults in H|]. right; right; exact H.
Qed.

(** ** Without RSA and Apple DH nothing fails *)

Definition simple (s : cstate) : bool :=
  match s with
  | SError | SVersion | SSecurity | SVenVersion | SVenSubtype | SVenPlain | SInit | SReady => true
  | _ => false
  end.

Lemma simple_total c b : have_crypto cfg = false -> simple (st c) = true ->
  (exists l, init_security_types cfg (types c) = Ok l) ->
  (forall l, tls_accepts e l = true) -> (forall l, send_server_init_message (server_name e) (displayed e l) <> None) ->
  exists c' n, try_read cfg e c b = Ok (Some (c', n)) /\ simple (st c') = true /\
    exists l, init_security_types cfg (types c') = Ok l.
Proof.
  intros NC Si Ty Tl Di.
  assert (Keep : try_read cfg e c b = Ok (Some (c, 0)) -> exists c' n, try_read cfg e c b = Ok (Some (c', n)) /\ simple (st c') = true /\
    exists l, init_security_types cfg (types c') = Ok l) by eauto 6.
  unfold try_read in *. destruct (st c) eqn:S; try discriminate Si.
  - exists c, (avail b). rewrite S. auto.
  - unfold on_version_message in *. destruct (avail b <? 12); [auto|]. destruct (negb _).
    + eexists _, _. split; [reflexivity|]. split; [reflexivity|exact Ty].
    + destruct Ty as [l Ty]. rewrite Ty. cbn [bind]. eexists _, _. split; [reflexivity|]. split; [reflexivity|].
      cbn [types goto send note]. unfold init_security_types in Ty |- *. destruct l; [|eauto].
      destruct (types c); [|discriminate]. eauto.
  - unfold on_security_message in *. destruct (bytes b); [auto|]. cbv zeta.
    rewrite NC. cbn [andb].
    destruct (negb _); [eexists _, _; split; [reflexivity|]; split; [reflexivity|exact Ty]|].
    destruct (z =? TYPE_NONE); [eexists _, _; split; [reflexivity|]; split; [reflexivity|exact Ty]|].
    destruct (enable_tls cfg && _); [eexists _, _; split; [reflexivity|]; split; [reflexivity|exact Ty]|].
    eexists _, _; split; [reflexivity|]; split; [reflexivity|exact Ty].
  - unfold on_vencrypt_version in *. destruct (bytes b) as [|? [|? ?]]; [auto|auto|].
    destruct (_ || _); (eexists _, _; split; [reflexivity|]; split; [reflexivity|exact Ty]).
  - unfold on_vencrypt_subtype in *. destruct (avail b <? 4); [auto|]. destruct (negb _).
    + eexists _, _; split; [reflexivity|]; split; [reflexivity|exact Ty].
    + cbv zeta. rewrite Tl. eexists _, _; split; [reflexivity|]; split; [reflexivity|exact Ty].
  - unfold on_vencrypt_plain in *. destruct (avail b <? 8); [auto|]. cbv zeta in *. destruct (avail b <? _); [auto|].
    eexists _, _; split; [reflexivity|]. unfold authenticate. destruct (auth_fn _ _ _ _); (split; [reflexivity|exact Ty]).
  - unfold on_init_message in *. destruct (bytes b); [auto|]. cbv zeta.
    destruct (send_server_init_message _ _) as [[m f]|] eqn:E; [|now apply Di in E].
    eexists _, _; split; [reflexivity|]. split; [reflexivity|]. destruct (z =? 0); exact Ty.
  - exists c, 0. rewrite S. auto.
Qed.

Lemma simple_session cached reads : have_crypto cfg = false ->
  (exists l, init_security_types cfg cached = Ok l) ->
  (forall l, tls_accepts e l = true) -> (forall l, send_server_init_message (server_name e) (displayed e l) <> None) ->
  Forall all_bytes reads -> exists c b, session cfg e (connect cached, []) reads = Ok (c, b).
Proof.
  intros NC Ty Tl Di F.
  destruct (session cfg e (connect cached, []) reads) as [[c b]|f] eqn:E; [eauto|]. exfalso.
  apply (session_fault cfg e (fun c _ => simple (st c) = true /\ exists l, init_security_types cfg (types c) = Ok l)) in E; auto.
  - destruct E as (c & b & (Si & T) & R & H).
    destruct (simple_total c b NC Si T Tl Di) as (c' & n & X & _). destruct H as [H|[H _]]; rewrite X in H; discriminate.
  - intros c b c' n [Si T] R H. destruct (simple_total c b NC Si T Tl Di) as (c2 & n2 & X & Si2 & T2).
    rewrite X in H. apply taken_inj in H as [-> _]. auto.
  - constructor.
Qed.
End Any.
