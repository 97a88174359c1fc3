(** C133: Apple's Diffie-Hellman from end to end. *)
From Verif Require Import Common CommonProofs Ws_Proofs WsStream_Proofs Pixels_Model Init_Model Auth_Model Auth_Spec
  Auth_Proofs Auth2_Proofs Auth3_Proofs Auth4_Proofs Auth5_Proofs Auth_Props Dh_Model Dh_Spec Dh_Proofs.

Lemma prime_14 : prime = group14.
Proof. vm_compute. reflexivity. Qed.

(** A client that chose the type is sent the generator 2, the size, the prime of RFC 3526 and a public
    key; if it answers as the protocol says, with any secret number of its own, the
    application is asked about exactly the user name and password the client had.
    (Partial: if the server gets as far as sending its key, see below.) *)
Theorem C133_credentials_arrive_partial :
  forall cfg md5 enc dec e c b rest c1 k1,
    block_cipher enc dec -> (forall l n, all_bytes (random e l n)) ->
    st c = SSecurity -> have_crypto cfg = true -> In 30 (types c) -> bytes b = 30 :: rest ->
    try_read cfg (with_dh md5 dec e) c b = Ok (Some (c1, k1)) ->
    k1 = 1 /\ exists p q,
      log c1 = log c ++ [Sent (ch c) (be 2 2 ++ be 2 256); Sent (ch c) p; Sent (ch c) q] /\
      length p = 256%nat /\ length q = 256%nat /\ unbe p = group14 /\
      forall y user ju pass jp b2 rest2,
        0 <= y -> fits_field user ju -> fits_field pass jp ->
        bytes b2 = client_answer md5 enc 2 p q y (field user ju ++ field pass jp) ++ rest2 ->
        exists c2, try_read cfg (with_dh md5 dec e) c1 b2 = Ok (Some (c2, 384)) /\
          outcome (with_dh md5 dec e) c1 c2 user pass.
Proof.
  intros cfg md5 enc dec e c b rest c1 k1 BC R S HC I B H.
  destruct (security_key _ _ _ _ _ _ _ S HC I B H) as (-> & c' & K & ->). split; [reflexivity|].
  set (x := unbe (random e (log c) 256)).
  assert (X : 0 <= x) by (subst x; apply unbe_bound; apply R).
  destruct (export_256 (powm 2 x prime) (powm_range _ _)) as [k E].
  destruct (send_key (with_dh md5 dec e) c c' (be 256 prime) (be 256 (powm 2 x prime)) k) as [KS KL].
  { rewrite with_dh_prime. apply export_prime. }
  { rewrite with_dh_secret, with_dh_public. exact E. }
  { exact K. }
  rewrite with_dh_secret in KS. change (secret c' = x) in KS. clearbody x.
  exists (be 256 prime), (be 256 (powm 2 x prime)). split; [exact KL|split; [apply be_length|split; [apply be_length|split; [rewrite unbe_prime; exact prime_14|]]]].
  intros y user ju pass jp b2 rest2 Y [FU NU] [FP NP] B2.
  unfold client_answer in B2. cbv zeta in B2. rewrite unbe_prime, unbe_powm in B2. unfold powm in B2.
  set (text := field user ju ++ field pass jp) in *.
  assert (LT : length text = 128%nat) by (subst text; rewrite app_length, FU, FP; reflexivity).
  pose proof (decrypt_answer md5 enc dec BC x y text X Y LT) as D.
  assert (LC := blocks_length md5 enc dec BC 8 (md5 (be 256 ((2 ^ x mod prime) ^ y mod prime))) text LT).
  assert (LK := be_length 256 (2 ^ y mod prime)).
  revert D LC LK B2. generalize (blocks enc 8 (md5 (be 256 ((2 ^ x mod prime) ^ y mod prime))) text). intros creds.
  generalize (be 256 (2 ^ y mod prime)). intros pubkey D LC LK B2.
  rewrite <- app_assoc in B2.
  destruct (C34_apple_credentials_exact cfg (with_dh md5 dec e) (goto c' SAppleDh) b2 eq_refl) as [A _].
  destruct (A creds pubkey rest2 LC LK B2) as (c2 & T & O).
  exists c2. split; [exact T|]. cbv zeta in O. change (secret (goto c' SAppleDh)) with (secret c') in O.
  rewrite KS in O. pose proof (with_dh_decrypt md5 dec e x pubkey creds text D) as D'. rewrite D' in O. clear D D'.
  assert (Lu : (length user <= 63)%nat) by (unfold field in FU; rewrite app_length in FU; cbn [length] in FU; lia).
  assert (Lp : (length pass <= 63)%nat) by (unfold field in FP; rewrite app_length in FP; cbn [length] in FP; lia).
  replace (firstn 63 text) with (firstn 63 (field user ju)) in O
    by (subst text; rewrite firstn_app, FU; cbn [Nat.sub firstn]; now rewrite app_nil_r).
  replace (skipn 64 text) with (field pass jp) in O by (subst text; rewrite skipn_app_eq; auto).
  rewrite !cstr_field in O by assumption. exact O.
Qed.
Print Assumptions C133_credentials_arrive_partial.

(** The client's key is not a secret of its own but any number: the server's calculation
    never fails on it. *)
Theorem C133_any_client_key_is_safe :
  forall md5 dec secret public creds, exists t, apple_dh_decrypt md5 dec (mk_key 2 prime secret) public creds = Ok t.
Proof. intros. apply decrypt_total. Qed.
Print Assumptions C133_any_client_key_is_safe.

(** Both sides come to the same secret. *)
Theorem C133_same_secret :
  forall x y k k', 0 <= x -> 0 <= y ->
    let server := mk_key 2 prime x in let client := mk_key 2 prime y in
    crypto_derive_shared_secret server (crypto_derive_public_key client) = Some k ->
    crypto_derive_shared_secret client (crypto_derive_public_key server) = Some k' ->
    kq k = kq k'.
Proof.
  intros x y k k' X Y server client. unfold crypto_derive_shared_secret. subst server client. cbn [kg kp kq crypto_derive_public_key].
  rewrite !Z.eqb_refl. cbn [negb]. intros [= <-] [= <-]. cbn [kq]. now apply agreement.
Qed.
Print Assumptions C133_same_secret.

(** An exchange: the server draws 2046, the client 77; xor with the key stands for AES. *)
Definition xor_block (k b : list Z) : list Z := map (fun ab => Z.lxor (fst ab) (snd ab)) (combine b (firstn 16 (k ++ repeat 0 16))).
Lemma xor_cipher : block_cipher xor_block xor_block.
Proof.
  intros k b L. unfold xor_block. set (k16 := firstn 16 (k ++ repeat 0 16)).
  assert (K : length k16 = 16%nat) by (subst k16; rewrite firstn_length, app_length, repeat_length; lia).
  assert (X : forall a c, length a = length c -> length (map (fun ab => Z.lxor (fst ab) (snd ab)) (combine a c)) = length a /\
     map (fun ab => Z.lxor (fst ab) (snd ab)) (combine (map (fun ab => Z.lxor (fst ab) (snd ab)) (combine a c)) c) = a).
  { induction a as [|x a IH]; intros [|y c] E; cbn in *; try discriminate; [auto|].
    destruct (IH c ltac:(lia)) as [I1 I2]. split; [now rewrite I1|]. rewrite I2. f_equal.
    rewrite Z.lxor_assoc, Z.lxor_nilpotent. apply Z.lxor_0_r. }
  destruct (X b k16) as [X1 X2]; [congruence|]. split; [lia|exact X2].
Qed.
Definition draw (v : Z) (l : list event) (n : nat) : list Z := be n v.
Definition dh_toy (v : Z) : env := mk_env (auth_fn toy) (draw v) (rsa_encrypt toy) (rsa_decrypt toy) (hash toy) (server_key toy)
  (tls_accepts toy) (dh_secret toy) (dh_public toy) (dh_prime toy) (dh_decrypt toy) (server_name toy) (displayed toy).
Definition dh_cfg : config := mk_cfg true true false true false true.
Definition first16 (l : list Z) : list Z := firstn 16 l.
Definition at_type : conn := goto (connect [30]) SSecurity.
Example C133_ex : exists c1 p q, try_read dh_cfg (with_dh first16 xor_block (dh_toy 2046)) at_type [(false, 30)] = Ok (Some (c1, 1)) /\
  log c1 = log at_type ++ [Sent Clear (be 2 2 ++ be 2 256); Sent Clear p; Sent Clear q] /\
  forall b2, bytes b2 = client_answer first16 xor_block 2 p q 77 (field (codes "me") (repeat 7 61) ++ field (codes "pw") (repeat 8 61)) ->
  exists c2 clear reply, try_read dh_cfg (with_dh first16 xor_block (dh_toy 2046)) c1 b2 = Ok (Some (c2, 384)) /\ st c2 = SInit /\
    log c2 = log c1 ++ [AuthCalled (ch c1) clear (codes "me") (codes "pw") true; Sent (ch c1) reply].
Proof.
  set (e := with_dh first16 xor_block (dh_toy 2046)).
  assert (X : dh_secret e (log at_type) = 2046) by (subst e; rewrite with_dh_secret; reflexivity).
  destruct (small_public 2046 ltac:(lia)) as [_ Q].
  pose proof (security_key_runs dh_cfg e at_type [(false, 30)] [] (be 256 prime) (be 256 (2 ^ 2046)) (2046 / 8 + 1)
    eq_refl eq_refl (or_introl eq_refl) eq_refl) as R.
  destruct R as (c1 & R).
  { subst e. rewrite with_dh_prime. apply export_prime. }
  { rewrite X. subst e. rewrite with_dh_public. exact Q. }
  destruct (C133_credentials_arrive_partial dh_cfg first16 xor_block xor_block (dh_toy 2046) at_type [(false, 30)] [] c1 1
    xor_cipher (fun _ _ => be_bytes _ _) eq_refl eq_refl (or_introl eq_refl) eq_refl R) as (_ & p & q & L & Lp & Lq & _ & A).
  exists c1, p, q. split; [exact R|]. split; [exact L|]. intros b2 B.
  destruct (A 77 (codes "me") (repeat 7 61) (codes "pw") (repeat 8 61) b2 []) as (c2 & T & clear & reply & O1 & O2 & _).
  - discriminate.
  - split; [reflexivity|]. clear. cbn. intuition discriminate.
  - split; [reflexivity|]. clear. cbn. intuition discriminate.
  - rewrite app_nil_r. exact B.
  - exists c2, clear, reply. split; [exact T|]. split; [exact O2|exact O1].
Qed.

(** A secret whose public key begins with a zero byte, as one in 256 does, ends the
    process: here the one the number 5 has. *)
Theorem C133_credentials_arrive_refuted :
  exists cfg md5 enc dec e c b,
    block_cipher enc dec /\ (forall l n, all_bytes (random e l n)) /\ have_crypto cfg = true /\
    st c = SSecurity /\ In 30 (types c) /\ bytes b = [30] /\
    try_read cfg (with_dh md5 dec e) c b = Fault AssertFail.
Proof.
  exists dh_cfg, first16, xor_block, xor_block, (dh_toy 5), at_type, [(false, 30)].
  split; [exact xor_cipher|]. split; [intros; apply be_bytes|]. split; [reflexivity|]. split; [reflexivity|].
  split; [left; reflexivity|]. split; [reflexivity|].
  set (e := with_dh first16 xor_block (dh_toy 5)).
  assert (X : dh_secret e (log at_type) = 5) by (subst e; rewrite with_dh_secret; reflexivity).
  destruct (small_public 5 ltac:(lia)) as [_ Q].
  apply (security_key_runs dh_cfg e at_type [(false, 30)] [] (be 256 prime) (be 256 (2 ^ 5)) (5 / 8 + 1)
    eq_refl eq_refl (or_introl eq_refl) eq_refl).
  - subst e. rewrite with_dh_prime. apply export_prime.
  - rewrite X. subst e. rewrite with_dh_public. exact Q.
Qed.
Print Assumptions C133_credentials_arrive_refuted.
