(** Properties of the handshake: C32-C35 and C74-C84. *)
From Verif Require Import Common CommonProofs Ws_Proofs WsStream_Proofs Pixels_Model Init_Model Auth_Model Auth_Spec
  Auth_Proofs Auth2_Proofs Auth3_Proofs Auth4_Proofs Auth5_Proofs.

(** ** A concrete world for the examples *)

(* stands for RSA: accepts what nettle would accept, and stays below the modulus *)
Definition toy_encrypt (_ : list event) (n _ : Z) (msg : list Z) : option Z :=
  if rsa_size n <? zlen msg + 11 then None else Some (unbe msg mod n).

Definition toy : env := mk_env
  (fun _ u p => if list_eq_dec Z.eq_dec u (codes "me") then if list_eq_dec Z.eq_dec p (codes "pw") then true else false else false)
  (fun _ n => repeat 7 n)
  toy_encrypt
  (fun l => Some l)
  (fun _ l => firstn 32 (l ++ repeat 0 32))
  (64, 2 ^ 511 + 1, 65537)
  (fun _ => true)
  (fun _ => 5) (fun x => 2 ^ 2047 + x) (2 ^ 2048 - 1)
  (fun _ _ c => c)
  (nvnc_set_name (codes "srv"))
  (fun _ => Some (640, 480, fourcc "XR24")).

Lemma toy_sound : rsa_sound toy.
Proof.
  intros l n x msg m. cbn. unfold toy_encrypt. destruct (rsa_size n <? zlen msg + 11) eqn:L; [discriminate|].
  intros E. injection E as <-. assert (0 <= zlen msg) by (unfold zlen; lia).
  assert (Sz : rsa_size n <> 0) by lia. split; [|exact Sz]. apply Z.mod_pos_bound.
  unfold rsa_size, byte_size in Sz. destruct (Z.even n || _) eqn:E; [lia|].
  destruct (Z.lt_total n 0) as [N|[N|N]]; [|subst; discriminate|exact N].
  destruct n; try lia. cbn in E. apply orb_false_iff in E as [_ E]. discriminate.
Qed.

Definition toy_cfg : config := mk_cfg true true true true true true.
Ltac find_in := cbn [log In]; repeat (first [left; reflexivity | right]).

Definition hello : list Z := codes "RFB 003.008" ++ [10].

(** ** C32 *)

(* The client is initialised, and announced to the application, only after the
   callback said yes to credentials this client sent. *)
Theorem C32_no_access_without_authentication : forall cfg e cached reads c b,
  require_auth cfg = true -> consistent cfg cached -> Forall all_bytes reads ->
  session cfg e (connect cached, []) reads = Ok (c, b) ->
  (admitted c = true -> authenticated e (log c)) /\ before_new_client (authenticated e) (log c).
Proof. intros cfg e cached reads c b A C F E. destruct (good_session cfg e cached reads c b C F E). split; auto. Qed.
Print Assumptions C32_no_access_without_authentication.


(* TLS: a client with the right password gets in *)
Definition good_reads : list (list Z) :=
  [hello; [19]; [0; 2]; be 4 262; plain_message (codes "me") (codes "pw"); [1]].
Example C32_ex : exists c b, session toy_cfg toy (connect [], []) good_reads = Ok (c, b) /\ st c = SReady /\
  before_new_client (authenticated toy) (log c) /\ In NewClient (log c).
Proof.
  eexists _, _. split; [vm_compute; reflexivity|]. split; [vm_compute; reflexivity|]. split.
  - eapply (C32_no_access_without_authentication toy_cfg toy [] good_reads).
    + reflexivity.
    + now left.
    + apply bytesbs_ok. vm_compute. reflexivity.
    + vm_compute. reflexivity.
  - find_in.
Qed.

(** ** C33 *)

Theorem C33_credentials_only_after_the_upgrade : forall cfg e cached reads c b,
  require_encryption cfg = true -> consistent cfg cached -> Forall all_bytes reads ->
  session cfg e (connect cached, []) reads = Ok (c, b) ->
  each_auth (fun before k _ _ _ _ => encrypted k = true /\ exists x y, In (Upgraded k x y) before) (log c).
Proof. intros cfg e cached reads c b A C F E. destruct (good_session cfg e cached reads c b C F E). exact (g_enc A). Qed.
Print Assumptions C33_credentials_only_after_the_upgrade.

Example C33_ex : exists c b, session toy_cfg toy (connect [], []) good_reads = Ok (c, b) /\
  In (AuthCalled Tls false (codes "me") (codes "pw") true) (log c) /\
  consistent toy_cfg [] /\ require_encryption toy_cfg = true /\ Forall all_bytes good_reads.
Proof.
  eexists _, _. split; [vm_compute; reflexivity|]. split; [find_in|].
  split; [now left|]. split; [reflexivity|]. apply bytesbs_ok. vm_compute. reflexivity.
Qed.

(** ** C34 *)

(* [outcome c c' user pass] : the callback was called with these strings, and the
   client was told the answer *)
Definition outcome (e : env) (c c' : conn) (user pass : list Z) : Prop :=
  exists clear reply,
    log c' = log c ++ [AuthCalled (ch c) clear user pass (auth_fn e (log c) user pass); Sent (ch c) reply] /\
    st c' = (if auth_fn e (log c) user pass then SInit else SError) /\
    firstn 4 reply = be 4 (if auth_fn e (log c) user pass then 0 else 1).

Lemma authenticate_outcome e c used u p : outcome e c (authenticate e c used u p) u p.
Proof.
  destruct (authenticate_log e c used u p) as [L S]. cbv zeta in *. eexists _, _. split; [exact L|]. split; [exact S|].
  destruct (auth_fn e (log c) u p); reflexivity.
Qed.

(* VeNCrypt Plain: two lengths and two strings, of which the first 255 bytes count *)
Theorem C34_plain_credentials_exact : forall cfg e c b, st c = SVenPlain -> rx_ok b ->
  (forall u p rest, zlen u < 2 ^ 32 -> zlen p < 2 ^ 32 -> bytes b = plain_message u p ++ rest ->
     exists c', try_read cfg e c b = Ok (Some (c', zlen (plain_message u p))) /\
                outcome e c c' (cstr (firstn 255 u)) (cstr (firstn 255 p))) /\
  ((forall u p rest, zlen u < 2 ^ 32 -> zlen p < 2 ^ 32 -> bytes b <> plain_message u p ++ rest) ->
     try_read cfg e c b = Ok (Some (c, 0))).
Proof.
  intros cfg e c b S R. split.
  - intros u p rest U P B. destruct (plain_ok cfg e c b u p rest S U P B) as (used & _ & _ & E).
    rewrite E. eexists. split; [reflexivity|]. apply authenticate_outcome.
  - intros N. now apply plain_waits.
Qed.
Print Assumptions C34_plain_credentials_exact.

(* RSA-AES: length, name, length, password *)
Theorem C34_rsa_credentials_exact : forall cfg e c b, st c = SRsaCred -> rx_ok b ->
  (forall u p rest, zlen u < 256 -> zlen p < 256 -> bytes b = rsa_message u p ++ rest ->
     exists c', try_read cfg e c b = Ok (Some (c', zlen (rsa_message u p))) /\ outcome e c c' (cstr u) (cstr p)) /\
  ((forall u p rest, zlen u < 256 -> zlen p < 256 -> bytes b <> rsa_message u p ++ rest) ->
     try_read cfg e c b = Ok (Some (c, 0))).
Proof.
  intros cfg e c b S R. split.
  - intros u p rest U P B. destruct (rsa_cred_ok cfg e c b u p rest S U P B) as (used & _ & _ & E).
    rewrite E. eexists. split; [reflexivity|]. apply authenticate_outcome.
  - intros N. now apply rsa_cred_waits.
Qed.
Print Assumptions C34_rsa_credentials_exact.

(* Apple DH: 128 bytes of credentials, 256 bytes of public key; each decrypted half
   is a string of at most 63 bytes *)
Theorem C34_apple_credentials_exact : forall cfg e c b, st c = SAppleDh ->
  (forall creds key rest, length creds = 128%nat -> length key = 256%nat -> bytes b = creds ++ key ++ rest ->
     exists c', try_read cfg e c b = Ok (Some (c', 384)) /\
       let text := dh_decrypt e (secret c) key creds in
       outcome e c c' (cstr (firstn 63 text)) (cstr (firstn 63 (skipn 64 text)))) /\
  (avail b < 384 -> try_read cfg e c b = Ok (Some (c, 0))).
Proof.
  intros cfg e c b S. unfold try_read. rewrite S. unfold apple_dh_handle_response. split.
  - intros creds key rest L1 L2 B.
    assert (L := bytes_length b). rewrite B, !app_length, L1, L2 in L.
    replace (avail b <? 128 + 256) with false by lia.
    replace (firstn 128 (bytes b)) with creds by (rewrite B; now rewrite firstn_app_eq).
    replace (skipn 128 (bytes b)) with (key ++ rest) by (rewrite B; now rewrite skipn_app_eq).
    rewrite firstn_app_eq by exact L2. eexists. split; [reflexivity|]. apply authenticate_outcome.
  - intros L. now replace (avail b <? 128 + 256) with true by lia.
Qed.
Print Assumptions C34_apple_credentials_exact.

(* a name of 300 bytes with a NUL is cut at the NUL; the rest of the buffer is left *)
Example C34_ex : exists c',
  let b := map (pair true) (plain_message (codes "me" ++ [0] ++ repeat 65 297) (codes "pw") ++ [1; 2; 3]) in
  try_read toy_cfg toy (mk_conn SVenPlain Tls [19] false [] (0, 0, 0) 0 []) b = Ok (Some (c', 310)) /\
  log c' = [AuthCalled Tls false (codes "me") (codes "pw") true; Sent Tls [0; 0; 0; 0]] /\ st c' = SInit.
Proof. eexists. split; [vm_compute; reflexivity|]. split; [vm_compute; reflexivity|vm_compute; reflexivity]. Qed.

(** ** C35 *)

(* a key of 1023 bytes and more makes the server write past its 1024 byte buffer *)
Definition big_key : list Z := 
  be 4 (1023 * 8) ++ ([1] ++ repeat 0 1021 ++ [1]) ++ (repeat 0 1020 ++ [1; 0; 1]).
Theorem C35_challenge_fits_buffer_refuted : exists e reads, rsa_sound e /\ Forall all_bytes reads /\
  session toy_cfg e (connect [], []) reads = Fault OobWrite.
Proof.
  exists toy, [hello; [5]; big_key]. split; [apply toy_sound|]. split; [apply bytesbs_ok; vm_compute; reflexivity|].
  vm_compute. reflexivity.
Qed.
Print Assumptions C35_challenge_fits_buffer_refuted.

(* any such key, if RSA accepts it, does *)
Theorem C35_long_keys_overflow : forall cfg e c b n m,
  st c = SRsaPub ->
  let k := Z.to_nat (bits_to_bytes (unbe (firstn 4 (bytes b)))) in
  4 <= avail b -> 4 + Z.of_nat k * 2 <= avail b ->
  n = unbe (firstn k (skipn 4 (bytes b))) -> 1023 <= rsa_size n ->
  (forall l x msg, rsa_encrypt e l n x msg = Some m) -> byte_size m <= rsa_size n ->
  try_read cfg e c b = Fault OobWrite.
Proof. intros cfg e c b n m S k A1 A2 N Sz E M. now apply (public_key_overflows cfg e c b n m). Qed.
Print Assumptions C35_long_keys_overflow.

(* keys of up to 1022 bytes are fine; missing: all longer ones that fit the receive buffer *)
Theorem C35_challenge_fits_buffer_partial : forall cfg e c b, rsa_sound e -> rx_ok b -> st c = SRsaPub ->
  bits_to_bytes (unbe (firstn 4 (bytes b))) <= 1022 -> exists r, try_read cfg e c b = Ok r.
Proof. intros. now apply public_key_fits. Qed.
Print Assumptions C35_challenge_fits_buffer_partial.

Example C35_ex : exists c b,
  session toy_cfg toy (connect [], []) [hello; [5]; be 4 512 ++ be 64 (2 ^ 511 + 1) ++ be 64 65537] = Ok (c, b) /\ st c = SRsaChallenge.
Proof. eexists _, _. split; [vm_compute; reflexivity|vm_compute; reflexivity]. Qed.

(** ** C74: settings made after the first connection *)

Definition open_cfg : config := mk_cfg true true false false false false.

(* A client connects to an open server; then authentication is required; the next
   client is announced without any call of the callback. *)
Theorem C74_auth_settings_take_effect_refuted : exists first second c1 b1 c2 b2,
  session open_cfg toy (connect [], []) first = Ok (c1, b1) /\
  require_auth toy_cfg = true /\
  session toy_cfg toy (connect (types c1), []) second = Ok (c2, b2) /\
  In NewClient (log c2) /\ calls (log c2) = [].
Proof.
  exists [hello], [hello; [1]; [1]]. eexists _, _, _, _.
  split; [vm_compute; reflexivity|]. split; [reflexivity|]. split; [vm_compute; reflexivity|].
  split; [find_in|vm_compute; reflexivity].
Qed.
Print Assumptions C74_auth_settings_take_effect_refuted.

(* Settings made before the first connection apply to it and to all later ones; missing:
   settings changed after that. *)
Theorem C74_auth_settings_take_effect_partial : forall cfg e firsts c1 b1 reads c b,
  require_auth cfg = true -> Forall all_bytes firsts -> Forall all_bytes reads ->
  session cfg e (connect [], []) firsts = Ok (c1, b1) ->
  session cfg e (connect (types c1), []) reads = Ok (c, b) ->
  before_new_client (authenticated e) (log c).
Proof.
  intros cfg e firsts c1 b1 reads c b A F1 F2 E1 E2.
  assert (G := good_session cfg e [] firsts c1 b1 (or_introl eq_refl) F1 E1).
  assert (C : consistent cfg (types c1)).
  { destruct (g_types _ _ _ G) as [T|[T _]]; [now right|now left]. }
  now apply (C32_no_access_without_authentication cfg e (types c1) reads c b A C F2 E2).
Qed.
Print Assumptions C74_auth_settings_take_effect_partial.

Example C74_ex : exists c1 b1 c b, session toy_cfg toy (connect [], []) good_reads = Ok (c1, b1) /\
  session toy_cfg toy (connect (types c1), []) good_reads = Ok (c, b) /\ st c = SReady.
Proof. eexists _, _, _, _. split; [vm_compute; reflexivity|]. split; [vm_compute; reflexivity|vm_compute; reflexivity]. Qed.

(** ** C75: what came in the clear is not acted upon after the upgrade *)

(* All bytes of the credentials were received before TLS was set up, and are taken
   as if they had come over TLS; the client is announced. *)
Theorem C75_nothing_from_before_the_upgrade_refuted : exists reads c b u p,
  Forall all_bytes reads /\ session toy_cfg toy (connect [], []) reads = Ok (c, b) /\
  In (AuthCalled Tls true u p true) (log c) /\ In NewClient (log c).
Proof.
  exists [hello; [19]; [0; 2]; be 4 262 ++ plain_message (codes "me") (codes "pw") ++ [1]].
  eexists _, _, _, _. split; [apply bytesbs_ok; vm_compute; reflexivity|].
  split; [vm_compute; reflexivity|]. split; [find_in|].
  find_in.
Qed.
Print Assumptions C75_nothing_from_before_the_upgrade_refuted.

(* If nothing was left in the receive buffer once the channel was upgraded, all
   credentials come through it; missing: a buffer with bytes left over. *)
Theorem C75_nothing_from_before_the_upgrade_partial : forall cfg e c reads c' b',
  encrypted (ch c) = true -> Forall all_bytes reads ->
  session cfg e (c, []) reads = Ok (c', b') ->
  exists new, log c' = log c ++ new /\
    forall k clear u p a, In (AuthCalled k clear u p a) new -> encrypted k = true /\ clear = false.
Proof. intros cfg e c reads c' b' E F H. apply sealed_session in H as (_ & _ & X); auto. Qed.
Print Assumptions C75_nothing_from_before_the_upgrade_partial.

Example C75_ex : exists c b c' b', session toy_cfg toy (connect [], []) (firstn 4 good_reads) = Ok (c, b) /\
  b = [] /\ encrypted (ch c) = true /\
  session toy_cfg toy (c, []) (skipn 4 good_reads) = Ok (c', b') /\
  In (AuthCalled Tls false (codes "me") (codes "pw") true) (log c').
Proof.
  eexists _, _, _, _. split; [vm_compute; reflexivity|]. split; [reflexivity|]. split; [reflexivity|].
  split; [vm_compute; reflexivity|]. find_in.
Qed.

(** ** C76: encryption is required *)

(* with the flag for encryption alone, clients are served over the plain connection *)
Theorem C76_encryption_flag_encrypts_refuted : exists cfg reads c b,
  require_encryption cfg = true /\ tls_creds cfg = true /\
  session cfg toy (connect [], []) reads = Ok (c, b) /\ st c = SReady /\ ch c = Clear.
Proof.
  exists (mk_cfg true true true false true true), [hello; [1]; [1]]. eexists _, _.
  split; [reflexivity|]. split; [reflexivity|]. split; [vm_compute; reflexivity|]. split; reflexivity.
Qed.
Print Assumptions C76_encryption_flag_encrypts_refuted.

(* With both flags the client is past authentication only on an encrypted channel, and
   ServerInit, sent just before the client is announced, goes through one; missing:
   the flag alone. *)
Theorem C76_encryption_flag_encrypts_partial : forall cfg e cached reads c b,
  require_auth cfg = true -> require_encryption cfg = true -> consistent cfg cached -> Forall all_bytes reads ->
  session cfg e (connect cached, []) reads = Ok (c, b) ->
  (admitted c = true -> encrypted (ch c) = true) /\
  before_new_client (fun l => exists l' k m, l = l' ++ [Sent k m] /\ encrypted k = true /\
                                exists x y, In (Upgraded k x y) l) (log c).
Proof.
  intros cfg e cached reads c b A1 A2 C F E. destruct (good_session cfg e cached reads c b C F E).
  split; [apply g_admenc; split; assumption|]. apply g_newenc. split; assumption.
Qed.
Print Assumptions C76_encryption_flag_encrypts_partial.

Example C76_ex : exists c b, session toy_cfg toy (connect [], []) good_reads = Ok (c, b) /\ admitted c = true /\ ch c = Tls.
Proof. eexists _, _. split; [vm_compute; reflexivity|]. split; reflexivity. Qed.

(** ** C77: client keys *)

(* an even modulus is unacceptable to nettle, whose size for it is 0: exporting it fails *)
Theorem C77_client_keys_are_harmless_refuted : exists e reads, rsa_sound e /\ server_key_ok e /\ Forall all_bytes reads /\
  session toy_cfg e (connect [], []) reads = Fault AssertFail.
Proof.
  exists toy, [hello; [5]; be 4 512 ++ be 64 (2 ^ 511) ++ be 64 65537; be 2 16 ++ repeat 9 16].
  split; [apply toy_sound|]. split; [vm_compute; split; discriminate|].
  split; [apply bytesbs_ok; vm_compute; reflexivity|]. vm_compute. reflexivity.
Qed.
Print Assumptions C77_client_keys_are_harmless_refuted.

(* With a key whose modulus and exponent both fit its size no message makes the server
   fail; missing: even or short moduli, and exponents longer than the modulus. *)
Theorem C77_client_keys_are_harmless_partial : forall cfg e c b, rx_ok b -> server_key_ok e -> key_ok (pub c) ->
  st c = SRsaChallenge \/ st c = SRsaHash \/ st c = SRsaCred -> exists r, try_read cfg e c b = Ok r.
Proof. intros. now apply rsa_messages_total. Qed.
Print Assumptions C77_client_keys_are_harmless_partial.

Definition rsa_start : list (list Z) :=
  [hello; [5]; be 4 512 ++ be 64 (2 ^ 511 + 1) ++ be 64 65537; be 2 16 ++ repeat 9 16].
Example C77_ex : exists c b, session toy_cfg toy (connect [], []) rsa_start = Ok (c, b) /\
  st c = SRsaHash /\ key_ok (pub c) /\ server_key_ok toy.
Proof.
  eexists _, _. split; [vm_compute; reflexivity|]. split; [reflexivity|].
  split; vm_compute; split; discriminate.
Qed.

(** ** C78: the challenge sent *)

(* what a client that reads the length and then that many bytes takes the ciphertext to be *)
Definition received_number (message : list Z) : Z := unbe (firstn (Z.to_nat (unbe (firstn 2 message))) (skipn 2 message)).

Theorem C78_challenge_is_the_ciphertext_refuted : exists e c c' size n x m msg,
  rsa_sound e /\ pub c = (size, n, x) /\ size = rsa_size n /\
  rsa_encrypt e (log c) n x (random e (log c) (length (challenge c))) = Some m /\
  rsa_aes_send_challenge e c = Ok c' /\ log c' = log c ++ [Sent (ch c) msg] /\ received_number msg <> m.
Proof.
  exists toy, (mk_conn SRsaChallenge Clear [5] false (repeat 0 16) (64, 2 ^ 511 + 1, 65537) 0 []).
  eexists _, _, _, _, _, _. split; [apply toy_sound|]. split; [reflexivity|]. split; [vm_compute; reflexivity|].
  split; [vm_compute; reflexivity|]. split; [vm_compute; reflexivity|]. split; [vm_compute; reflexivity|].
  vm_compute. discriminate.
Qed.
Print Assumptions C78_challenge_is_the_ciphertext_refuted.

Lemma be_snoc n v : be (S n) v = be n (v / 256) ++ [v mod 256].
Proof. reflexivity. Qed.

Lemma be_firstn k j v : firstn k (be (k + j) v) = be k (v / 256 ^ Z.of_nat j).
Proof.
  revert v. induction j; intros v.
  - rewrite Nat.add_0_r. change (256 ^ Z.of_nat 0) with 1. rewrite Z.div_1_r.
    rewrite <- (be_length k v) at 1. apply firstn_all.
  - rewrite Nat.add_succ_r, be_snoc, firstn_app, be_length.
    replace (k - (k + j))%nat with O by lia. rewrite firstn_O, app_nil_r, IHj.
    rewrite Nat2Z.inj_succ, Z.pow_succ_r, Z.div_div by (try apply Z.pow_nonzero; lia). reflexivity.
Qed.

(* the leading zero bytes are sent and as many bytes at the end are not *)
Theorem C78_challenge_sent : forall e c c' size n x m,
  rsa_sound e -> pub c = (size, n, x) -> size = rsa_size n -> m <> 0 ->
  rsa_encrypt e (log c) n x (random e (log c) (length (challenge c))) = Some m ->
  rsa_aes_send_challenge e c = Ok c' ->
  exists msg, log c' = log c ++ [Sent (ch c) msg] /\
    firstn 2 msg = be 2 (byte_size m) /\ zlen msg = 2 + byte_size m /\
    received_number msg = m / 256 ^ (size - byte_size m).
Proof.
  intros e c c' size n x m Sd P Sz M E H. unfold rsa_aes_send_challenge in H. rewrite P in H. cbv zeta in H.
  cbn [log] in H. rewrite E in H. assert (Sd' := Sd _ _ _ _ _ E). destruct Sd' as [Mn Sn].
  assert (Bm : byte_size m <= size).
  { rewrite Sz. unfold rsa_size in *. destruct (Z.even n || _); [lia|]. apply byte_size_mono. lia. }
  assert (Bp := byte_size_pos m).
  rewrite crypto_export_ok in H by exact Bm. cbn [bind fst snd] in H.
  destruct (1024 <? 2 + size) eqn:Bf; [discriminate|]. apply ok_inj in H. subst c'.
  replace (m =? 0) with false by lia. set (k := byte_size m) in *.
  eexists. split; [reflexivity|].
  replace (Z.to_nat (2 + k)) with (2 + Z.to_nat k)%nat by lia.
  replace (Z.to_nat size) with (Z.to_nat k + Z.to_nat (size - k))%nat by lia.
  assert (F : firstn (2 + Z.to_nat k) (be 2 k ++ be (Z.to_nat k + Z.to_nat (size - k)) m) =
              be 2 k ++ be (Z.to_nat k) (m / 256 ^ (size - k))).
  { rewrite firstn_app, be_length. replace (2 + Z.to_nat k - 2)%nat with (Z.to_nat k) by lia.
    rewrite be_firstn, Z2Nat.id by lia. f_equal. apply firstn_all2. rewrite be_length. lia. }
  rewrite F. split; [apply firstn_app_eq, be_length|]. split.
  - unfold zlen. rewrite app_length, !be_length. lia.
  - unfold received_number. rewrite firstn_app_eq, skipn_app_eq by apply be_length.
    rewrite unbe_be by (change (256 ^ Z.of_nat 2) with 65536; lia).
    rewrite firstn_all2 by (rewrite be_length; lia).
    rewrite unbe_be; [reflexivity|]. rewrite Z2Nat.id by lia.
    assert (U := byte_size_upper m ltac:(lia)). fold k in U.
    assert (0 < 256 ^ (size - k)) by (apply Z.pow_pos_nonneg; lia).
    split; [apply Z.div_pos; lia|]. apply Z.div_lt_upper_bound; [lia|].
    apply (Z.lt_le_trans _ (256 ^ k)); [exact U|].
    rewrite <- Z.pow_add_r by lia. apply Z.pow_le_mono_r; lia.
Qed.
Print Assumptions C78_challenge_sent.

(* missing: ciphertexts with leading zero bytes, one in 256 *)
Theorem C78_challenge_is_the_ciphertext_partial : forall e c c' size n x m,
  rsa_sound e -> pub c = (size, n, x) -> size = rsa_size n -> byte_size m = size -> m <> 0 ->
  rsa_encrypt e (log c) n x (random e (log c) (length (challenge c))) = Some m ->
  rsa_aes_send_challenge e c = Ok c' ->
  exists msg, log c' = log c ++ [Sent (ch c) msg] /\ received_number msg = m /\ zlen msg = 2 + size.
Proof.
  intros e c c' size n x m Sd P Sz Bm M E H.
  destruct (C78_challenge_sent e c c' size n x m Sd P Sz M E H) as (msg & L & _ & Z2 & R).
  exists msg. split; [exact L|]. rewrite Bm, Z.sub_diag, Z.pow_0_r, Z.div_1_r in R. split; [exact R|]. lia.
Qed.
Print Assumptions C78_challenge_is_the_ciphertext_partial.

Definition toy_full : env := mk_env (auth_fn toy) (random toy)
  (fun _ n _ msg => if rsa_size n <? zlen msg + 11 then None else Some (n - 1)) (rsa_decrypt toy) (hash toy)
  (server_key toy) (tls_accepts toy) (dh_secret toy) (dh_public toy) (dh_prime toy) (dh_decrypt toy) (server_name toy)
  (displayed toy).
Example C78_ex : exists c', 
  let c := mk_conn SRsaChallenge Clear [5] false (repeat 0 16) (64, 2 ^ 511 + 1, 65537) 0 [] in
  rsa_encrypt toy_full (log c) (2 ^ 511 + 1) 65537 (random toy_full (log c) 16) = Some (2 ^ 511) /\
  byte_size (2 ^ 511) = rsa_size (2 ^ 511 + 1) /\
  rsa_aes_send_challenge toy_full c = Ok c' /\ log c' = [Sent Clear (be 2 64 ++ be 64 (2 ^ 511))].
Proof.
  eexists. split; [vm_compute; reflexivity|]. split; [vm_compute; reflexivity|]. split; [vm_compute; reflexivity|vm_compute; reflexivity].
Qed.

(** ** C79: the key sent for Apple DH *)

(* a public key with a leading zero byte, one in 256, stops the server *)
Theorem C79_apple_key_is_sent_refuted : exists e reads, byte_size (dh_prime e) = 256 /\
  (forall x, 0 < dh_public e x < dh_prime e) /\ Forall all_bytes reads /\
  session (mk_cfg true true false true false true) e (connect [], []) reads = Fault AssertFail.
Proof.
  exists (mk_env (auth_fn toy) (random toy) (rsa_encrypt toy) (rsa_decrypt toy) (hash toy)
    (server_key toy) (tls_accepts toy) (dh_secret toy) (fun x => 2 ^ 2039) (dh_prime toy) (dh_decrypt toy) (server_name toy)
    (displayed toy)), [hello; [30]].
  split; [vm_compute; reflexivity|]. split; [intros; vm_compute; split; reflexivity|].
  split; [apply bytesbs_ok; vm_compute; reflexivity|]. vm_compute. reflexivity.
Qed.
Print Assumptions C79_apple_key_is_sent_refuted.

(* missing: public keys of less than 256 bytes *)
Theorem C79_apple_key_is_sent_partial : forall e c x,
  x = dh_secret e (log c) ->
  0 < dh_prime e -> byte_size (dh_prime e) = 256 -> 0 < dh_public e x -> byte_size (dh_public e x) = 256 ->
  exists c', apple_dh_send_public_key e c = Ok c' /\ secret c' = x /\
    exists a p q, log c' = log c ++ [Sent (ch c) a; Sent (ch c) p; Sent (ch c) q] /\
      a = [0; 2; 1; 0] /\ zlen p = 256 /\ unbe p = dh_prime e /\ zlen q = 256 /\ unbe q = dh_public e x.
Proof.
  intros e c x Hx P0 Ps Q0 Qs. unfold apple_dh_send_public_key. cbv zeta. rewrite <- Hx.
  rewrite !crypto_export_ok by lia. cbn [bind fst snd].
  replace (dh_prime e =? 0) with false by lia. rewrite Ps. cbn [Z.eqb negb Pos.eqb].
  replace (dh_public e x =? 0) with false by lia. rewrite Qs. cbn [Z.eqb negb Pos.eqb].
  eexists. split; [reflexivity|]. split; [reflexivity|]. eexists _, _, _.
  split; [cbn [log send note ch]; rewrite <- !app_assoc; reflexivity|].
  assert (U1 := byte_size_upper (dh_prime e) ltac:(lia)). rewrite Ps in U1.
  assert (U2 := byte_size_upper (dh_public e x) ltac:(lia)). rewrite Qs in U2.
  split; [vm_compute; reflexivity|]. unfold zlen. rewrite !be_length.
  split; [reflexivity|]. split; [apply unbe_be; change (Z.of_nat (Z.to_nat 256)) with 256; lia|].
  split; [reflexivity|]. apply unbe_be; change (Z.of_nat (Z.to_nat 256)) with 256; lia.
Qed.
Print Assumptions C79_apple_key_is_sent_partial.

Example C79_ex : byte_size (dh_prime toy) = 256 /\ byte_size (dh_public toy (dh_secret toy [])) = 256 /\
  exists c b, session (mk_cfg true true false true false true) toy (connect [], []) [hello; [30]] = Ok (c, b) /\ st c = SAppleDh.
Proof.
  split; [vm_compute; reflexivity|]. split; [vm_compute; reflexivity|]. eexists _, _.
  split; [vm_compute; reflexivity|vm_compute; reflexivity].
Qed.

(** ** C80: closing a connection *)

(* a client that sends a wrong hash is freed by the handler and used by the loop *)
Theorem C80_no_use_after_close_refuted : exists e reads, rsa_sound e /\ server_key_ok e /\ Forall all_bytes reads /\
  session toy_cfg e (connect [], []) reads = Fault UseAfterFree.
Proof.
  exists toy, (rsa_start ++ [repeat 0 20]). split; [apply toy_sound|]. split; [vm_compute; split; discriminate|].
  split; [apply bytesbs_ok; vm_compute; reflexivity|]. vm_compute. reflexivity.
Qed.
Print Assumptions C80_no_use_after_close_refuted.

(* Without RSA-AES and Apple DH, if TLS and ServerInit do not fail, no sequence of reads
   makes the server fail in any way; missing: the failures of those. *)
Theorem C80_no_use_after_close_partial : forall cfg e cached reads, have_crypto cfg = false ->
  (exists l, init_security_types cfg cached = Ok l) ->
  (forall l, tls_accepts e l = true) -> (forall l, send_server_init_message (server_name e) (displayed e l) <> None) ->
  Forall all_bytes reads -> exists c b, session cfg e (connect cached, []) reads = Ok (c, b).
Proof. intros. now apply simple_session. Qed.
Print Assumptions C80_no_use_after_close_partial.

Example C80_ex : let cfg := mk_cfg true false true true true true in
  have_crypto cfg = false /\ (exists l, init_security_types cfg [] = Ok l) /\ (forall l, tls_accepts toy l = true) /\
  (forall l, send_server_init_message (server_name toy) (displayed toy l) <> None).
Proof.
  split; [reflexivity|]. split; [eexists; vm_compute; reflexivity|]. split; [reflexivity|]. intros l. vm_compute. discriminate.
Qed.

(** ** C81: the receive loop *)

(* Whatever is received, in whatever pieces: the loop ends, never runs past the bytes
   received (the PANIC is unreachable, see session_fault), and reads nothing out of
   bounds.  What is left are failures inside handlers (C35, C77, C79, C80). *)
Theorem C81_handshake_loop_ends : forall cfg e c b reads, Forall all_bytes reads -> rx_ok b ->
  match session cfg e (c, b) reads with
  | Ok _ => True
  | Fault f => f <> Diverges /\ f <> OobRead /\
      exists c' b', rx_ok b' /\ (try_read cfg e c' b' = Fault f \/ (try_read cfg e c' b' = Ok None /\ f = UseAfterFree))
  end.
Proof.
  intros cfg e c b reads F R. destruct (session cfg e (c, b) reads) as [|f] eqn:E; [exact I|].
  assert (K := session_known cfg e c b reads f F R E). unfold known in K.
  split; [intros ->; destruct K as [K|[K|K]]; discriminate|]. split; [intros ->; destruct K as [K|[K|K]]; discriminate|].
  destruct (session_fault cfg e (fun _ _ => True) ltac:(auto) ltac:(auto) reads c b f F I R E) as (c' & b' & _ & R' & X).
  eauto.
Qed.
Print Assumptions C81_handshake_loop_ends.

(* every message takes no more than was received *)
Theorem C81_messages_take_what_was_received : forall cfg e c b c' n, rx_ok b ->
  try_read cfg e c b = Ok (Some (c', n)) -> 0 <= n <= avail b.
Proof. intros cfg e c b c' n. apply try_read_taken. Qed.
Print Assumptions C81_messages_take_what_was_received.

Example C81_ex : exists c b, session toy_cfg toy (connect [], []) (map (fun x => [x]) (concat good_reads)) = Ok (c, b) /\ st c = SReady.
Proof. eexists _, _. split; [vm_compute; reflexivity|vm_compute; reflexivity]. Qed.

(** ** C82, C83: attempts *)

(* After a refusal nothing but the refusal is sent and nothing else happens. *)
Theorem C82_nothing_after_refusal : forall cfg e cached reads c b, Forall all_bytes reads ->
  session cfg e (connect cached, []) reads = Ok (c, b) ->
  forall before k clear u p after, log c = before ++ AuthCalled k clear u p false :: after ->
  st c = SError /\ after = [Sent k (be 4 1 ++ be 4 28 ++ codes "Invalid username or password")].
Proof.
  intros cfg e cached reads c b F E before k clear u p after L.
  apply once_session in E; [|exact F]. destruct E. exact (o_refused before k clear u p after L).
Qed.
Print Assumptions C82_nothing_after_refusal.

(* One connection, one attempt: the callback is called at most once. *)
Theorem C83_one_attempt_per_connection : forall cfg e cached reads c b, Forall all_bytes reads ->
  session cfg e (connect cached, []) reads = Ok (c, b) -> (length (filter is_auth (log c)) <= 1)%nat.
Proof. intros cfg e cached reads c b F E. apply once_session in E; [|exact F]. destruct E. exact o_count. Qed.
Print Assumptions C83_one_attempt_per_connection.

Example C82_ex : exists c b, session toy_cfg toy (connect [], [])
    [hello; [19]; [0; 2]; be 4 262; plain_message (codes "me") (codes "no"); plain_message (codes "me") (codes "pw"); [1]] = Ok (c, b) /\
  In (AuthCalled Tls false (codes "me") (codes "no") false) (log c) /\ st c = SError /\ length (filter is_auth (log c)) = 1%nat.
Proof.
  eexists _, _. split; [vm_compute; reflexivity|]. split; [find_in|].
  split; vm_compute; reflexivity.
Qed.

(** ** C84: session keys of RSA-AES *)

(* If the client's random number decrypts, the keys are those the protocol prescribes:
   the client's is the hash of the server's random number then the client's, the
   server's is the hash of the client's then the server's; the server's reply is the
   first thing sent with them. *)
Theorem C84_session_keys_as_prescribed : forall cfg e c b cipher rest r c' n,
  st c = SRsaChallenge -> zlen cipher < 65536 -> bytes b = be 2 (zlen cipher) ++ cipher ++ rest ->
  rsa_decrypt e cipher = Some r -> length r = length (challenge c) -> challenge c <> [] ->
  try_read cfg e c b = Ok (Some (c', n)) ->
  let h l := firstn (if sha256 c then 32 else 20) (hash e (sha256 c) l) in
  n = 2 + zlen cipher /\ ch c' = RsaAes /\
  exists reply, log c' = log c ++ [Upgraded RsaAes (h (r ++ challenge c)) (h (challenge c ++ r)); Sent RsaAes reply].
Proof.
  intros cfg e c b cipher rest r c' n S L B D Lr Nc H h. unfold try_read in H. rewrite S in H.
  unfold on_rsa_aes_challenge in H.
  assert (Lb := bytes_length b). rewrite B, !app_length, be_length in Lb.
  replace (avail b <? 2) with false in H by lia. cbv zeta in H.
  assert (E1 : unbe (firstn 2 (bytes b)) = zlen cipher).
  { rewrite B, firstn_app_eq by apply be_length. apply unbe_be. change (256 ^ Z.of_nat 2) with 65536. unfold zlen in *. lia. }
  rewrite E1 in H. replace (avail b <? 2 + zlen cipher) with false in H by (unfold zlen; lia).
  replace (firstn (Z.to_nat (zlen cipher)) (skipn 2 (bytes b))) with cipher in H.
  2:{ rewrite B, skipn_app_eq by apply be_length. symmetry. apply firstn_app_eq. unfold zlen. lia. }
  rewrite D in H. apply bind_ok in H as (s & _ & H). apply bind_ok in H as (k & _ & H).
  apply taken_inj in H as [-> ->]. split; [reflexivity|]. split; [reflexivity|].
  replace (firstn (length (challenge c)) (r ++ repeat 0 32)) with r by (rewrite <- Lr; now rewrite firstn_app_exact).
  assert (Nr : r <> []) by (intros ->; destruct (challenge c); [now apply Nc|discriminate]).
  assert (En : forall x y, x <> [] -> y <> [] -> entries [x; y] = x ++ y).
  { intros [|? ?] [|? ?] X Y; try contradiction. cbn [entries]. now rewrite app_nil_r. }
  assert (Hh : forall l, h l = firstn (Z.to_nat (hash_len c)) (hash e (sha256 c) l)).
  { intros l. unfold h, hash_len. destruct (sha256 c); reflexivity. }
  rewrite !Hh. eexists. cbn [log goto send note ch]. rewrite <- app_assoc. cbn [app].
  unfold hash_many at 1 2. rewrite !En by auto. reflexivity.
Qed.
Print Assumptions C84_session_keys_as_prescribed.

Example C84_ex : exists c b, session toy_cfg toy (connect [], []) rsa_start = Ok (c, b) /\ ch c = RsaAes /\
  In (Upgraded RsaAes (firstn 20 (repeat 9 16 ++ repeat 7 16)) (firstn 20 (repeat 7 16 ++ repeat 9 16))) (log c).
Proof.
  eexists _, _. split; [vm_compute; reflexivity|]. split; [reflexivity|]. find_in.
Qed.
