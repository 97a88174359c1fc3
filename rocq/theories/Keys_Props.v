(** C131: RSA-AES, what the two sides prove to each other. *)
From Verif Require Import Common CommonProofs Ws_Proofs WsStream_Proofs Pixels_Model Init_Model Auth_Model Auth_Spec
  Auth_Proofs Auth2_Proofs Auth3_Proofs Auth4_Proofs Auth5_Proofs Auth_Props Keys_Spec Keys_Proofs.

(** A client that picks RSA-AES is sent the server's key message. *)
Theorem C131_server_sends_its_key : forall cfg e c b rest type c' k,
  st c = SSecurity -> have_crypto cfg = true -> type = 5 \/ type = 129 -> In type (types c) -> bytes b = type :: rest ->
  server_key_fine e -> try_read cfg e c b = Ok (Some (c', k)) ->
  st c' = SRsaPub /\ k = 1 /\ sha256 c' = (type =? 129) /\ log c' = log c ++ [Sent (ch c) (server_message e)].
Proof.
  intros cfg e c b rest type c' k S HC T I B F H. unfold try_read in H. rewrite S in H. unfold on_security_message in H. rewrite B in H.
  replace (existsb (fun t => t =? type) (types c)) with true in H
    by (symmetry; apply existsb_exists; exists type; split; [exact I|lia]). cbn [negb] in H. cbv zeta in H.
  assert (SM : forall c0, rsa_aes_send_public_key e c0 = Ok (send c0 (server_message e))).
  { intros c0. unfold rsa_aes_send_public_key, server_message, server_key_fine in *. destruct (server_key e) as [[size n] x].
    destruct F as (F1 & F2 & F3 & F4). destruct (export_be size n F1 F3) as [a ->]. destruct (export_be size x F1 F4) as [a' ->]. reflexivity. }
  rewrite HC in H. unfold TYPE_NONE, TYPE_VENCRYPT, TYPE_APPLE_DH, TYPE_RSA_AES, TYPE_RSA_AES256 in H.
  destruct T as [-> | ->]; cbn [Z.eqb Pos.eqb andb] in H; rewrite Bool.andb_false_r in H; rewrite SM in H; cbn [bind] in H;
    apply taken_inj in H as [-> ->]; auto.
Qed.
Print Assumptions C131_server_sends_its_key.

(** The key message of the client, whatever follows it, is read as it was meant, if the
    client's size is that of its modulus. *)
Theorem C131_client_key_is_taken_partial : forall cfg e c b size n x rest c' k,
  st c = SRsaPub -> tidy_key size n x -> bytes b = key_message size n x ++ rest ->
  try_read cfg e c b = Ok (Some (c', k)) ->
  k = zlen (key_message size n x) /\ st c' = SRsaChallenge /\ pub c' = (size, n, x) /\ sha256 c' = sha256 c.
Proof. apply key_taken. Qed.
Print Assumptions C131_client_key_is_taken_partial.

(** The server's proof: with the client's random number, which makes the keys of the
    channel, it sends the hash of the two key messages, its own first. *)
Theorem C131_server_proves_its_key_partial : forall cfg e c b size n x c' k,
  st c = SRsaChallenge -> pub c = (size, n, x) -> tidy_key size n x -> server_key_fine e ->
  try_read cfg e c b = Ok (Some (c', k)) -> k <> 0 ->
  st c' = SRsaHash /\ ch c' = RsaAes /\ pub c' = (size, n, x) /\ sha256 c' = sha256 c /\
  exists s s', log c' = log c ++ [Upgraded RsaAes s s'; Sent RsaAes (digest_of e c (server_message e ++ key_message size n x))].
Proof. apply server_proves. Qed.
Print Assumptions C131_server_proves_its_key_partial.

(** The client's proof: the hash of the two key messages, the client's first, and
    nothing else, gets it to the credentials; with anything else it is disconnected. *)
Theorem C131_client_must_prove_its_key_partial : forall cfg e c b size n x,
  st c = SRsaHash -> pub c = (size, n, x) -> tidy_key size n x -> server_key_fine e ->
  let want := digest_of e c (key_message size n x ++ server_message e) in
  let len := if sha256 c then 32 else 20 in
  try_read cfg e c b =
    if avail b <? len then Ok (Some (c, 0))
    else if list_eq_dec Z.eq_dec (firstn (Z.to_nat len) (bytes b)) want
    then Ok (Some (goto (send c [1]) SRsaCred, len)) else Ok None.
Proof. apply client_proves. Qed.
Print Assumptions C131_client_must_prove_its_key_partial.

(** There is no other way to the credentials of RSA-AES. *)
Theorem C131_no_credentials_without_proof_partial : forall cfg e c b c' k size n x,
  try_read cfg e c b = Ok (Some (c', k)) -> st c' = SRsaCred -> st c <> SRsaCred ->
  pub c = (size, n, x) -> tidy_key size n x -> server_key_fine e ->
  is_prefix (digest_of e c (key_message size n x ++ server_message e)) (bytes b).
Proof.
  intros cfg e c b c' k size n x H K N P T F. destruct (cred_entered cfg e c b c' k H K) as [S|[S _]]; [|contradiction].
  rewrite (client_proves cfg e c b size n x S P T F) in H. cbv zeta in H.
  destruct (avail b <? _) in H; [apply taken_inj in H as [-> _]; congruence|].
  destruct (list_eq_dec _ _ _) as [E|]; [|discriminate]. rewrite <- E. eexists. symmetry. apply firstn_skipn.
Qed.
Print Assumptions C131_no_credentials_without_proof_partial.

(** A key exchange up to the credentials. *)
Definition my_n : Z := 2 ^ 511 + 2 ^ 507 + 3.
Definition my_key : list Z := key_message 64 my_n 65537.
Definition my_hash : list Z := firstn 20 my_key.
Definition exchange (key : list Z) (hash_ : list Z) : list (list Z) :=
  [hello; [5]; key; be 2 16 ++ repeat 9 16; hash_].
Example C131_ex : tidy_key 64 my_n 65537 /\ server_key_fine toy /\
  exists c b, session toy_cfg toy (connect [], []) (exchange my_key my_hash) = Ok (c, b) /\ st c = SRsaCred /\
    In (Sent Clear (server_message toy)) (log c) /\ In (Sent RsaAes (firstn 20 (server_message toy))) (log c).
Proof.
  split; [vm_compute; repeat split; discriminate|]. split; [vm_compute; repeat split; discriminate|].
  eexists _, _. split; [vm_compute; reflexivity|]. split; [reflexivity|]. split; vm_compute; find_in.
Qed.
Example C131_wrong_hash_ex : exists c b, session toy_cfg toy (connect [], []) (firstn 4 (exchange my_key my_hash)) = Ok (c, b) /\
  try_read toy_cfg toy c (map (pair true) (firstn 20 (server_message toy))) = Ok None.
Proof. eexists _, _. split; [vm_compute; reflexivity|]. vm_compute. reflexivity. Qed.

(** A key sent with a leading zero byte: the server hashes a key message the client never
    sent, and disconnects a client that hashes what was sent.  (The same happens with a
    size in bits that is no multiple of 8.) *)
Theorem C131_client_proves_what_was_sent_refuted : exists cfg e n x key c b,
  server_key_fine e /\ key = key_message 65 n x /\ 0 <= n < 256 ^ 65 /\ 0 <= x < 256 ^ 65 /\ Z.odd n = true /\
  session cfg e (connect [], []) [hello; [5]; key; be 2 16 ++ repeat 9 16] = Ok (c, b) /\ b = [] /\ st c = SRsaHash /\
  In (Sent Clear (server_message e)) (log c) /\
  try_read cfg e c (map (pair true) (digest_of e c (key ++ server_message e))) = Ok None.
Proof.
  exists toy_cfg, toy, my_n, 65537, (key_message 65 my_n 65537). eexists _, _.
  split; [vm_compute; repeat split; discriminate|]. split; [reflexivity|].
  split; [vm_compute; split; [discriminate|reflexivity]|]. split; [vm_compute; split; [discriminate|reflexivity]|]. split; [vm_compute; reflexivity|].
  split; [vm_compute; reflexivity|]. split; [reflexivity|]. split; [reflexivity|]. split; [vm_compute; find_in|].
  vm_compute. reflexivity.
Qed.
Print Assumptions C131_client_proves_what_was_sent_refuted.
