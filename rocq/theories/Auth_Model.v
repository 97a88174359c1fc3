(** The handshake of a client connection: src/server.c (version, security type,
    ClientInit, the receive loop), src/auth/*.c and the numbers of
    src/crypto/nettle/*.c and include/crypto/nettle/common.h.

    What is external is a parameter, [env]: the authentication callback, random
    numbers, RSA, hashes, the key of the server, TLS.  They may depend on all that
    happened before.  A connection that is to be closed once a reply is written
    (close_after_write) is in state [SError], where everything received is thrown
    away.  Round trip time bookkeeping (update_min_rtt) is in Bwe_Model.  assert()
    is taken as compiled in; so are TLS and crypto, if the build options say so.
    Messages of an initialised client are not looked at here. *)
From Verif Require Import Common Pixels_Model Init_Model.

(* the channel the stream of a client uses: src/stream/tcp.c or ws.c, gnutls.c, rsa-aes.c *)
(* src/server.c:2034-2039, src/stream/gnutls.c:255-292, src/stream/rsa-aes.c:192-211 *)
Inductive chan := Clear | Tls | RsaAes.

(* whether a channel hides the bytes: src/stream/gnutls.c and rsa-aes.c do, src/stream/tcp.c:278-304 does not *)
Definition encrypted (c : chan) : bool := match c with Clear => false | _ => true end.

(* include/common.h:45-63, enum nvnc_client_state *)
Inductive cstate :=
| SError | SVersion | SSecurity
| SVenVersion | SVenSubtype | SVenPlain
| SAppleDh
| SRsaPub | SRsaChallenge | SRsaHash | SRsaCred
| SInit | SReady.

(* what can be seen from outside, in order *)
(* calls of stream_write and of callbacks, e.g. src/auth/vencrypt.c:130 *)
Inductive event :=
| Sent (c : chan) (bytes : list Z)
| AuthCalled (c : chan) (in_clear : bool) (user pass : list Z) (answer : bool)
    (* in_clear: some byte of the credentials came over the unencrypted channel *)
| Upgraded (c : chan) (server_key client_key : list Z) (* keys for RSA-AES *)
| OthersDisconnected
| NewClient (* new_client_fn was called *).

(* include/rfb-proto.h:28-37 *)
Definition TYPE_NONE := 1.
(* include/rfb-proto.h:31 *)
Definition TYPE_RSA_AES := 5.
(* include/rfb-proto.h:33 *)
Definition TYPE_VENCRYPT := 19.
(* include/rfb-proto.h:34 *)
Definition TYPE_APPLE_DH := 30.
(* include/rfb-proto.h:35 *)
Definition TYPE_RSA_AES256 := 129.
(* include/rfb-proto.h:105 *)
Definition X509_PLAIN := 262.

(* build options (meson.build:127-133) and the configuration of a server
   (include/common.h:194-205; include/neatvnc.h:111-114) *)
Record config := mk_cfg {
  enable_tls : bool; have_crypto : bool;
  tls_creds : bool; require_auth : bool; require_encryption : bool; has_auth_fn : bool }.

(* external functions; [list event] is what happened before *)
(* include/neatvnc.h:131-132 (auth_fn), include/crypto.h:52-130 *)
Record env := mk_env {
  auth_fn : list event -> list Z -> list Z -> bool;
  random : list event -> nat -> list Z;
  rsa_encrypt : list event -> Z -> Z -> list Z -> option Z; (* modulus, exponent, message *)
  rsa_decrypt : list Z -> option (list Z); (* with the server's private key *)
  hash : bool -> list Z -> list Z; (* SHA-256 or SHA-1 *)
  server_key : Z * Z * Z; (* size in bytes, modulus, exponent *)
  tls_accepts : list event -> bool; (* stream_upgrade_to_tls succeeded *)
  dh_secret : list event -> Z;
  dh_public : Z -> Z; (* of a secret: g^x mod p *)
  dh_prime : Z;
  dh_decrypt : Z -> list Z -> list Z -> list Z; (* secret, client's key, credentials: AES with the hashed shared secret *)
  server_name : list Z;
  displayed : list event -> option (Z * Z * Z) (* the framebuffer shown: width, height, format *) }.

(* include/common.h:88-149 as far as needed here, with the server's security_types *)
Record conn := mk_conn {
  st : cstate; ch : chan; types : list Z;
  sha256 : bool; challenge : list Z; pub : Z * Z * Z (* size, modulus, exponent *);
  secret : Z; log : list event }.

(* src/server.c:2003-2064, a new connection; [cached] are the server's security types *)
Definition connect (cached : list Z) : conn :=
  mk_conn SVersion Clear cached false [] (0, 0, 0) 0 [Sent Clear (codes "RFB 003.008" ++ [10])].

(* client->state = s, include/common.h:93 *)
Definition goto (c : conn) (s : cstate) : conn :=
  mk_conn s (ch c) (types c) (sha256 c) (challenge c) (pub c) (secret c) (log c).
(* records what is seen from outside, e.g. src/server.c:2060 *)
Definition note (c : conn) (e : event) : conn :=
  mk_conn (st c) (ch c) (types c) (sha256 c) (challenge c) (pub c) (secret c) (log c ++ [e]).
(* stream_write and stream_send, e.g. src/server.c:2060 *)
Definition send (c : conn) (l : list Z) : conn := note c (Sent (ch c) l).

(* received bytes, each with whether it came through an encrypted channel *)
(* include/common.h:102-104, msg_buffer from buffer_index to buffer_len *)
Definition rx : Type := list (bool * Z).
(* include/common.h:102-104, without the ghost flags *)
Definition bytes (b : rx) : list Z := map snd b.
(* client->buffer_len - client->buffer_index, include/common.h:102-103 *)
Definition avail (b : rx) : Z := Z.of_nat (length b).

(* a handler: None if it closed (and freed) the client, else the client and the
   number of bytes taken; 0 means wait *)
(* the results of try_read_client_message, src/server.c:1904-1936 *)
Definition taken : Type := option (conn * Z).

(** ** Numbers: include/crypto/nettle/common.h *)

(* mpz_sizeinbase(n, 2), rounded up to bytes: include/crypto/nettle/common.h:25-26 *)
Definition byte_size (n : Z) : Z := if n =? 0 then 1 else (Z.log2 n + 1 + 7) / 8.

(* include/crypto/nettle/common.h:18-35, crypto_export to a destination of [dst_size]
   bytes: the bytes written and the return value, which is the size of the number *)
Definition crypto_export (dst_size n : Z) : res (list Z * Z) :=
  if byte_size n <=? dst_size
  then Ok (be (Z.to_nat dst_size) n, if n =? 0 then 0 (* mpz_export sets it *) else byte_size n)
  else Fault AssertFail.

(* rsa_public_key_prepare of nettle: the size of a modulus, 0 if it is not acceptable *)
(* called at src/crypto/nettle/rsa.c:65 *)
Definition rsa_size (n : Z) : Z := if Z.even n || (byte_size n <? 12) then 0 else byte_size n.

(* src/auth/rsa-aes.c:22 with a uint32_t and int operands *)
Definition bits_to_bytes (bits : Z) : Z := ((bits + 8 - 1) mod 2 ^ 32) / 8.

(** ** Replies: src/auth/common.c *)

(* src/auth/common.c:23-51 *)
Definition security_handshake_failed (c : conn) (reason : list Z) : conn :=
  send (goto c SError) (be 4 1 ++ be 4 (zlen reason) ++ reason).

(* src/auth/common.c:53-65 *)
Definition security_handshake_ok (c : conn) : conn := send c (be 4 0).

Section Handlers.
Variable cfg : config.
Variable e : env.

(* src/server.c:257-292 *)
Definition init_security_types (cached : list Z) : res (list Z) :=
  match cached with
  | _ :: _ => Ok cached
  | [] =>
      let* l := if require_auth cfg then
                  if negb (has_auth_fn cfg) then Fault AssertFail
                  else Ok ((if enable_tls cfg && tls_creds cfg then [TYPE_VENCRYPT] else []) ++
                           (if have_crypto cfg then
                              [TYPE_RSA_AES256; TYPE_RSA_AES] ++
                              (if require_encryption cfg then [] else [TYPE_APPLE_DH])
                            else []))
                else Ok [TYPE_NONE] in
      match l with
      | [] => Fault AssertFail (* NVNC_LOG_PANIC *)
      | _ => Ok l
      end
  end.

(* src/server.c:236-255 *)
Definition handle_unsupported_version (c : conn) : conn :=
  let reason := codes "Unsupported version" ++ [10] in
  send (goto c SError) ([0] ++ be 4 (zlen reason) ++ reason).

(* src/server.c:316-349 *)
Definition on_version_message (c : conn) (b : rx) : res taken :=
  if avail b <? 12 then Ok (Some (c, 0))
  else if negb (if list_eq_dec Z.eq_dec (firstn 12 (bytes b)) (codes "RFB 003.008" ++ [10]) then true else false)
  then Ok (Some (handle_unsupported_version c, 0))
  else
    let* l := init_security_types (types c) in
    let c := mk_conn (st c) (ch c) l (sha256 c) (challenge c) (pub c) (secret c) (log c) in
    let c := send c (Z.of_nat (length l) :: l) in
    Ok (Some (goto c SSecurity, 12)).

(* src/auth/apple-dh.c:24-52 *)
Definition apple_dh_send_public_key (c : conn) : res conn :=
  let x := dh_secret e (log c) in
  let c := mk_conn (st c) (ch c) (types c) (sha256 c) (challenge c) (pub c) x (log c) in
  let* m := crypto_export 256 (dh_prime e) in
  if negb (snd m =? 256) then Fault AssertFail
  else
    let* q := crypto_export 256 (dh_public e x) in
    if negb (snd q =? 256) then Fault AssertFail
    else Ok (send (send (send c (be 2 2 ++ be 2 256)) (fst m)) (fst q)).

(* src/auth/rsa-aes.c:24-57; a key that was not set is generated first *)
Definition rsa_aes_send_public_key (c : conn) : res conn :=
  let '(len, n, x) := server_key e in
  let* m := crypto_export len n in
  let* q := crypto_export len x in
  Ok (send c (be 4 (len * 8) ++ fst m ++ fst q)).

(* src/server.c:351-404 *)
Definition on_security_message (c : conn) (b : rx) : res taken :=
  match bytes b with
  | [] => Ok (Some (c, 0))
  | type :: _ =>
      if negb (existsb (fun t => t =? type) (types c))
      then Ok (Some (security_handshake_failed c (codes "Illegal security type"), 1))
      else
        let rsa is256 len :=
          let c := mk_conn (st c) (ch c) (types c) is256 (repeat 0 len) (pub c) (secret c) (log c) in
          let* c := rsa_aes_send_public_key c in
          Ok (Some (goto c SRsaPub, 1)) in
        if type =? TYPE_NONE then Ok (Some (goto (security_handshake_ok c) SInit, 1))
        else if enable_tls cfg && (type =? TYPE_VENCRYPT) then Ok (Some (goto (send c [0; 2]) SVenVersion, 1))
        else if have_crypto cfg && (type =? TYPE_APPLE_DH) then
          let* c := apple_dh_send_public_key c in Ok (Some (goto c SAppleDh, 1))
        else if have_crypto cfg && (type =? TYPE_RSA_AES) then rsa false 16%nat
        else if have_crypto cfg && (type =? TYPE_RSA_AES256) then rsa true 32%nat
        else Ok (Some (security_handshake_failed c (codes "Unsupported security type"), 1))
  end.

(* the part common to src/auth/vencrypt.c:128-136, apple-dh.c:99-107 and
   rsa-aes.c:295-303; [used] are the bytes of the message *)
Definition authenticate (c : conn) (used : rx) (user pass : list Z) : conn :=
  let answer := auth_fn e (log c) user pass in
  let c := note c (AuthCalled (ch c) (existsb (fun x => negb (fst x)) used) user pass answer) in
  if answer then goto (security_handshake_ok c) SInit
  else security_handshake_failed c (codes "Invalid username or password").

(* src/auth/vencrypt.c:45-71 *)
Definition on_vencrypt_version (c : conn) (b : rx) : res taken :=
  match bytes b with
  | major :: minor :: _ =>
      if negb (major =? 0) || negb (minor =? 2)
      then Ok (Some (security_handshake_failed c (codes "Unsupported VeNCrypt version"), 2))
      else Ok (Some (goto (send (send c [0]) ([1] ++ be 4 X509_PLAIN)) SVenSubtype, 2))
  | _ => Ok (Some (c, 0))
  end.

(* src/auth/vencrypt.c:73-101 *)
Definition on_vencrypt_subtype (c : conn) (b : rx) : res taken :=
  if avail b <? 4 then Ok (Some (c, 0))
  else if negb (unbe (firstn 4 (bytes b)) =? X509_PLAIN) then Ok (Some (send (goto c SError) [0], 4))
  else
    let c := send c [1] in
    if tls_accepts e (log c) then
      let c := mk_conn SVenPlain Tls (types c) (sha256 c) (challenge c) (pub c) (secret c) (log c) in
      Ok (Some (note c (Upgraded Tls [] []), 4))
    else Ok None.

(* src/auth/vencrypt.c:103-139 *)
Definition on_vencrypt_plain (c : conn) (b : rx) : res taken :=
  if avail b <? 8 then Ok (Some (c, 0))
  else
    let ulen := unbe (firstn 4 (bytes b)) in
    let plen := unbe (firstn 4 (skipn 4 (bytes b))) in
    if avail b <? 8 + ulen + plen then Ok (Some (c, 0))
    else
      let text := skipn 8 (bytes b) in
      let user := cstr (firstn (Z.to_nat (Z.min ulen 255)) text) in
      let pass := cstr (firstn (Z.to_nat (Z.min plen 255)) (skipn (Z.to_nat ulen) text)) in
      Ok (Some (authenticate c (firstn (Z.to_nat (8 + ulen + plen)) b) user pass, 8 + ulen + plen)).

(* src/auth/apple-dh.c:54-110 *)
Definition apple_dh_handle_response (c : conn) (b : rx) : res taken :=
  if avail b <? 128 + 256 then Ok (Some (c, 0))
  else
    let creds := dh_decrypt e (secret c) (firstn 256 (skipn 128 (bytes b))) (firstn 128 (bytes b)) in
    let user := cstr (firstn 63 creds) in
    let pass := cstr (firstn 63 (skipn 64 creds)) in
    Ok (Some (authenticate c (firstn (128 + 256) b) user pass, 128 + 256)).

(* src/auth/rsa-aes.c:59-75 *)
Definition rsa_aes_send_challenge (c : conn) : res conn :=
  let '(size, n, x) := pub c in
  let challenge := random e (log c) (length (challenge c)) in
  let c := mk_conn (st c) (ch c) (types c) (sha256 c) challenge (pub c) (secret c) (log c) in
  match rsa_encrypt e (log c) n x challenge with
  | None => (* len is -1 *) Ok (send c [255])
  | Some m =>
      let* out := crypto_export size m in
      (* uint8_t buffer[1024] *)
      if 1024 <? 2 + size then Fault OobWrite
      else
        let len := snd out in
        Ok (send c (firstn (Z.to_nat (2 + len)) (be 2 len ++ fst out)))
  end.

(* src/auth/rsa-aes.c:77-105 with src/crypto/nettle/rsa.c:53-68 *)
Definition on_rsa_aes_public_key (c : conn) (b : rx) : res taken :=
  if avail b <? 4 then Ok (Some (c, 0))
  else
    let len := bits_to_bytes (unbe (firstn 4 (bytes b))) in
    if avail b <? 4 + len * 2 then Ok (Some (c, 0))
    else
      let k := Z.to_nat len in
      let n := unbe (firstn k (skipn 4 (bytes b))) in
      let x := unbe (firstn k (skipn (4 + k) (bytes b))) in
      let c := mk_conn SRsaChallenge (ch c) (types c) (sha256 c) (challenge c) (rsa_size n, n, x) (secret c) (log c) in
      let* c := rsa_aes_send_challenge c in
      Ok (Some (c, 4 + len * 2)).

(* src/auth/rsa-aes.c:107-116 *)
Definition hash_len (c : conn) : Z := if sha256 c then 32 else 20.

(* src/crypto/nettle/hash.c:92-100: entries up to the first empty one *)
Fixpoint entries (l : list (list Z)) : list Z :=
  match l with
  | [] => []
  | [] :: _ => []
  | x :: l => x ++ entries l
  end.
(* crypto_hash_many, src/crypto/nettle/hash.c:92-100 *)
Definition hash_many (c : conn) (l : list (list Z)) : list Z :=
  firstn (Z.to_nat (hash_len c)) (hash e (sha256 c) (entries l)).

(* src/auth/rsa-aes.c:163-194 and 218-248: the entries of a public key *)
Definition key_entries (k : Z * Z * Z) : res (list (list Z)) :=
  let '(size, n, x) := k in
  let* m := crypto_export size n in
  let* q := crypto_export size x in
  Ok [be 4 ((size * 8) mod 2 ^ 32); fst m; fst q].

(* src/auth/rsa-aes.c:118-207 *)
Definition on_rsa_aes_challenge (c : conn) (b : rx) : res taken :=
  if avail b <? 2 then Ok (Some (c, 0))
  else
    let length_ := unbe (firstn 2 (bytes b)) in
    if avail b <? 2 + length_ then Ok (Some (c, 0))
    else
      match rsa_decrypt e (firstn (Z.to_nat length_) (skipn 2 (bytes b))) with
      | None => Ok None
      | Some r =>
          let n := length (challenge c) in
          let client_random := firstn n (r ++ repeat 0 32) in
          let client_session_key := hash_many c [challenge c; client_random] in
          let server_session_key := hash_many c [client_random; challenge c] in
          let c := mk_conn (st c) RsaAes (types c) (sha256 c) (challenge c) (pub c) (secret c) (log c) in
          let c := note c (Upgraded RsaAes server_session_key client_session_key) in
          let* s := key_entries (server_key e) in
          let* k := key_entries (pub c) in
          Ok (Some (goto (send c (hash_many c (s ++ k))) SRsaHash, 2 + length_))
      end.

(* src/auth/rsa-aes.c:209-267 *)
Definition on_rsa_aes_client_hash (c : conn) (b : rx) : res taken :=
  if avail b <? hash_len c then Ok (Some (c, 0))
  else
    let* s := key_entries (server_key e) in
    let* k := key_entries (pub c) in
    if list_eq_dec Z.eq_dec (firstn (Z.to_nat (hash_len c)) (bytes b)) (hash_many c (k ++ s))
    then Ok (Some (goto (send c [1]) SRsaCred, hash_len c))
    else Ok None.

(* src/auth/rsa-aes.c:269-306 *)
Definition on_rsa_aes_credentials (c : conn) (b : rx) : res taken :=
  if avail b <? 2 then Ok (Some (c, 0))
  else
    let ulen := hd 0 (bytes b) in
    if avail b <? 2 + ulen then Ok (Some (c, 0))
    else
      let plen := nth (Z.to_nat (1 + ulen)) (bytes b) 0 in
      if avail b <? 2 + ulen + plen then Ok (Some (c, 0))
      else
        let user := cstr (firstn (Z.to_nat ulen) (skipn 1 (bytes b))) in
        let pass := cstr (firstn (Z.to_nat plen) (skipn (Z.to_nat (2 + ulen)) (bytes b))) in
        Ok (Some (authenticate c (firstn (Z.to_nat (2 + ulen + plen)) b) user pass, 2 + ulen + plen)).

(* src/server.c:480-502; if send_server_init_message closes the client, it is used
   after that *)
Definition on_init_message (c : conn) (b : rx) : res taken :=
  match bytes b with
  | [] => Ok (Some (c, 0))
  | shared :: _ =>
      let c := if shared =? 0 then note c OthersDisconnected else c in
      match send_server_init_message (server_name e) (displayed e (log c)) with
      | None => Fault UseAfterFree
      | Some (m, _) => Ok (Some (goto (note (send c m) NewClient) SReady, 1))
      end
  end.

(* src/server.c:1904-1936, try_read_client_message; messages of an initialised
   client are left alone *)
Definition try_read (c : conn) (b : rx) : res taken :=
  match st c with
  | SError => Ok (Some (c, avail b))
  | SVersion => on_version_message c b
  | SSecurity => on_security_message c b
  | SVenVersion => on_vencrypt_version c b
  | SVenSubtype => on_vencrypt_subtype c b
  | SVenPlain => on_vencrypt_plain c b
  | SAppleDh => apple_dh_handle_response c b
  | SRsaPub => on_rsa_aes_public_key c b
  | SRsaChallenge => on_rsa_aes_challenge c b
  | SRsaHash => on_rsa_aes_client_hash c b
  | SRsaCred => on_rsa_aes_credentials c b
  | SInit => on_init_message c b
  | SReady => Ok (Some (c, 0))
  end.

(* src/server.c:1976-1994, the loop; a closed client is used by the loop itself *)
Fixpoint read_loop (fuel : nat) (c : conn) (b : rx) : res (conn * rx) :=
  match fuel with
  | O => Fault Diverges
  | S fuel =>
      let* r := try_read c b in
      match r with
      | None => Fault UseAfterFree
      | Some (c, n) =>
          if n =? 0 then Ok (c, b)
          else if avail b <? n then Fault AssertFail (* NVNC_LOG_PANIC, line 1989 *)
          else read_loop fuel c (skipn (Z.to_nat n) b)
      end
  end.

(* src/server.c:1938-1995, on_client_event: [data] is what stream_read returned, at
   most as much as there is space in msg_buffer[4096] *)
Definition on_client_event (s : conn * rx) (data : list Z) : res (conn * rx) :=
  let (c, b) := s in
  match data with
  | [] => Ok s
  | _ =>
      let b := b ++ map (pair (encrypted (ch c))) data in
      if 4096 <? avail b then Ok s (* more than was asked for: no such read *)
      else read_loop (S (length b)) c b
  end.

(* a run of the event handler, src/server.c:1938-1995 *)
Fixpoint session (s : conn * rx) (reads : list (list Z)) : res (conn * rx) :=
  match reads with
  | [] => Ok s
  | data :: reads => let* s := on_client_event s data in session s reads
  end.
End Handlers.
