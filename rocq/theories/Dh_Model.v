(** Diffie-Hellman as Apple's security type uses it: src/crypto/nettle/key.c, the
    AES-ECB part of src/crypto/nettle/cipher.c, and src/auth/apple-dh.c with the numbers
    that Auth_Model leaves open.

    MD5 and the block cipher (nettle) are parameters; GMP's numbers are Z.  Allocation
    failure is not modelled. *)
From Verif Require Import Common Auth_Model.

(* src/crypto/nettle/key.c:27-31 *)
Record key := mk_key { kg : Z; kp : Z; kq : Z }.

(* src/crypto/nettle/key.c:33-48 *)
Definition crypto_key_new (g : Z) (p q : list Z) : key := mk_key g (unbe p) (unbe q).

(* nettle_base16_decode_update, called at src/crypto/nettle/key.c:98: a digit *)
Definition unhex_digit (c : Z) : Z := if c <? 65 then c - 48 else c - 55.
(* src/crypto/nettle/key.c:98: digits in pairs *)
Fixpoint unhex (l : list Z) : list Z :=
  match l with
  | a :: b :: l => unhex_digit a * 16 + unhex_digit b :: unhex l
  | _ => []
  end.
(* src/crypto/nettle/key.c:79-91 *)
Definition prime_digits : list Z :=
  codes "FFFFFFFFFFFFFFFFC90FDAA22168C234C4C6628B80DC1CD129024E088A67CC74" ++
   codes "020BBEA63B139B22514A08798E3404DDEF9519B3CD3A431B302B0A6DF25F1437" ++
   codes "4FE1356D6D51C245E485B576625E7EC6F44C42E9A637ED6B0BFF5CB6F406B7ED" ++
   codes "EE386BFB5A899FA5AE9F24117C4B1FE649286651ECE45B3DC2007CB8A163BF05" ++
   codes "98DA48361C55D39A69163FA8FD24CF5F83655D23DCA3AD961C62F356208552BB" ++
   codes "9ED529077096966D670C354E4ABC9804F1746C08CA18217C32905E462E36CE3B" ++
   codes "E39E772C180E86039B2783A2EC07A28FB5C55DF06F4C52C9DE2BCBF695581718" ++
   codes "3995497CEA956AE515D2261898FA051015728E5A8AACAA68FFFFFFFFFFFFFFFF".
(* src/crypto/nettle/key.c:76-103 *)
Definition prime : Z := unbe (unhex prime_digits).

(* src/crypto/nettle/key.c:112-127; [buf] is what crypto_random filled in, 256 bytes *)
Definition crypto_keygen (buf : list Z) : key := mk_key 2 prime (unbe buf).

(* mpz_powm_sec of GMP, called at src/crypto/nettle/key.c:143 and 170 *)
Definition powm (b x m : Z) : Z := b ^ x mod m.

(* src/crypto/nettle/key.c:129-147 *)
Definition crypto_derive_public_key (priv : key) : key := mk_key (kg priv) (kp priv) (powm (kg priv) (kq priv) (kp priv)).

(* src/crypto/nettle/key.c:149-177 *)
Definition crypto_derive_shared_secret (own remote : key) : option key :=
  if negb (kg own =? kg remote) then None
  else if negb (kp own =? kp remote) then None
  else Some (mk_key (kg own) (kp own) (powm (kq remote) (kq own) (kp own))).

Section Aes.
Variable md5 : list Z -> list Z.
(* key and block *)
Variable aes_decrypt : list Z -> list Z -> list Z.

(* aes128_decrypt of nettle, called at src/crypto/nettle/cipher.c:71: block by block *)
Fixpoint ecb_decrypt (n : nat) (k src : list Z) : list Z :=
  match n with
  | O => []
  | S n => aes_decrypt k (firstn 16 src) ++ ecb_decrypt n k (skipn 16 src)
  end.

(* src/auth/apple-dh.c:68-95, from the secret, the client's key and its credentials to
   the text *)
Definition apple_dh_decrypt (secret : key) (public creds : list Z) : res (list Z) :=
  let* p := crypto_export 256 (kp secret) in
  if negb (snd p =? 256) then Fault AssertFail else
  let remote := crypto_key_new (kg secret) (fst p) public in
  match crypto_derive_shared_secret secret remote with
  | None => Fault AssertFail
  | Some shared =>
      let* s := crypto_export 256 (kq shared) in
      Ok (ecb_decrypt 8 (md5 (fst s)) creds)
  end.

(* the functions of src/crypto/nettle/key.c in the places Auth_Model has for them; the
   secret is drawn when the public key is sent (src/auth/apple-dh.c:26) *)
Definition with_dh (e : env) : env :=
  mk_env (auth_fn e) (random e) (rsa_encrypt e) (rsa_decrypt e) (hash e) (server_key e) (tls_accepts e)
    (fun l => kq (crypto_keygen (random e l 256)))
    (fun x => kq (crypto_derive_public_key (mk_key 2 prime x)))
    prime
    (fun x public creds => match apple_dh_decrypt (mk_key 2 prime x) public creds with Ok t => t | Fault _ => [] end)
    (server_name e) (displayed e).
End Aes.
