(** Random numbers: crypto_random (src/crypto/random.c) and what is made with it, the
    server's number for RSA-AES (src/auth/rsa-aes.c) and the secret for Diffie-Hellman
    (src/crypto/nettle/key.c).  The kernel's answer to getrandom is a parameter.  Not
    modelled: the numbers nettle draws through generate_random_for_rsa
    (src/crypto/nettle/rsa.c:178-181), whose buffers are nettle's. *)
From Verif Require Import Common Auth_Model.

(* getrandom(2) as called at src/crypto/random.c:26: the bytes it wrote, which may be fewer
   than asked for, or an error *)
Inductive answer := Gave (bytes : list Z) | Refused.

(* src/crypto/random.c:24-27; [dst] is the memory before, [None] for a byte that was never
   written; the result of getrandom is not looked at *)
Definition crypto_random (a : answer) (dst : list (option Z)) : list (option Z) :=
  match a with
  | Gave l => let l := firstn (length dst) l in map Some l ++ skipn (length l) dst
  | Refused => dst
  end.

(* memory is read, as by crypto_import at src/crypto/nettle/key.c:108 *)
Fixpoint read_all (l : list (option Z)) : res (list Z) :=
  match l with
  | [] => Ok []
  | None :: _ => Fault Uninit
  | Some b :: l => let* r := read_all l in Ok (b :: r)
  end.

(* src/crypto/nettle/key.c:104-109; the buffer is on the stack *)
Definition generate_random (a : answer) : res Z :=
  let* b := read_all (crypto_random a (repeat None 256)) in Ok (unbe b).

(* src/auth/rsa-aes.c:62; the challenge is part of struct nvnc_client, which was made with
   calloc (src/server.c:2003), and is written here only *)
Definition draw (a : answer) (n : nat) : list Z :=
  map (fun b => match b with Some b => b | None => 0 end) (crypto_random a (repeat (Some 0) n)).

(* the handshake of Auth_Model with these numbers; [kernel]: the answers of getrandom, after
   what happened on the connection, to a request for so many bytes *)
(* src/auth/rsa-aes.c:59-76 *)
Definition with_kernel (kernel : list event -> nat -> answer) (e : env) : env :=
  mk_env (auth_fn e) (fun l n => draw (kernel l n) n) (rsa_encrypt e) (rsa_decrypt e) (hash e) (server_key e)
    (tls_accepts e) (dh_secret e) (dh_public e) (dh_prime e) (dh_decrypt e) (server_name e) (displayed e).
