(** What the parties of RSA-AES prove to each other: both hash the two public key
    messages, the server's first in the server's hash, the client's first in the
    client's. *)
From Verif Require Import Common Auth_Model.

(* a public key as a message: size in bits, modulus, exponent *)
Definition key_message (size n x : Z) : list Z := be 4 (size * 8) ++ be (Z.to_nat size) n ++ be (Z.to_nat size) x.

(* the size is that of the modulus, which is one RSA can have *)
Definition tidy_key (size n x : Z) : Prop :=
  12 <= size /\ size * 8 < 2 ^ 32 /\ 256 ^ (size - 1) <= n < 256 ^ size /\ Z.odd n = true /\ 0 <= x < 256 ^ size.

(* SHA-1 or SHA-256 *)
Definition digest_of (e : env) (c : conn) (l : list Z) : list Z := firstn (if sha256 c then 32 else 20) (hash e (sha256 c) l).

(* the server's public key as it sends it *)
Definition server_message (e : env) : list Z := let '(size, n, x) := server_key e in key_message size n x.
Definition server_key_fine (e : env) : Prop :=
  let '(size, n, x) := server_key e in 0 < size /\ size * 8 < 2 ^ 32 /\ 0 <= n < 256 ^ size /\ 0 <= x < 256 ^ size.
