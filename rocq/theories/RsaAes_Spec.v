(** The RSA-AES message format, independent of the code: message number k
    (from 0, per direction) is a big-endian 16-bit length n, n bytes of
    ciphertext and a 16-byte tag; its nonce is k as a 16-byte little-endian
    number and its associated data the two length bytes. *)
From Verif Require Import Common.

Definition nonce_of (k : Z) : list Z := le 16 k.

Section Format.
Variable seal unseal mac : list Z -> list Z -> list Z -> list Z.

(** [decodes k bytes ps rest]: reading [bytes] from message number k on, the
    messages are authentic, carry [ps], and leave [rest] unread. *)
Inductive decodes : Z -> list Z -> list (list Z) -> list Z -> Prop :=
| dec_end : forall k rest, decodes k rest [] rest
| dec_msg : forall k n text bytes ps rest,
    zlen text = n -> 0 <= n < 2 ^ 16 ->
    decodes (k + 1) bytes ps rest ->
    decodes k (be 2 n ++ text ++ mac (nonce_of k) (be 2 n) text ++ bytes)
      (unseal (nonce_of k) (be 2 n) text :: ps) rest.

(** What a conforming peer sends for the message texts [ms]. *)
Definition frame (k : Z) (m : list Z) : list Z :=
  let ad := be 2 (zlen m) in
  let text := seal (nonce_of k) ad m in
  ad ++ text ++ mac (nonce_of k) ad text.

Fixpoint wire (k : Z) (ms : list (list Z)) : list Z :=
  match ms with
  | [] => []
  | m :: ms => frame k m ++ wire (k + 1) ms
  end.

(** What is assumed of the cipher: same length, inverse, 16-byte tags. *)
Definition cipher_ok : Prop :=
  (forall n ad m, zlen (seal n ad m) = zlen m) /\
  (forall n ad m, unseal n ad (seal n ad m) = m) /\
  (forall n ad m, zlen (mac n ad m) = 16).
End Format.
