(** A client of Apple's Diffie-Hellman security type, as the protocol describes it. *)
From Verif Require Import Common.

Section Client.
Variable md5 : list Z -> list Z.
Variable aes_encrypt : list Z -> list Z -> list Z. (* key and block *)

(* user name and password take 64 bytes each, ended by a zero; what follows is random *)
Definition field (s junk : list Z) : list Z := s ++ 0 :: junk.
Definition fits_field (s junk : list Z) : Prop := length (field s junk) = 64%nat /\ ~ In 0 s.

Fixpoint blocks (n : nat) (k text : list Z) : list Z :=
  match n with
  | O => []
  | S n => aes_encrypt k (firstn 16 text) ++ blocks n k (skipn 16 text)
  end.

(* what the client sends, given the generator, the prime and the server's public key as
   it received them, and a secret number of its own *)
Definition client_answer (g : Z) (p q : list Z) (y : Z) (text : list Z) : list Z :=
  let shared := unbe q ^ y mod unbe p in
  blocks 8 (md5 (be 256 shared)) text ++ be 256 (g ^ y mod unbe p).
End Client.

Definition block_cipher (enc dec : list Z -> list Z -> list Z) : Prop :=
  forall k b, length b = 16%nat -> length (enc k b) = 16%nat /\ dec k (enc k b) = b.

(** The prime of RFC 3526, group 14: 2^2048 - 2^1984 - 1 + 2^64 * ([2^1918 pi] + 124476). *)
Definition pi_1918 : Z := 0xc90fdaa22168c234c4c6628b80dc1cd129024e088a67cc74020bbea63b139b22514a08798e3404ddef9519b3cd3a431b302b0a6df25f14374fe1356d6d51c245e485b576625e7ec6f44c42e9a637ed6b0bff5cb6f406b7edee386bfb5a899fa5ae9f24117c4b1fe649286651ece45b3dc2007cb8a163bf0598da48361c55d39a69163fa8fd24cf5f83655d23dca3ad961c62f356208552bb9ed529077096966d670c354e4abc9804f1746c08ca18217c32905e462e36ce3be39e772c180e86039b2783a2ec07a28fb5c55df06f4c52c9de2bcbf6955817183995497cea956ae515d2261898fa051015728e5a8aaac42d.
Definition group14 : Z := 2 ^ 2048 - 2 ^ 1984 - 1 + 2 ^ 64 * (pi_1918 + 124476).
