(** RFC 4648 base 64, written as a statement about bit strings and without
    reference to the model. *)
From Verif Require Import Common.

(** The [n] low bits of [v], most significant first. *)
Definition to_bits (n : nat) (v : Z) : list bool :=
  map (fun i => Z.testbit v (Z.of_nat i)) (rev (seq 0 n)).

(** The number written by a bit string. *)
Definition of_bits (l : list bool) : Z :=
  fold_left (fun a (b : bool) => 2 * a + (if b then 1 else 0)) l 0.

(** Cut a list into groups of [k]; the last group may be shorter.  [fuel] only
    needs to be at least the length of the list. *)
Fixpoint chunks {A} (fuel k : nat) (l : list A) : list (list A) :=
  match fuel, l with
  | O, _ => []
  | _, [] => []
  | S f, _ => firstn k l :: chunks f k (skipn k l)
  end.

(** RFC 4648 section 4, table 1. *)
Definition alphabet (v : Z) : Z :=
  if v <? 26 then 65 + v            (* A-Z *)
  else if v <? 52 then 97 + (v - 26)  (* a-z *)
  else if v <? 62 then 48 + (v - 52)  (* 0-9 *)
  else if v =? 62 then 43             (* + *)
  else 47.                            (* / *)

(** Inverse of the table; the URL-safe characters of section 5 are accepted as
    well. *)
Definition digit (c : Z) : option Z :=
  if (65 <=? c) && (c <=? 90) then Some (c - 65)
  else if (97 <=? c) && (c <=? 122) then Some (c - 97 + 26)
  else if (48 <=? c) && (c <=? 57) then Some (c - 48 + 52)
  else if (c =? 43) || (c =? 45) then Some 62
  else if (c =? 47) || (c =? 95) then Some 63
  else None.

Definition value (c : Z) : Z :=
  match digit c with Some v => v | None => 0 end.

Definition pad_char : Z := 61.

(** Extend a short group of bits with zero bits on the right to [k] bits. *)
Definition fill (k : nat) (l : list bool) : list bool :=
  l ++ repeat false (k - length l).

(** The text of a byte string: six bits per character, zero-filled, then '='
    up to a multiple of four characters. *)
Definition rfc4648 (bs : list Z) : list Z :=
  let bits := flat_map (to_bits 8) bs in
  let digits := map (fun g => alphabet (of_bits (fill 6 g)))
                    (chunks (length bits) 6 bits) in
  digits ++ repeat pad_char ((4 - length digits mod 4) mod 4).

(** The bytes denoted by a sequence of digits: all whole octets of their
    concatenated 6-bit values. *)
Definition octets_of_digits (ds : list Z) : list Z :=
  let bits := flat_map (to_bits 6) ds in
  let whole := firstn (8 * (length bits / 8)) bits in
  map of_bits (chunks (length whole) 8 whole).

(** A text is acceptable when all characters are digits or the pad. *)
Definition acceptable (s : list Z) : Prop :=
  Forall (fun c => digit c <> None \/ c = pad_char) s.

(** Characters up to the first pad. *)
Fixpoint upto_pad (s : list Z) : list Z :=
  match s with
  | [] => []
  | c :: t => if c =? pad_char then [] else c :: upto_pad t
  end.

(** A C string: no NUL inside. *)
Definition c_string (s : list Z) : Prop := Forall (fun c => 0 < c < 256) s.
