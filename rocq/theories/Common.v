(** Shared vocabulary: bytes, machine integers, big-endian numbers and
    explicit faults.  Nothing in this file models code by itself. *)
From Coq Require Export String Ascii.
From Coq Require Export List ZArith Lia Bool.
From Coq Require Export ZifyBool ZifyNat.

Export ListNotations.
#[global] Open Scope Z_scope.

(** A byte string is a list of integers; [is_byte] says that an element is an
    octet (C [uint8_t]). *)
Notation bytes := (list Z) (only parsing).

Definition is_byte (b : Z) : Prop := 0 <= b < 256.
Definition all_bytes (l : list Z) : Prop := Forall is_byte l.

(** Outcomes the C standard leaves undefined, or that abort the process.  The
    model returns them as values instead of assuming they do not happen. *)
Inductive fault : Set :=
| OobRead        (** read outside an object *)
| OobWrite       (** write outside an object *)
| UseAfterFree   (** access to a destroyed object *)
| AssertFail     (** failed [assert] or log level PANIC (abort) *)
| SignedOverflow (** overflow of a signed C integer *)
| BadShift       (** shift count not smaller than the width *)
| DivByZero
| NullDeref
| Uninit         (** use of memory that was never written *)
| Diverges.      (** the C loop does not terminate *)

Inductive res (A : Type) : Type :=
| Ok (a : A)
| Fault (f : fault).
Arguments Ok {A} _.
Arguments Fault {A} _.

Definition bind {A B} (r : res A) (f : A -> res B) : res B :=
  match r with
  | Ok a => f a
  | Fault e => Fault e
  end.

Notation "'let*' x ':=' e1 'in' e2" := (bind e1 (fun x => e2))
  (at level 61, x pattern, e1 at next level, right associativity).

(** [be n v]: the [n] low-order bytes of [v], most significant first (what
    htons/htonl/bswap64 followed by memcpy leave in memory). *)
Fixpoint be (n : nat) (v : Z) : list Z :=
  match n with
  | O => []
  | S k => be k (v / 256) ++ [v mod 256]
  end.

(** [unbe l]: the number whose big-endian bytes are [l]. *)
Definition unbe (l : list Z) : Z := fold_left (fun a b => a * 256 + b) l 0.

(** Little-endian counterparts (host order on the machines considered). *)
Definition le (n : nat) (v : Z) : list Z := rev (be n v).
Definition unle (l : list Z) : Z := unbe (rev l).

(** C string literal as a list of character codes. *)
Fixpoint codes (s : String.string) : list Z :=
  match s with
  | String.EmptyString => []
  | String.String c s' => Z.of_nat (Ascii.nat_of_ascii c) :: codes s'
  end.

(** Decidable list-prefix relation. *)
Definition is_prefix {A} (p l : list A) : Prop := exists r, l = p ++ r.

(** Splitting a list at a position is total in the standard library
    ([firstn]/[skipn]); this is the checked version used for memory reads. *)
Definition slice (l : list Z) (off len : nat) : option (list Z) :=
  if (off + len <=? length l)%nat then Some (firstn len (skipn off l)) else None.

(** Two's complement reading of the low [w] bits. *)
Definition to_signed (w v : Z) : Z :=
  let m := v mod 2 ^ w in if m <? 2 ^ (w - 1) then m else m - 2 ^ w.

(** Checked store of [new] at offset [off] of a memory block. *)
Definition put (block : list Z) (off : Z) (new : list Z) : res (list Z) :=
  if (0 <=? off) && (off + Z.of_nat (length new) <=? Z.of_nat (length block))
  then Ok (firstn (Z.to_nat off) block ++ new
           ++ skipn (Z.to_nat off + length new) block)
  else Fault OobWrite.

(** Checked load of [n] bytes at offset [off]. *)
Definition get (block : list Z) (off n : Z) : res (list Z) :=
  if (0 <=? off) && (0 <=? n) && (off + n <=? Z.of_nat (length block))
  then Ok (firstn (Z.to_nat n) (skipn (Z.to_nat off) block))
  else Fault OobRead.

Definition zlen (l : list Z) : Z := Z.of_nat (length l).

(** The NUL-terminated string at the start of a block: the bytes before the
    first NUL. *)
Fixpoint cstr (l : list Z) : list Z :=
  match l with
  | [] => []
  | b :: t => if b =? 0 then [] else b :: cstr t
  end.
