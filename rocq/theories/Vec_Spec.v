(** What a growable byte buffer means: a list of bytes.  An operation that
    reports failure (-1) leaves the bytes alone, except that a failed assign
    leaves the buffer empty. *)
From Verif Require Import Common Vec_Model.

Definition spec_step (l : list Z) (op : vec_op) (rc : Z) : list Z :=
  match op with
  | Append _ s => if rc =? 0 then l ++ s else l
  | AppendZero _ n => if rc =? 0 then l ++ repeat 0 n else l
  | Assign _ s => if rc =? 0 then s else []
  | Reserve _ _ => l
  | Clear => []
  end.

Fixpoint spec_run (l : list Z) (ops : list vec_op) (rcs : list Z) : list Z :=
  match ops, rcs with
  | op :: ops', rc :: rcs' => spec_run (spec_step l op rc) ops' rcs'
  | _, _ => l
  end.

(** Bytes an operation adds at most. *)
Definition op_size (op : vec_op) : Z :=
  match op with
  | Append _ s | Assign _ s => Z.of_nat (length s)
  | AppendZero _ n => Z.of_nat n
  | Reserve _ n => Z.max 0 n
  | Clear => 0
  end.

Definition total_size (ops : list vec_op) : Z :=
  fold_right (fun op a => op_size op + a) 0 ops.

(** Whether an operation can only fail if memory is exhausted. *)
Definition alloc_ok (op : vec_op) : bool :=
  match op with
  | Append a _ | AppendZero a _ | Assign a _ | Reserve a _ => a
  | Clear => true
  end.
