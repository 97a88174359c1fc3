(** Model of src/vec.c and the inline functions of include/vec.h.

    The block behind [data] is a list of cells, [None] being a byte that was
    never written.  Its length is the real size of the allocation; [cap] is
    the field the C code maintains.  Writing outside the block is a fault.
    Allocation success is decided by an explicit argument. *)
From Verif Require Import Common.

(* include/vec.h:23-27, struct vec *)
Record vec := mk_vec { data : list (option Z); len : Z; cap : Z }.

(* size_t of include/vec.h:23-27 *)
Definition SIZE_T : Z := 2 ^ 64.

(* memcpy/memset of [new] at offset [off] of a block; helper for vec.c:65,76,89 *)
Definition store (block : list (option Z)) (off : Z) (new : list Z)
  : res (list (option Z)) :=
  if (0 <=? off) && (off + Z.of_nat (length new) <=? Z.of_nat (length block))
  then Ok (firstn (Z.to_nat off) block ++ map Some new
           ++ skipn (Z.to_nat off + length new) block)
  else Fault OobWrite.

(* realloc(block, size) when it succeeds: the common prefix is kept, the rest
   is uninitialised; helper for vec.c:39 *)
Definition realloc (block : list (option Z)) (size : Z) : list (option Z) :=
  firstn (Z.to_nat size) block
    ++ repeat None (Z.to_nat size - length block).

(* src/vec.c:34-47, vec_reserve; [alloc_ok] says whether realloc succeeds *)
Definition vec_reserve (alloc_ok : bool) (v : vec) (size : Z) : vec * Z :=
  if size <=? cap v then (v, 0)
  else if alloc_ok
  then (mk_vec (realloc (data v) size) (len v) size, 0)
  else (v, -1).

(* src/vec.c:23-27, vec_init *)
Definition vec_init (alloc_ok : bool) (c : Z) : vec * Z :=
  vec_reserve alloc_ok (mk_vec [] 0 0) c.

(* src/vec.c:49-55, vec__grow; size_t arithmetic wraps *)
Definition vec_grow (alloc_ok : bool) (v : vec) (size : Z) : vec * Z :=
  if (len v + size) mod SIZE_T <? cap v then (v, 0)
  else vec_reserve alloc_ok v ((2 * ((len v + size) mod SIZE_T)) mod SIZE_T).

(* src/vec.c:57-68, vec_assign *)
Definition vec_assign (alloc_ok : bool) (v : vec) (src : list Z) : res (vec * Z) :=
  let v := mk_vec (data v) 0 (cap v) in
  let '(v, rc) := vec_reserve alloc_ok v (Z.of_nat (length src)) in
  if rc <? 0 then Ok (v, -1)
  else
    let* d := store (data v) 0 src in
    Ok (mk_vec d (Z.of_nat (length src)) (cap v), 0).

(* src/vec.c:70-80, vec_append *)
Definition vec_append (alloc_ok : bool) (v : vec) (src : list Z) : res (vec * Z) :=
  let '(v, rc) := vec_grow alloc_ok v (Z.of_nat (length src)) in
  if rc <? 0 then Ok (v, -1)
  else
    let* d := store (data v) (len v) src in
    Ok (mk_vec d (len v + Z.of_nat (length src)) (cap v), 0).

(* src/vec.c:82-93, vec_append_zero; the returned pointer is represented by
   its success *)
Definition vec_append_zero (alloc_ok : bool) (v : vec) (size : nat) : res (vec * Z) :=
  let '(v, rc) := vec_grow alloc_ok v (Z.of_nat size) in
  if rc <? 0 then Ok (v, -1)
  else
    let* d := store (data v) (len v) (repeat 0 size) in
    Ok (mk_vec d (len v + Z.of_nat size) (cap v), 0).

(* include/vec.h:29-32, vec_clear *)
Definition vec_clear (v : vec) : vec := mk_vec (data v) 0 (cap v).

(* include/vec.h:45-49, vec_fast_append_8 *)
Definition vec_fast_append_8 (v : vec) (b : Z) : res vec :=
  if len v <? cap v then
    let* d := store (data v) (len v) [b] in
    Ok (mk_vec d (len v + 1) (cap v))
  else Fault AssertFail.

(* vec.c and vec.h API as one operation type; the boolean is the outcome of a
   reallocation should one be needed *)
(* include/vec.h:29-73, src/vec.c:23-98 *)
Inductive vec_op : Type :=
| Append (alloc_ok : bool) (src : list Z)
| AppendZero (alloc_ok : bool) (size : nat)
| Assign (alloc_ok : bool) (src : list Z)
| Reserve (alloc_ok : bool) (size : Z)
| Clear.

(* dispatch of the operations above; result code as in C *)
(* include/vec.h:29-73, src/vec.c:23-98 *)
Definition vec_step (v : vec) (op : vec_op) : res (vec * Z) :=
  match op with
  | Append a s => vec_append a v s
  | AppendZero a n => vec_append_zero a v n
  | Assign a s => vec_assign a v s
  | Reserve a n => Ok (vec_reserve a v n)
  | Clear => Ok (vec_clear v, 0)
  end.

(* a history: the final state and the result codes *)
(* any calls of src/vec.c:23-98 *)
Fixpoint vec_run (v : vec) (ops : list vec_op) : res (vec * list Z) :=
  match ops with
  | [] => Ok (v, [])
  | op :: rest =>
      let* (v', rc) := vec_step v op in
      let* (v'', rcs) := vec_run v' rest in
      Ok (v'', rc :: rcs)
  end.

(* the bytes between data and data+len *)
(* include/vec.h:23-27 *)
Definition vec_contents (v : vec) : list (option Z) := firstn (Z.to_nat (len v)) (data v).
