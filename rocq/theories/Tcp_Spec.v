(** What it means for a byte stream to carry a sequence of requests. *)
From Verif Require Import Common Tcp_Model.

(** The bytes a request may stand for. *)
Definition means (i : item) (bytes : list Z) : Prop :=
  match i with Fixed p => bytes = p | Produced f => exists t, bytes = f t end.

(** [w] carries the first [k] requests of [l] completely and in order, followed
    by some first part of the next one (possibly nothing). *)
Definition carries (k : nat) (l : list item) (w : list Z) : Prop :=
  exists whole part, w = concat whole ++ part /\
    Forall2 means (firstn k l) whole /\ length whole = k /\
    (part = [] \/ exists i full, nth_error l k = Some i /\ means i full /\ is_prefix part full).

(** No callback, however deeply nested, closes the stream or queues a deferred
    send. *)
Fixpoint tame (a : act) : bool :=
  match a with
  | ASend _ None => true
  | ASend _ (Some l) => forallb tame l
  | AExec _ => false
  | AClose => false
  end.

Definition tame_op (a : op) : bool :=
  match a with
  | OSend _ (Some l) _ _ => forallb tame l
  | OSend _ None _ _ => true
  | OExec _ _ _ => false
  | _ => true
  end.

(** The payloads offered to the kernel by one flush at time [t]. *)
Definition offered (n t : nat) (q : list req) : list (list Z) :=
  flat_map (fun r => match rexec r with
                     | Some f => [f t]
                     | None => match rpay r with Some p => [p] | None => [] end
                     end) (firstn n q).
