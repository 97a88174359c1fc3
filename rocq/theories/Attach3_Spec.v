(** Which server a display says it belongs to (C136). *)
From Verif Require Import Common Attach_Model Attach_Spec.

(* the server that the display was added to last *)
Definition last_added (d : nat) (l : list op) : option nat :=
  fold_left (fun m a => match a with Add s d' => if Nat.eqb d d' then Some s else m | _ => m end) l None.

(* the display stays where it is: it is neither added to another server nor taken from [s],
   and [s] is not deleted *)
Definition stays (s d : nat) (a : op) : Prop :=
  (forall s', a <> Add s' d) /\ a <> Remove s d /\ forall n, a <> Del s n.
