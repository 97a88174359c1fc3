(** Encoders at work. *)
From Verif Require Import Common Work_Model.

(* starting works succeeds, or for Raw and ZRLE fails anyhow, or for Tight fails at the
   first of the four *)
Definition start_ok (k : kind) (fails : option nat) : Prop :=
  match k, fails with Tight, Some (S n) => (3 <= n)%nat | _, _ => True end.
Definition next_ok (k : kind) (next : option (Z * option nat)) : Prop :=
  match next with Some (_, fails) => start_ok k fails | None => True end.

(* no write fails with the frame left in the queue, and works can be started *)
Definition smooth (k : kind) (ev : event) : Prop :=
  match ev with
  | Due _ fails => start_ok k fails
  | Ready _ o fin => match o with Later => True | Now next => next_ok k next | Failed _ => False end /\ (k = Tight -> fin = FinOk)
  | Written next => next_ok k next
  | Close => True
  end.

(* no new frame is begun while one is being handed over *)
Definition unhurried (ev : event) : Prop := match ev with Ready _ (Now (Some _)) _ => False | _ => True end.

(* all that was taken for frames has been given back *)
Definition settled (w : world) : Prop := works w = [] /\ held w = [].

(* the frames handed to the client: each that was taken, in the order of taking, none
   twice, and none left out but those still at work when the client went away *)
Definition in_order (w : world) : Prop :=
  exists m, map fst (shown w) = seq 0 m /\ (m <= length (taken w))%nat /\
    (client w = true -> works w = [] -> m = length (taken w)) /\ (client w = true -> (length (taken w) <= S m)%nat).

(* the encoder lives as long as the client is there or a work is running *)
Definition needed (w : world) : Prop := client w = true \/ works w <> [].

(* a frame handed to the client has the time it was taken with *)
Definition right_times (w : world) : Prop :=
  forall f p, In (f, p) (shown w) -> nth_error (taken w) f = Some p.
