(** Continuous updates: what touches the client's area is sent (C114). *)
From Verif Require Import Common Pixels_Model Msg_Model.

(** Nothing holds updates back: the bandwidth limit is not reached, encoders can be had,
    and they take the frames given to them. *)
Definition obliging (E : env) : Prop :=
  (forall l a b, e_limited E l a b = false) /\ (forall l k, e_encoder E l k = true) /\ (forall l, e_encode E l = true).
