(** A client's life with an application that acts in its callbacks, for the statements in
    React_Props.v. *)
From Verif Require Import Common Msg_Model Msg_Spec Msg2_Spec Safe_Spec React_Model.

(** As [live] in Safe_Spec.v. *)
Fixpoint live_with (E : env) (app : list out -> list reaction) (fuel : nat) (c : client) (s : list Z) (l : list happening)
  : res (client * list Z) :=
  match l with
  | [] => Ok (c, s)
  | Arrive k :: l =>
      let n := Nat.min k (Z.to_nat (room c)) in
      let* c := step E app fuel c (IRead (Some (firstn n s))) in
      live_with E app fuel c (skipn n s) l
  | Meanwhile i :: l =>
      let* c := step E app fuel c i in
      live_with E app fuel c s l
  end.
