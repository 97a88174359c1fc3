(** The size that a ping carries. *)
From Verif Require Import Common Pace_Model Tcp_Model Ping_Model.

(* an open stream that has written all it was given *)
Definition idle (s : tcp) : Prop := queue s = [] /\ closed s = false /\ cork s = false.

(* the socket takes [n] bytes of the frame at once *)
Definition counted (n : nat) (p : list Z) : Z := if zlen p <=? Z.of_nat n then zlen p else zlen p - Z.of_nat n.
