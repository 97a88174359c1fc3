(** One client among many, for the statements in Many_Props.v. *)
From Verif Require Import Common Msg_Model Msg_Spec Msg2_Spec Safe_Spec Many_Model.

(** What an event means for the client at address [i], in the terms of its life alone
    ([live] in Safe_Spec.v): what happens to it, and what the application shows to all. *)
Definition alone (x : own) : happening :=
  match x with
  | Bytes k => Arrive k
  | Encoded f => Meanwhile (IEncoded f)
  | Written => Meanwhile IWritten
  | Lights s => Meanwhile (ILed s)
  | Ended => Meanwhile IClosed
  end.
Definition concerns (i : nat) (e : event) : list happening :=
  match e with
  | At j x => if Nat.eqb j i then [alone x] else []
  | Feed f r => [Meanwhile (IDamage f r)]
  | Point => [Meanwhile ICursor]
  | Joins _ _ _ _ | Leaves _ => []
  end.

(** The event does not end the client's connection: others may join if they share. *)
Definition spares (i : nat) (e : event) : Prop :=
  match e with
  | Joins j _ _ shared => j <> i /\ shared = true
  | Leaves j => j <> i
  | _ => True
  end.

(** All clients that join are ordinary ones (Safe_Spec.v), and their frames are as agreed. *)
Definition ordinary_event (E : nat -> env) (g : nat -> agreement) (e : event) : Prop :=
  match e with
  | Joins i c s _ => starts (g i) c /\
      exists ms, s = concat ms /\ Forall (ordinary (g i) (e_experimental (E i))) ms
  | At i (Encoded f) => may_happen (g i) (Meanwhile (IEncoded f))
  | _ => True
  end.
