(** What an application relies on about the life of its clients. *)
From Verif Require Import Common Life_Model.

(** A client is doomed when its end is already under way: a deferred close waits, or
    a last message is queued that will close it. *)
Definition last_message_queued (i : nat) (w : world) : Prop :=
  exists c, In c (live w) /\ cid c = i /\ In CloseAfter (outq c).
Definition doomed (i : nat) (w : world) : Prop := In i (idles w) \/ last_message_queued i w.

(** Nothing is closed whose end is already under way. *)
Definition calm (a : op) (w : world) : Prop :=
  match a with
  | Queue i CloseAfter => ~ last_message_queued i w
  | HungUp i | ReadError i => ~ last_message_queued i w
  | AppClose i => ~ doomed i w
  | Exclusive i => forall j, j <> i -> In j (map cid (live w)) -> ~ doomed j w
  | Delete => forall j, ~ doomed j w
  | _ => True
  end.

Inductive calm_run : list op -> world -> Prop :=
| calm_nil w : calm_run [] w
| calm_cons a l w : calm a w -> (forall w', step a w = Ok w' -> calm_run l w') -> calm_run (a :: l) w.

(** [log] gives back exactly once everything it took. *)
Definition thing_eqb (a b : thing) : bool :=
  match a, b with
  | Client, Client | Estimator, Estimator | Fd, Fd | Stream, Stream | Region, Region => true
  | _, _ => false
  end.
Definition takes (t : thing) (l : list event) : nat :=
  length (filter (fun e => match e with Take u => thing_eqb t u | _ => false end) l).
Definition drops (t : thing) (l : list event) : nat :=
  length (filter (fun e => match e with Drop u => thing_eqb t u | _ => false end) l).
Definition balanced (l : list event) : Prop := forall t, takes t l = drops t l.
