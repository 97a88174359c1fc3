(** Buffers given to a TCP stream (C174). *)
From Verif Require Import Common Tcp_Model.

(* no callback is given along: what is given is what the operations show *)
Definition plain (a : op) : bool := match a with OSend _ (Some _) _ _ => false | _ => true end.
(* a buffer, or a function that makes one, is given to the stream by this operation *)
Definition gives (a : op) : bool := match a with OSend _ _ _ _ => true | OExec _ _ _ => true | _ => false end.
Definition given (ops : list op) : nat := length (filter gives ops).

(* what was given first has number 0, and so on; a buffer is released with its request
   ([stream_req__finish]), so these are the numbers of the buffers released so far *)
Definition released (s : tcp) : list nat := map fst (finished s).
Definition each_once (n : nat) (l : list nat) : Prop := NoDup l /\ forall i, In i l <-> (i < n)%nat.
