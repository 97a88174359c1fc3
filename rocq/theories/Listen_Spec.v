(** What a program may expect of listening sockets. *)
From Verif Require Import Common Listen_Model.

(* descriptors and names are unique, and no name is empty, as the kernel keeps them *)
Definition kernel_ok (w : world) : Prop :=
  NoDup (map fst (w_fds w)) /\ NoDup (map fst (w_files w)) /\ ~ In [] (map fst (w_files w)).

(* the same open descriptors, bound as before, the same names, and nothing was closed
   that was not open *)
Definition untouched (w w' : world) : Prop :=
  w_fds w' = w_fds w /\ w_files w' = w_files w /\ w_bad w' = w_bad w.

(* calls of an application *)
Inductive call := ListenTcp (l : option (list Z)) (t : stream_type) | ListenUnix (name : list Z) (t : stream_type).
Definition make (c : call) (s : sockets) (w : world) : Z * sockets * world :=
  match c with ListenTcp l t => nvnc_listen_tcp s l t w | ListenUnix n t => nvnc_listen_unix s n t w end.
(* all of them in turn, whatever they return *)
Fixpoint make_all (l : list call) (s : sockets) (w : world) : sockets * world :=
  match l with
  | [] => (s, w)
  | c :: l => let '(_, s, w) := make c s w in make_all l s w
  end.
(* the calls that do not have the flaw shown below *)
Definition cleans_up (c : call) : Prop := match c with ListenUnix _ NORMAL => False | _ => True end.
