(** C174: a stream releases every buffer it is given. *)
From Verif Require Import Common CommonProofs Tcp_Model Own_Spec Own_Proofs.

(** All that was given to a stream while it was open has been released, each buffer once,
    when the stream has been closed.  Missing: what is given to a closed stream; requests
    with callbacks that send. *)
Theorem C174_buffers_are_released_partial : forall ops s s',
  forallb plain ops = true -> run ops tcp0 = Ok s -> closed s = false ->
  close s = Ok s' -> each_once (given ops) (released s').
Proof. exact close_once. Qed.
Print Assumptions C174_buffers_are_released_partial.

(** With callbacks of any kind: on a closed stream, what the stream had taken is released. *)
Theorem C174_what_was_taken_is_released : forall ops s,
  run ops tcp0 = Ok s -> closed s = true -> each_once (length (accepted s)) (released s).
Proof. exact closed_released. Qed.
Print Assumptions C174_what_was_taken_is_released.

(** What is given to a closed stream is never released, whatever happens later. *)
Theorem C174_given_when_closed_is_lost : forall ops1 ops2 s,
  run ops1 tcp0 = Ok s -> closed s = true ->
  exists s', run (ops1 ++ ops2) tcp0 = Ok s' /\ released s' = released s.
Proof. intros ops1 ops2 s R C. exists s. split; [now apply lost|reflexivity]. Qed.
Print Assumptions C174_given_when_closed_is_lost.

Theorem C174_buffers_are_released_refuted : exists ops s,
  forallb plain ops = true /\ run ops tcp0 = Ok s /\ closed s = true /\ queue s = [] /\ ~ each_once (given ops) (released s).
Proof.
  exists [OSend [1; 2] None 0 Pipe; OSend [3] None 0 (Sent 1)]. eexists. split; [reflexivity|]. split; [vm_compute; reflexivity|].
  split; [reflexivity|]. split; [reflexivity|]. intros [_ E]. destruct (proj2 (E 1%nat)) as [X|[]]; [cbv; lia|discriminate X].
Qed.
Print Assumptions C174_buffers_are_released_refuted.

(* one buffer is written, one in part, one made by a function not at all; then the stream is closed *)
Example C174_case : exists s s',
  let ops := [OSend [1; 2] None 0 (Sent 2); OSend [3; 4] None 0 (Sent 1); OExec (fun _ => [5]) 1 Again] in
  forallb plain ops = true /\ run ops tcp0 = Ok s /\ closed s = false /\ close s = Ok s' /\ released s' = [0; 1; 2]%nat /\ given ops = 3%nat.
Proof. eexists _, _. cbv zeta. split; [reflexivity|]. split; [vm_compute; reflexivity|]. split; [reflexivity|]. split; [vm_compute; reflexivity|]. split; reflexivity. Qed.
