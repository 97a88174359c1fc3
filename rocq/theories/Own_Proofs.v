(** Proofs for Own_Props. *)
From Verif Require Import Common CommonProofs Tcp_Model Tcp_Spec Tcp_Proofs Tcp_Props Own_Spec.

Lemma closed_step a s : closed s = true -> step a s = Ok s.
Proof. intros C. destruct a; cbn [step]; unfold send, exec_and_send, on_writable, close; rewrite C; reflexivity. Qed.
Lemma closed_run ops : forall s, closed s = true -> run ops s = Ok s.
Proof. induction ops as [|a ops IH]; intros s C; cbn [run]; [reflexivity|]. rewrite (closed_step a s C). cbn [bind]. now apply IH. Qed.
Lemma run_app ops1 : forall ops2 s, run (ops1 ++ ops2) s = (let* s := run ops1 s in run ops2 s).
Proof.
  induction ops1 as [|a l IH]; intros ops2 s; cbn [app run]; [reflexivity|]. destruct (step a s) as [s1|e]; cbn [bind]; [apply IH|reflexivity].
Qed.

Lemma plain_silent ops : forallb plain ops = true -> forallb silent ops = true.
Proof.
  intros H. apply forallb_forall. intros a I. rewrite forallb_forall in H. specialize (H a I). destruct a as [p [cb|] t o| | |]; cbn in *; congruence.
Qed.
Lemma given_sends ops : length (flat_map sends ops) = given ops.
Proof. unfold given. induction ops as [|a ops IH]; [reflexivity|]. cbn [flat_map filter]. rewrite app_length, IH. destruct a; reflexivity. Qed.

Lemma closed_released ops s : run ops tcp0 = Ok s -> closed s = true -> each_once (length (accepted s)) (released s).
Proof.
  intros R C. destruct (C13_finished_once ops s R) as (k & _ & K & N & D & F). split; [exact N|].
  intros i. unfold released. rewrite in_map_iff. split.
  - intros ([j x] & <- & I). cbn [fst]. destruct x.
    + apply D in I. lia.
    + apply F in I. lia.
  - intros L. destruct (Nat.lt_ge_cases i k) as [A|A].
    + exists (i, DONE). split; [reflexivity|]. now apply D.
    + exists (i, FAILED). split; [reflexivity|]. apply F. auto.
Qed.

Lemma close_once ops s s' : forallb plain ops = true -> run ops tcp0 = Ok s -> closed s = false ->
  close s = Ok s' -> each_once (given ops) (released s').
Proof.
  intros P R C K.
  assert (R' : run (ops ++ [OClose]) tcp0 = Ok s') by (rewrite run_app, R; cbn [bind run step]; rewrite K; reflexivity).
  destruct (run_acc ops tcp0 s (plain_silent ops P) (Forall_nil _) R) as (j & _ & A). specialize (A C). cbn [app tcp0 accepted] in A.
  assert (Q : forallb silent (ops ++ [OClose]) = true) by (rewrite forallb_app, (plain_silent ops P); reflexivity).
  assert (C' : closed s' = true /\ accepted s' = accepted s).
  { unfold close in K. rewrite C in K. revert K. generalize (queue s) at 1 as q.
    assert (G : forall q z z', fail_all q z = Ok z' -> closed z' = closed z /\ accepted z' = accepted z).
    { induction q as [|r q IH]; intros z z' H; cbn [fail_all] in H.
      - injection H as <-. split; reflexivity.
      - destruct (rpay r); [|discriminate]. apply IH in H. exact H. }
    intros q H. apply G in H. exact H. }
  destruct C' as [C' A']. pose proof (closed_released _ _ R' C') as E. rewrite A', A, given_sends in E. exact E.
Qed.

Lemma lost ops1 ops2 s : run ops1 tcp0 = Ok s -> closed s = true -> run (ops1 ++ ops2) tcp0 = Ok s.
Proof. intros R C. rewrite run_app, R. cbn [bind]. now apply closed_run. Qed.
