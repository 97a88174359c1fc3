(** Life of clients and sockets: C104 - C106. *)
From Verif Require Import Common CommonProofs Life_Model Life_Spec Life_Proofs.

(** C104.  Whatever happens, as long as nothing freed has been used: every client
    ever accepted is either still there or has had its cleanup functions called
    exactly once, never both. *)
Theorem C104_accounted_once : forall l w, run l world0 = Ok w ->
  NoDup (cleaned w) /\ NoDup (map cid (live w)) /\
  forall i, ((i < next w)%nat <-> In i (map cid (live w)) \/ In i (cleaned w)) /\
            ~ (In i (map cid (live w)) /\ In i (cleaned w)).
Proof.
  intros l w H. destruct (run_A l world0 w A0 H) as (H1 & H2 & H3 & H4). split; [exact H2|]. split; [exact H1|].
  intros i. split; [apply H4|]. intros [X Y]. exact (H3 i X Y).
Qed.
Print Assumptions C104_accounted_once.

(** Full claim: no run uses a client that was freed.  False in several ways.  The
    client hangs up and the application closes it before the event loop has got
    round to it. *)
Theorem C104_close_after_hangup_refuted : exists i, run [Connect; HungUp i; AppClose i; RunIdle] world0 = Fault UseAfterFree.
Proof. exists 0%nat. vm_compute. reflexivity. Qed.
Print Assumptions C104_close_after_hangup_refuted.

(** A client is refused (its last message has been sent) and another one asks for
    exclusive access, or the server is deleted, in the same turn of the event loop. *)
Theorem C104_exclusive_after_refusal_refuted : exists i j, i <> j /\
  run [Connect; Connect; Queue i CloseAfter; Written i; Exclusive j; RunIdle] world0 = Fault UseAfterFree /\
  run [Connect; Connect; Queue i CloseAfter; Written i; Delete; RunIdle] world0 = Fault UseAfterFree.
Proof. exists 0%nat, 1%nat. split; [discriminate|]. split; vm_compute; reflexivity. Qed.
Print Assumptions C104_exclusive_after_refusal_refuted.

(** A client hangs up while its last message is queued: its close is deferred twice.
    No application is needed. *)
Theorem C104_two_deferrals_refuted : exists i,
  run [Connect; Queue i CloseAfter; HungUp i; RunIdle; RunIdle] world0 = Fault UseAfterFree.
Proof. exists 0%nat. vm_compute. reflexivity. Qed.
Print Assumptions C104_two_deferrals_refuted.

(** In every reachable state: closing a client whose end is already under way makes
    the event loop use the freed client, sooner or later. *)
Theorem C104_early_close_fatal : forall l w i w', run l world0 = Ok w -> doomed i w ->
  step (AppClose i) w = Ok w' -> In i (map cid (live w)) ->
  exists n, run (repeat RunIdle n) w' = Fault UseAfterFree.
Proof.
  intros l w i w' H D E L. cbn in E. destruct (find_some_id i w L) as [c F]. rewrite F in E.
  assert (Z1 : Z0 world0) by (intros c' []). exact (doomed_close i w w' D (run_A l _ w A0 H) (run_Z0 l _ w Z1 H) E).
Qed.
Print Assumptions C104_early_close_fatal.

(** When nothing is closed whose end is under way, no run uses a freed client; a
    client whose connection has ended has exactly one deferred close waiting, so
    that once the event loop has run it is gone. *)
Theorem C104_no_use_after_free_partial : forall l, calm_run l world0 -> exists w, run l world0 = Ok w /\
  NoDup (idles w) /\
  (forall i, In i (idles w) <-> exists c, In c (live w) /\ cid c = i /\ sopen c = false) /\
  (idles w = [] -> forall c, In c (live w) -> sopen c = true).
Proof.
  intros l H. destruct (run_K l world0 A0 K0 H) as (w & E & _ & K1 & K2 & _). exists w. split; [exact E|]. split; [exact K1|].
  split; [exact K2|]. intros Ei c Hc. destruct (sopen c) eqn:Sc; [reflexivity|]. exfalso.
  assert (X : In (cid c) (idles w)) by (apply K2; exists c; auto). rewrite Ei in X. contradiction.
Qed.
Print Assumptions C104_no_use_after_free_partial.

(** Deleting the server then frees every client. *)
Theorem C104_delete_frees_all : forall l w w', run l world0 = Ok w -> up w = true -> step Delete w = Ok w' ->
  forall i, (i < next w)%nat -> ~ In i (cleaned w) -> In i (cleaned w') /\ ~ In i (map cid (live w')).
Proof. exact delete_frees. Qed.
Print Assumptions C104_delete_frees_all.

(* a refused client and one that hangs up, with the event loop in between *)
Example C104_case : calm_run [Connect; Connect; Queue 0 CloseAfter; Written 0; RunIdle; HungUp 1; RunIdle; Connect; Queue 2 Plain; AppClose 2; Delete] world0 /\
  exists w, run [Connect; Connect; Queue 0 CloseAfter; Written 0; RunIdle; HungUp 1; RunIdle; Connect; Queue 2 Plain; AppClose 2; Delete] world0 = Ok w /\
  cleaned w = [0; 1; 2]%nat /\ live w = [].
Proof.
  split.
  - apply calm_runb_ok. vm_compute. reflexivity.
  - eexists. split; [vm_compute; reflexivity|]. split; reflexivity.
Qed.

(** C105.  Full claim: a connection that is not taken on gives back all it took,
    once.  False: when no buffer has been fed to the display yet the socket is
    closed twice, *)
Theorem C105_closed_twice_refuted : exists e l, on_connection e = Ok (l, false) /\ drops Fd l = 2%nat /\ takes Fd l = 1%nat.
Proof. exists (mk_circ true true true true (Some false)). eexists. split; [reflexivity|]. split; reflexivity. Qed.
Print Assumptions C105_closed_twice_refuted.

(** and when no display has been added a null pointer is used. *)
Theorem C105_no_display_refuted : exists e, on_connection e = Fault NullDeref.
Proof. exists (mk_circ true true true true None). reflexivity. Qed.
Print Assumptions C105_no_display_refuted.

(** In fact no refused connection gives back all it took: the bandwidth estimator is
    lost each time. *)
Theorem C105_never_balanced : forall e l, on_connection e = Ok (l, false) -> l = [] \/
  (takes Estimator l = 1%nat /\ drops Estimator l = 0%nat).
Proof.
  intros [[] [] [] [] [[]|]] l H; cbn in H; inversion H; subst; auto.
Qed.
Print Assumptions C105_never_balanced.

(** It holds apart from the estimator when the socket or its stream cannot be had;
    a connection taken on is greeted and keeps what it took.  With a display that has
    a buffer, and memory, it is always taken on. *)
Theorem C105_balanced_partial : forall e l ok, on_connection e = Ok (l, ok) ->
  (ok = true -> forall t, takes t l = 1%nat /\ drops t l = 0%nat) /\
  (ok = true -> In Greet l) /\
  (ok = false -> stream_mem e = false \/ accepted e = false -> forall t, t <> Estimator -> takes t l = drops t l).
Proof.
  intros [[] [] [] [] [[]|]] l ok H; cbn in H; inversion H; subst; cbn; (split; [intros Hk [] || intros Hk; try discriminate|]); try (split; reflexivity);
    (split; [intros Hk; try discriminate; tauto|]); intros Hk Hc [] Ht; try discriminate; try reflexivity; try congruence; destruct Hc; discriminate.
Qed.
Print Assumptions C105_balanced_partial.

Theorem C105_taken_on : forall e, client_mem e = true -> accepted e = true -> stream_mem e = true -> greeting_mem e = true ->
  display e = Some true -> exists l, on_connection e = Ok (l, true).
Proof. intros [a b c d f]; cbn; intros; subst. eexists. reflexivity. Qed.
Print Assumptions C105_taken_on.

Example C105_case : exists l, on_connection (mk_circ true false true true None) = Ok (l, false) /\ takes Client l = drops Client l.
Proof. eexists. split; reflexivity. Qed.

(** C106.  Full claim: when listening on a UNIX socket fails, neither an open socket
    nor its name in the file system is left behind.  False: the name stays, except
    for WebSockets, so that the next attempt fails as well. *)
Theorem C106_name_left_refuted : exists a b c d e f x, listen_unix Normal a b c d e f = (false, x) /\ path_there x = true.
Proof. exists true, true, true, true, false, true. eexists. split; reflexivity. Qed.
Print Assumptions C106_name_left_refuted.

(** The socket is always closed; the name is left exactly for a plain socket that
    was bound and could not be listened on. *)
Theorem C106_left_partial : forall t a b c d e f x, listen_unix t a b c d e f = (false, x) ->
  fds x = 0%nat /\ (t = Websocket -> path_there x = false) /\ (path_there x = true <-> t = Normal /\ a = true /\ b = true /\ c = true).
Proof.
  intros [] [] [] [] [] [] [] x H; inversion H; subst; cbn; intuition discriminate.
Qed.
Print Assumptions C106_left_partial.

Theorem C106_success : forall t a b c d e f x, listen_unix t a b c d e f = (true, x) -> fds x = 1%nat /\ path_there x = true /\
  a = true /\ b = true /\ c = true /\ d = true /\ e = true /\ f = true.
Proof. intros [] [] [] [] [] [] [] x H; inversion H; subst; cbn; auto 10. Qed.
Print Assumptions C106_success.

Example C106_case : exists x, listen_unix Websocket true true true true false true = (false, x) /\ path_there x = false.
Proof. eexists. split; reflexivity. Qed.
