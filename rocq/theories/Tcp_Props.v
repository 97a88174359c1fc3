(** TCP send queue: C12, C13, C61, C62. *)
From Verif Require Import Common CommonProofs Tcp_Model Tcp_Spec Tcp_Proofs.

(** C12.  After any sequence of sends, deferred sends, write events and closes,
    with any behaviour of the kernel and any callbacks, the bytes handed to the
    kernel are the first requests in the order in which they were accepted,
    complete and unchanged, followed by a first part of the next one.  On an
    open stream exactly the other requests are still queued. *)
Theorem C12_tcp_in_order : forall ops s, run ops tcp0 = Ok s ->
  exists k, carries k (accepted s) (wire s) /\ (k <= length (accepted s))%nat /\
    (closed s = false -> (k + length (queue s) = length (accepted s))%nat).
Proof.
  intros ops s H. pose proof (run_inv false ops tcp0 (G0 false)) as HG. rewrite H in HG.
  destruct (G_carries false s (HG (fun C => False_ind _ (Bool.diff_false_true C)))) as (k & A & B & _ & D).
  exists k. auto.
Qed.
Print Assumptions C12_tcp_in_order.

(** Requests are accepted in the order of the calls; none is skipped while the
    stream is open. *)
Theorem C12_accepted_in_call_order : forall ops s,
  forallb silent ops = true -> run ops tcp0 = Ok s ->
  exists j, accepted s = firstn j (flat_map sends ops) /\
    (closed s = false -> accepted s = flat_map sends ops).
Proof. intros ops s Hs H. exact (run_acc ops tcp0 s Hs (Forall_nil _) H). Qed.
Print Assumptions C12_accepted_in_call_order.

(** When the queue has drained, everything has been sent. *)
Theorem C12_drained : forall ops s ps, run ops tcp0 = Ok s -> closed s = false -> queue s = [] ->
  accepted s = map Fixed ps -> wire s = concat ps.
Proof.
  intros ops s ps H Hc Hq Ha. destruct (C12_tcp_in_order ops s H) as (k & (whole & part & A & B & C & D) & _ & E).
  specialize (E Hc). rewrite Hq in E. cbn in E. rewrite Nat.add_0_r in E. subst k.
  assert (Hp : part = []).
  { destruct D as [D|(i & full & D & _)]; [exact D|]. rewrite E in D.
    assert (nth_error (accepted s) (length (accepted s)) = None) by (apply nth_error_None; lia). congruence. }
  rewrite A, Hp, app_nil_r. f_equal. rewrite E, firstn_all, Ha in B. clear -B.
  remember (map Fixed ps) as its eqn:Ei. revert ps Ei. induction B as [|i w its whole H1 H2 IH]; intros ps Ei.
  - destruct ps; [reflexivity|discriminate].
  - destruct ps as [|p ps]; [discriminate|]. cbn in Ei. inversion Ei; subst. cbn in H1. subst w. f_equal. apply IH. reflexivity.
Qed.
Print Assumptions C12_drained.

(* a send cut in the middle, a deferred send, a callback that sends *)
Definition demo : list op :=
  [OSend [1; 2; 3] (Some [ASend [7] None]) 0 (Sent 2);
   OExec (fun t => [Z.of_nat t; 9]) 1 Again;
   OWritable 5 (Sent 3);
   OWritable 6 (Sent 100)].

Example C12_case : exists s, run demo tcp0 = Ok s /\ queue s = [] /\ closed s = false /\
  wire s = [1; 2; 3; 5; 9; 7] /\ finished s = [(0%nat, DONE); (1%nat, DONE); (2%nat, DONE)].
Proof. eexists. split; [vm_compute; reflexivity|]. repeat split. Qed.

(** C13.  Each accepted request is finished at most once, in order; it is
    reported done only when all its bytes were taken by the kernel; once the
    stream is closed every accepted request has been finished exactly once. *)
Theorem C13_finished_once : forall ops s, run ops tcp0 = Ok s ->
  exists k, carries k (accepted s) (wire s) /\ (k <= length (accepted s))%nat /\
    NoDup (map fst (finished s)) /\
    (forall i, In (i, DONE) (finished s) <-> (i < k)%nat) /\
    (forall i, In (i, FAILED) (finished s) <->
       closed s = true /\ (k <= i < length (accepted s))%nat).
Proof.
  intros ops s H. pose proof (run_inv false ops tcp0 (G0 false)) as HG. rewrite H in HG.
  destruct (G_carries false s (HG (fun C => False_ind _ (Bool.diff_false_true C)))) as (k & A & B & F & _).
  exists k. split; [exact A|]. split; [exact B|]. rewrite F. split; [|split].
  - destruct (closed s).
    + rewrite map_app, !map_map. cbn [fst]. rewrite !map_id, <- seq_app. apply seq_NoDup.
    + rewrite app_nil_r, map_map. cbn [fst]. rewrite map_id. apply seq_NoDup.
  - intros i. rewrite in_app_iff, in_map_iff. split.
    + intros [(x & E & Hx)|Hx]; [inversion E; subst; apply in_seq in Hx; lia|].
      destruct (closed s); [|contradiction]. apply in_map_iff in Hx. destruct Hx as (x & E & _). discriminate.
    + intros Hi. left. exists i. split; [reflexivity|]. apply in_seq. lia.
  - intros i. rewrite in_app_iff, in_map_iff. split.
    + intros [(x & E & Hx)|Hx]; [discriminate|].
      destruct (closed s); [|contradiction]. apply in_map_iff in Hx. destruct Hx as (x & E & Hx).
      inversion E; subst. apply in_seq in Hx. split; [reflexivity|lia].
    + intros [Hc Hi]. right. rewrite Hc. apply in_map_iff. exists i. split; [reflexivity|]. apply in_seq. lia.
Qed.
Print Assumptions C13_finished_once.

Example C13_case : exists s,
  run [OSend [1; 2; 3] None 0 (Sent 3); OSend [4; 5] None 0 (Sent 1); OSend [6] None 0 Again; OClose] tcp0 = Ok s /\
  finished s = [(0%nat, DONE); (1%nat, FAILED); (2%nat, FAILED)] /\ wire s = [1; 2; 3; 4].
Proof. eexists. split; [vm_compute; reflexivity|]. split; reflexivity. Qed.

(** The full claim also needs that no run faults; that is false in two ways.
    A deferred send queued by a callback and not yet produced makes closing
    dereference a null pointer. *)
Theorem C13_close_deferred_refuted : exists ops, run ops tcp0 = Fault NullDeref.
Proof.
  exists [OSend [1] (Some [AExec (fun _ => [2])]) 0 (Sent 1); OClose]. vm_compute. reflexivity.
Qed.
Print Assumptions C13_close_deferred_refuted.

(** A callback that closes the stream (as the server's close_after_write does)
    while more requests were taken by the same write makes the flush loop use
    the freed next request. *)
Theorem C13_close_in_callback_refuted : exists ops, run ops tcp0 = Fault UseAfterFree.
Proof.
  exists [OSend [1] (Some [AClose]) 0 Again; OSend [2] None 0 (Sent 2)]. vm_compute. reflexivity.
Qed.
Print Assumptions C13_close_in_callback_refuted.

(** Without deferred sends and with callbacks that do not close, no run faults:
    no assertion fails, every loop ends, nothing is used after free. *)
Theorem C13_no_fault_partial : forall ops, forallb tame_op ops = true ->
  exists s, run ops tcp0 = Ok s.
Proof.
  intros ops Ht. pose proof (run_inv true ops tcp0 (G0 true) (fun _ => Ht)) as H.
  destruct (run ops tcp0) as [s|e]; [exists s; reflexivity|]. destruct H as [_ H]. discriminate.
Qed.
Print Assumptions C13_no_fault_partial.

(** With anything at all, these two are the only faults. *)
Theorem C13_only_faults_partial : forall ops e, run ops tcp0 = Fault e ->
  e = NullDeref \/ e = UseAfterFree.
Proof.
  intros ops e He. pose proof (run_inv false ops tcp0 (G0 false)) as H. rewrite He in H.
  apply H. intros C. discriminate.
Qed.
Print Assumptions C13_only_faults_partial.

Example C13_tame : forallb tame_op
  [OSend [1; 2; 3] (Some [ASend [7] (Some [ASend [8] None])]) 0 (Sent 2); OWritable 0 Err; OWritable 1 (Sent 9); OClose] = true.
Proof. reflexivity. Qed.

(** C61.  Full claim: while data is queued on an open stream that has seen no
    error, the stream asks for write events, so that the rest is eventually
    sent.  False: if the kernel takes exactly a number of whole requests, write
    events are switched off although more is queued. *)
Theorem C61_stall_refuted : exists ops s, forallb tame_op ops = true /\
  run ops tcp0 = Ok s /\ queue s <> [] /\ closed s = false /\ poll_w s = false.
Proof.
  exists [OSend [1; 2] None 0 Again; OSend [3; 4] None 0 (Sent 2)]. eexists.
  split; [reflexivity|]. split; [vm_compute; reflexivity|]. repeat split. discriminate.
Qed.
Print Assumptions C61_stall_refuted.

(** It holds when the kernel refuses to take anything, and when what it took
    does not end at the end of a request. *)
Theorem C61_stall_partial : forall ops s t o z s', run ops tcp0 = Ok s -> closed s = false -> queue s <> [] ->
  on_writable t o s = Ok (z, s') ->
  match o with
  | Again => poll_w s' = true
  | Sent _ => (forall j, z <> zlen (concat (firstn j (offered IOV_MAX t (queue s))))) -> poll_w s' = true
  | _ => True
  end.
Proof.
  intros ops s t o z s' H Hc Hq Hw. pose proof (run_inv false ops tcp0 (G0 false)) as HG. rewrite H in HG.
  specialize (HG (fun C => False_ind _ (Bool.diff_false_true C))). destruct HG as [[HI Hk]|[C _]]; [|congruence].
  unfold on_writable in Hw. rewrite Hc in Hw. pose proof (flush_inv false t o s HI Hk) as Hf. rewrite Hw in Hf.
  destruct Hf as [_ Hf]. destruct o as [n| | |]; try exact I.
  - intros Hj. destruct (poll_w s') eqn:E; [reflexivity|]. destruct (Hf Hq eq_refl) as [j Ej]. exfalso. apply (Hj j Ej).
  - exact (Hf Hq).
Qed.
Print Assumptions C61_stall_partial.

Example C61_case : exists s s', run [OSend [1; 2] None 0 Again] tcp0 = Ok s /\
  on_writable 0 (Sent 1) s = Ok (1, s') /\ poll_w s' = true /\
  (forall j, 1 <> zlen (concat (firstn j (offered IOV_MAX 0 (queue s))))).
Proof.
  eexists. eexists. split; [vm_compute; reflexivity|]. split; [vm_compute; reflexivity|]. split; [reflexivity|].
  intros j. destruct j as [|[|j]]; vm_compute; discriminate.
Qed.

(** C62.  Full claim: a priority send goes out before everything queued and
    never inside another message.  False when the first queued message has been
    sent in part. *)
Theorem C62_priority_interleaves_refuted : exists ops s z s', forallb tame_op ops = true /\
  run ops tcp0 = Ok s /\ send_first [9] 0 (Sent 100) s = Ok (z, s') /\ wire s' = [1; 9; 2].
Proof.
  exists [OSend [1; 2] None 0 (Sent 1)]. eexists. exists 2. eexists.
  split; [reflexivity|]. split; [vm_compute; reflexivity|]. split; vm_compute; reflexivity.
Qed.
Print Assumptions C62_priority_interleaves_refuted.

(** Its own bytes do come next, before anything still queued. *)
Theorem C62_priority_next_partial : forall ops s p t o z s',
  run ops tcp0 = Ok s -> closed s = false -> send_first p t o s = Ok (z, s') ->
  exists new, wire s' = wire s ++ new /\ (is_prefix new p \/ is_prefix p new) /\
    match o with Sent n => (n <= length p)%nat -> length new = n | _ => new = [] end.
Proof.
  intros ops s p t o z s' H Hc Hs. exact (send_first_wire p t o s z s' Hc (run_cork ops s H Hc) Hs).
Qed.
Print Assumptions C62_priority_next_partial.

Example C62_case : exists s s', run [OSend [1; 2] None 0 Again] tcp0 = Ok s /\
  send_first [8; 9] 0 (Sent 3) s = Ok (3, s') /\ wire s' = [8; 9; 1].
Proof. eexists. eexists. split; [vm_compute; reflexivity|]. split; vm_compute; reflexivity. Qed.
