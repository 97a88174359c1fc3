(** Feeding buffers to a display: the claims.  See Disp_Spec for the words used. *)
From Coq Require Import Permutation.
From Verif Require Import Common Fb_Model Disp_Model Disp_Spec Disp_Proofs.

(** An example geometry. *)
Definition g0 : geometry := (8, 4, 7, 8).

(** ** C107: a buffer is reported released exactly when the library stops using it *)

(** False: a buffer that is fed again while it is displayed is reported released by
    that very feed, and stays displayed. *)
Theorem C107_release_report_refuted : exists l a w w' m,
  run l world0 = Ok w /\ step a w = Ok w' /\ d_log w' = d_log w ++ m /\
  releases 0 m = 1%nat /\ in_use 0 w /\ in_use 0 w' /\ d_shown w' = Some (Own 0).
Proof.
  exists [Create true g0 false; Feed 0 Started], (Feed 0 Started).
  eexists. eexists. exists [Released 0; Show 1 (Own 0) None].
  split; [vm_compute; reflexivity|]. split; [vm_compute; reflexivity|]. split; [reflexivity|].
  split; [reflexivity|]. split; [left; reflexivity|]. split; [left; reflexivity|reflexivity].
Qed.

(** True of every other step, in every run: exactly one report for a buffer that was
    in use before the step and is not after, none for any other buffer.  Missing: the
    buffer being fed when it is displayed already, or when its copy cannot be
    started (then it is reported although it was never in use). *)
Theorem C107_release_report_partial : forall l w a w' i,
  run l world0 = Ok w -> step a w = Ok w' -> ~ odd_feed a w i ->
  exists m, d_log w' = d_log w ++ m /\
    (in_use i w /\ ~ in_use i w' -> releases i m = 1%nat) /\
    (~ (in_use i w /\ ~ in_use i w') -> releases i m = 0%nat).
Proof. intros l w a w' i R E N. apply (step_releases a w w' i); [exact (run_D _ _ _ D0 R)|exact E|exact N]. Qed.

(** Replacing the displayed buffer 0 by buffer 1, with nobody else using it. *)
Example C107_example : exists w w',
  run [Create true g0 false; Create true g0 false; Feed 0 Started] world0 = Ok w /\
  step (Feed 1 Started) w = Ok w' /\ ~ odd_feed (Feed 1 Started) w 0 /\ in_use 0 w /\ ~ in_use 0 w' /\
  d_log w' = d_log w ++ [Released 0; Show 1 (Own 1) None].
Proof.
  eexists. eexists. split; [vm_compute; reflexivity|]. split; [vm_compute; reflexivity|].
  split; [intros [H _]; discriminate|]. split; [left; reflexivity|]. split; [|reflexivity].
  intros [H|[H|(k & H & _)]]; [discriminate|destruct H|destruct H].
Qed.

(** The same while an encoder still works on buffer 0: not reported yet. *)
Example C107_example_encoding : exists w,
  run [Create true g0 false; Create true g0 false; Feed 0 Started; Encode; Feed 1 Started] world0 = Ok w /\
  in_use 0 w /\ releases 0 (d_log w) = 0%nat.
Proof. eexists. split; [vm_compute; reflexivity|]. split; [right; left; left; reflexivity|reflexivity]. Qed.

(** ** C108: frames appear in the order in which they were fed *)

(** False: the copy of a rotated buffer is made in another thread, and an upright
    buffer fed meanwhile is displayed at once; the older frame then replaces it. *)
Theorem C108_order_refuted : exists l w,
  run l world0 = Ok w /\ shows (d_log w) = [1; 0]%nat /\ d_shown w = Some (Pooled 0).
Proof.
  exists [Create false g0 false; Create true g0 false; Feed 0 Started; Feed 1 Started; Done 0].
  eexists. split; [vm_compute; reflexivity|]. split; reflexivity.
Qed.

(** Two rotated buffers, whose copies end in the other order, do it too. *)
Theorem C108_order_rotated_refuted : exists l w,
  run l world0 = Ok w /\ shows (d_log w) = [1; 0]%nat /\ d_shown w = Some (Pooled 0) /\
  (forall b, In b (d_bufs w) -> b_upright b = false).
Proof.
  exists [Create false g0 false; Create false g0 false; Feed 0 Started; Feed 1 Started; Done 1; Done 0].
  eexists. split; [vm_compute; reflexivity|]. split; [reflexivity|]. split; [reflexivity|].
  intros b [<-|[<-|[]]]; reflexivity.
Qed.

(** True for an application that feeds nothing while a copy is being made. *)
Theorem C108_order_partial : forall l w,
  patient_run l world0 -> run l world0 = Ok w ->
  increasing (shows (d_log w)) /\ shows (d_log w) ++ pending w = accepted_run l world0.
Proof.
  intros l w P R. pose proof (patient_order l world0 w D0 (Nat.le_0_l _) P R) as E. cbn [app shows d_log world0 pending map d_works] in E.
  split; [|exact E]. apply (increasing_prefix _ (pending w)). rewrite E. apply accepted_run_increasing, D0.
Qed.

Definition patient_example : list op :=
  [Create false g0 false; Create true g0 false; Feed 0 Started; Encode; Done 0; Feed 1 Started; Feed 0 Started].
Example C108_example : patient_run patient_example world0 /\ exists w,
  run patient_example world0 = Ok w /\ shows (d_log w) = [0; 1]%nat /\ pending w = [2]%nat.
Proof.
  split.
  - unfold patient_example. repeat (constructor; [vm_compute; exact I || reflexivity|intros ? E; vm_compute in E; injection E as <-]). constructor.
  - eexists. split; [vm_compute; reflexivity|]. split; reflexivity.
Qed.

(** ** C109: the damage of every buffer fed is reported exactly once *)

(** False: when there is no memory, or the worker cannot be started, the frame is not
    shown, its damage is forgotten, and the application is not told. *)
Theorem C109_damage_reported_refuted : exists l o w,
  run (l ++ [Feed 0 o]) world0 = Ok w /\ d_fed w = 1%nat /\ d_alive w = true /\
  shows (d_log w) = [] /\ pending w = [].
Proof.
  exists [Create false g0 false], NoMemory. eexists. split; [vm_compute; reflexivity|]. repeat split; reflexivity.
Qed.

(** Whatever the reason. *)
Theorem C109_failed_feeds_lost : forall o, o <> Started -> exists l w,
  run (l ++ [Feed 0 o]) world0 = Ok w /\ d_fed w = 1%nat /\ d_alive w = true /\
  shows (d_log w) = [] /\ pending w = [].
Proof.
  intros o N. exists [Create false g0 false]. destruct o; [contradiction| |];
    (eexists; split; [vm_compute; reflexivity|]; repeat split; reflexivity).
Qed.

(** True of every feed that is accepted: in every run, whatever the order in which the
    copies end, the frames shown and those being copied are the accepted feeds, each
    once. *)
Theorem C109_damage_reported_partial : forall l w, run l world0 = Ok w ->
  Permutation (shows (d_log w) ++ pending w) (accepted_run l world0) /\ NoDup (shows (d_log w) ++ pending w).
Proof.
  intros l w R. pose proof (accepted_run_perm l world0 w D0 R) as P. cbn [app shows d_log world0 pending map d_works] in P.
  split; [exact P|]. apply (Permutation_NoDup (Permutation_sym P)), increasing_NoDup, accepted_run_increasing, D0.
Qed.

Example C109_example : exists l w, run l world0 = Ok w /\ shows (d_log w) = [1; 2]%nat /\ pending w = [0]%nat /\
  accepted_run l world0 = [0; 1; 2]%nat.
Proof.
  exists [Create false g0 false; Create true g0 false; Feed 0 Started; Feed 0 Started; Done 1; Feed 1 Started].
  eexists. split; [vm_compute; reflexivity|]. repeat split; reflexivity.
Qed.

(** ** C110: a display may be let go at any time, and buffers are freed when nobody
    has them any more *)

(** False: the display goes while a copy is being made, and its end uses the display. *)
Theorem C110_display_gone_copying_refuted : exists w,
  run [Create false g0 false; Feed 0 Started; Gone] world0 = Ok w /\ step (Done 0) w = Fault UseAfterFree.
Proof. eexists. split; vm_compute; reflexivity. Qed.

(** False: the display goes, and then the application frees a rotated buffer it had
    once fed, long after the copy ended. *)
Theorem C110_display_gone_buffers_refuted : exists w,
  run [Create false g0 false; Feed 0 Started; Done 0; Gone] world0 = Ok w /\
  pending w = [] /\ ~ in_use 0 w /\ step (Drop 0) w = Fault UseAfterFree.
Proof.
  eexists. split; [vm_compute; reflexivity|]. split; [reflexivity|]. split; [|vm_compute; reflexivity].
  intros [H|[H|(k & H & _)]]; [discriminate|destruct H|destruct H].
Qed.

(** True when the display goes last: no copy is being made, and the buffers to which
    the resampler attached its data have been freed.  Then no sequence of calls does
    anything wrong.  In any run at all, the buffer of the application is freed
    exactly when it has been dropped and is not in use. *)
Theorem C110_display_gone_partial : forall l, calm_run l world0 -> exists w, run l world0 = Ok w.
Proof. intros l C. apply (calm_ok l world0); [exact D0|intros X; discriminate|exact C]. Qed.

Theorem C110_freed_exactly_partial : forall l w i b, run l world0 = Ok w -> nth_error (d_bufs w) i = Some b ->
  fb_freed (b_fb b) = true <-> b_owned b = false /\ ~ in_use i w.
Proof. intros l w i b R N. apply freed_exactly; [exact (run_D _ _ _ D0 R)|exact N]. Qed.

Definition calm_example : list op :=
  [Create false g0 false; Feed 0 Started; Create true g0 true; Drop 0; Done 0; Encode; Feed 1 Started; Gone; Drop 1; Encoded 0].
Example C110_example : calm_run calm_example world0 /\ exists w, run calm_example world0 = Ok w /\
  d_alive w = false /\ forall b, In b (d_bufs w) -> fb_freed (b_fb b) = true.
Proof.
  split.
  - apply calm_runb_ok. vm_compute. reflexivity.
  - eexists. split; [vm_compute; reflexivity|]. split; [reflexivity|]. intros b [<-|[<-|[]]]; reflexivity.
Qed.

(** ** C111: a displayed frame carries the presentation time given to the buffer fed *)

(** False of rotated buffers: the copy never gets the time. *)
Theorem C111_pts_rotated_refuted : exists l w, run l world0 = Ok w /\ In (SetPts 0 5) l /\
  d_log w = [Show 0 (Pooled 0) None; Released 0].
Proof.
  exists [Create false g0 false; SetPts 0 5; Feed 0 Started; Done 0]. eexists.
  split; [vm_compute; reflexivity|]. split; [right; left; reflexivity|reflexivity].
Qed.

(** In fact no copy ever has one, whatever was set. *)
Theorem C111_copies_have_no_time : forall l w n k w', run l world0 = Ok w -> nth_error (d_works w) n = Some k ->
  d_alive w = true -> step (Done n) w = Ok w' ->
  exists m m', d_log w' = d_log w ++ m ++ [Show (k_no k) (Pooled (k_dst k)) None] ++ m' /\ shows m = [] /\ shows m' = [].
Proof.
  intros l w n k w' R N A E. destruct (done_ok w n k (run_D _ _ _ D0 R) N A) as (w1 & E1 & _ & _ & _ & _ & X & _).
  cbn [step] in E. rewrite N, E1 in E. injection E as <-. exact X.
Qed.

(** False of a buffer fed again while it is displayed: the time set just before is
    cleared by the release of its earlier display. *)
Theorem C111_pts_again_refuted : exists l w, run l world0 = Ok w /\
  d_log w = [Show 0 (Own 0) (Some 5); Released 0; Show 1 (Own 0) None] /\
  l = [Create true g0 false; SetPts 0 5; Feed 0 Started; SetPts 0 6; Feed 0 Started].
Proof. eexists. eexists. split; [|split; [|reflexivity]]; [vm_compute; reflexivity|reflexivity]. Qed.

(** True of an upright buffer that is not displayed already. *)
Theorem C111_pts_partial : forall l w i b o, run l world0 = Ok w -> d_alive w = true ->
  owned i w = Some b -> b_upright b = true -> d_shown w <> Some (Own i) ->
  exists w' m, step (Feed i o) w = Ok w' /\ d_log w' = d_log w ++ m ++ [Show (d_fed w) (Own i) (b_pts b)] /\ shows m = [].
Proof.
  intros l w i b o R A Ow Up Sh. destruct (owned_some _ _ _ Ow) as [Nb O]. pose proof (run_D _ _ _ D0 R) as HD.
  cbn [step]. rewrite Ow, A. unfold resampler_feed. rewrite Up.
  assert (HD0 : D (set_fed (S (d_fed w)) w)).
  { destruct HD as [(L & I & F) DA]. split; [exists L; split; [apply (J_same _ w); auto|exact F]|exact DA]. }
  destruct (feed_upright _ i b (d_fed w) HD0 A Nb O) as (w' & E & _ & _ & _ & _ & (m & Lg & Sm) & _).
  exists w', m. split; [exact E|]. split; [|exact Sm]. rewrite Lg. cbn [d_log d_shown set_fed]. do 3 f_equal.
  destruct (d_shown w) as [g|]; [|reflexivity]. destruct (feqb_spec (Own i) g) as [X|]; [congruence|reflexivity].
Qed.

Example C111_example : exists w b,
  run [Create true g0 false; Create true g0 false; Feed 0 Started; SetPts 1 7] world0 = Ok w /\
  d_alive w = true /\ owned 1 w = Some b /\ b_upright b = true /\ d_shown w <> Some (Own 1) /\ b_pts b = Some 7.
Proof. eexists. eexists. split; [vm_compute; reflexivity|]. repeat split; try reflexivity. discriminate. Qed.

Print Assumptions C107_release_report_refuted.
Print Assumptions C107_release_report_partial.
Print Assumptions C108_order_refuted.
Print Assumptions C108_order_rotated_refuted.
Print Assumptions C108_order_partial.
Print Assumptions C109_damage_reported_refuted.
Print Assumptions C109_failed_feeds_lost.
Print Assumptions C109_damage_reported_partial.
Print Assumptions C110_display_gone_copying_refuted.
Print Assumptions C110_display_gone_buffers_refuted.
Print Assumptions C110_display_gone_partial.
Print Assumptions C110_freed_exactly_partial.
Print Assumptions C111_pts_rotated_refuted.
Print Assumptions C111_copies_have_no_time.
Print Assumptions C111_pts_again_refuted.
Print Assumptions C111_pts_partial.
