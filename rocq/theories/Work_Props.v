(** Encoders at work: frames, references, buffers and times. *)
From Verif Require Import Common Work_Model Work_Spec Work_Proofs.

(** C127: while no write fails half way and works can be started, nothing is used after it
    was freed and no assertion fails; the frames taken are handed to the client once each
    and in order; what was taken for them is given back; and the encoder is destroyed when
    the client is gone and no work is running, not before. *)
Theorem C127_frames_are_handed_out_once_partial : forall k evs, Forall (smooth k) evs ->
  exists w, run k evs (start k) = Ok w /\ (works w = [] -> settled w) /\ (alive (en w) = true <-> needed w) /\ in_order w.
Proof. exact run_facts. Qed.
Print Assumptions C127_frames_are_handed_out_once_partial.

(* frames that begin inside the completion of others, a work that does not start, and a
   client that goes away while two of four jobs are running *)
Example C127_busy_case :
  let evs := [Due 5 None; Ready 2 Later FinOk; Ready 0 Later FinOk; Ready 1 Later FinOk; Ready 0 Later FinOk;
              Ready 0 (Now (Some (6, None))) FinOk; Ready 3 Later FinOk; Ready 0 Later FinOk; Close; Ready 1 Later FinOk] in
  Forall (smooth Tight) evs /\
  match run Tight evs (start Tight) with
  | Ok w => shown w = [(0%nat, 5)] /\ taken w = [5; 6] /\ held w = [1%nat] /\ works w = [TightJob 1] /\ alive (en w) = true
  | Fault _ => False
  end /\
  match run Tight (evs ++ [Ready 0 Later FinOk; Ready 0 Later FinOk]) (start Tight) with
  | Ok w => shown w = [(0%nat, 5)] /\ settled w /\ alive (en w) = false
  | Fault _ => False
  end.
Proof. split; [repeat (constructor; [cbn; auto|]); constructor|]. now vm_compute. Qed.
Example C127_raw_case :
  match run Raw [Due 1 (Some 1%nat); Due 2 None; Ready 0 (Now (Some (3, None))) FinOk; Ready 0 Later FinOk; Due 4 None;
                 Written (Some (5, None))] (start Raw) with
  | Ok w => map fst (shown w) = [0; 1]%nat /\ taken w = [2; 3; 5] /\ held w = [2%nat]
  | Fault _ => False
  end.
Proof. now vm_compute. Qed.

(** Without the restriction the claim is false.  When the second, third or fourth job of
    Tight cannot be started, the buffer is given back while the first is still reading it. *)
Theorem C127_frames_are_handed_out_once_refuted : exists k evs, run k evs (start k) = Fault UseAfterFree.
Proof. exists Tight, [Due 5 (Some 1%nat); Ready 0 Later FinOk]. reflexivity. Qed.
Print Assumptions C127_frames_are_handed_out_once_refuted.

(** When a write of a frame fails for a reason that leaves it in the queue, the update ends
    twice: once at once and once when the queue is written after all.  The second time another
    frame is being encoded: ZRLE fails an assertion, *)
Theorem C127_update_ends_once_refuted : exists evs, run Zrle evs (start Zrle) = Fault AssertFail.
Proof. exists [Due 1 None; Ready 0 (Failed (Some (2, None))) FinOk; Written (Some (3, None))]. reflexivity. Qed.
Print Assumptions C127_update_ends_once_refuted.

(** and Raw loses a frame. *)
Theorem C127_no_frame_is_lost_refuted : exists evs w, run Raw evs (start Raw) = Ok w /\
  client w = true /\ works w = [] /\ map fst (shown w) = [0; 2]%nat /\ length (taken w) = 3%nat.
Proof.
  exists [Due 1 None; Ready 0 (Failed (Some (2, None))) FinOk; Written (Some (3, None)); Ready 1 Later FinOk; Ready 0 Later FinOk].
  eexists. split; [vm_compute; reflexivity|]. now vm_compute.
Qed.
Print Assumptions C127_no_frame_is_lost_refuted.

(** When the last work of Tight cannot be started, the frame is never handed over, and no
    other ever is: whatever happens next, the client gets nothing more. *)
Theorem C127_client_starves_refuted : exists evs w, run Tight evs (start Tight) = Ok w /\
  client w = true /\ shown w = [] /\ length (taken w) = 1%nat /\
  forall evs' w', run Tight evs' w = Ok w' -> taken w' = taken w /\ shown w' = shown w.
Proof.
  exists [Due 1 None; Ready 0 Later FinOk; Ready 0 Later FinOk; Ready 0 Later FinOk; Ready 0 Later FinNoWork].
  eexists. split; [vm_compute; reflexivity|]. split; [reflexivity|]. split; [reflexivity|]. split; [reflexivity|].
  intros evs' w' E. now apply (stuck_run Tight evs' _ w') in E.
Qed.
Print Assumptions C127_client_starves_refuted.

(** And when it is there but does not start, the encoder is never destroyed. *)
Theorem C127_encoder_is_destroyed_refuted : exists evs w, run Tight evs (start Tight) = Ok w /\
  client w = false /\ works w = [] /\ alive (en w) = true.
Proof.
  exists [Due 1 None; Ready 0 Later FinOk; Ready 0 Later FinOk; Ready 0 Later FinOk; Ready 0 Later FinNoStart; Close].
  eexists. split; [vm_compute; reflexivity|]. now vm_compute.
Qed.
Print Assumptions C127_encoder_is_destroyed_refuted.

(** C128: a frame handed to the client bears the time the application gave it: with Raw and
    ZRLE, and with Tight if no frame begins while another is handed over. *)
Theorem C128_frames_keep_their_time_partial : forall k evs, Forall (smooth k) evs -> (k = Tight -> Forall unhurried evs) ->
  exists w, run k evs (start k) = Ok w /\ right_times w.
Proof. exact run_times. Qed.
Print Assumptions C128_frames_keep_their_time_partial.

Example C128_zrle_case :
  match run Zrle [Due 11 None; Ready 0 (Now (Some (12, None))) FinOk; Ready 0 (Now (Some (13, None))) FinOk; Ready 0 Later FinOk] (start Zrle) with
  | Ok w => shown w = [(0%nat, 11); (1%nat, 12); (2%nat, 13)]
  | Fault _ => False
  end.
Proof. now vm_compute. Qed.
Example C128_tight_case :
  match run Tight [Due 11 None; Ready 0 Later FinOk; Ready 0 Later FinOk; Ready 0 Later FinOk; Ready 0 Later FinOk; Ready 0 (Now None) FinOk;
                   Due 12 None; Ready 0 Later FinOk; Ready 0 Later FinOk; Ready 0 Later FinOk; Ready 0 Later FinOk; Ready 0 Later FinOk] (start Tight) with
  | Ok w => shown w = [(0%nat, 11); (1%nat, 12)]
  | Fault _ => False
  end.
Proof. now vm_compute. Qed.

(** With Tight a frame that begins while the one before it is handed over, which is the rule
    when the network is faster than the screen, loses its time. *)
Theorem C128_frames_keep_their_time_refuted : exists evs w, Forall (smooth Tight) evs /\ run Tight evs (start Tight) = Ok w /\
  taken w = [11; 12] /\ shown w = [(0%nat, 11); (1%nat, NO_PTS)].
Proof.
  exists [Due 11 None; Ready 0 Later FinOk; Ready 0 Later FinOk; Ready 0 Later FinOk; Ready 0 Later FinOk; Ready 0 (Now (Some (12, None))) FinOk;
          Ready 0 Later FinOk; Ready 0 Later FinOk; Ready 0 Later FinOk; Ready 0 Later FinOk; Ready 0 Later FinOk].
  eexists. split; [repeat (constructor; [cbn; auto|]); constructor|]. split; [vm_compute; reflexivity|]. now vm_compute.
Qed.
Print Assumptions C128_frames_keep_their_time_refuted.
