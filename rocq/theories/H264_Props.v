(** Theorems about H.264. *)
From Verif Require Import Common CommonProofs H264_Model H264_Spec H264_Proofs H264Q_Proofs.

Definition big (id : nat) (pts : Z) : frame := mk_frame id 64 48 875713112 pts true true.
Definition bigger (id : nat) (pts : Z) : frame := mk_frame id 80 48 875713112 pts true true.

(** * C91: every frame comes out once, in order. *)

(** In the server's use nothing goes wrong, and the k-th packet comes out as one rectangle
    of the size and with the time stamp of the k-th frame.  (Partial: the encoder library
    makes a packet of every frame, and its encoders can be created.) *)
Theorem C91_one_update_per_frame_partial :
  forall (x y : Z) (l : list op), 0 <= x < 2 ^ 16 -> 0 <= y < 2 ^ 16 ->
    Forall good_op l -> paced true false l ->
    exists o, run (open_h264_new x y) l = Ok o /\
      length (finished (o_log o)) = length (packets l) /\
      forall k p, nth_error (packets l) k = Some p ->
        exists f payload flags, nth_error (frames l) k = Some f /\
          nth_error (finished (o_log o)) k = Some (payload, 1, f_width f, f_height f, f_pts f) /\
          read_h264 payload = Some (x, y, f_width f, f_height f, flags, p).
Proof.
  intros x y l X Y G P.
  destruct (paced_run l true None None false false 6 (open_h264_new x y) G P (inv_new x y))
    as (o & evs & R & L & S & F & _ & _).
  exists o. split; [exact R|]. change (o_log (open_h264_new x y)) with (@nil event) in L. cbn [app] in L.
  rewrite L, F. cbn [app]. change (o_x (open_h264_new x y)) with x. change (o_y (open_h264_new x y)) with y.
  assert (LE : (length (packets l) <= length (frames l))%nat) by (pose proof (paced_lengths l true None P) as Q; cbv iota in Q; lia).
  split; [rewrite map_length, combine_length; lia|].
  intros k p N. assert (K : (k < length (packets l))%nat) by (apply nth_error_Some; congruence).
  destruct (nth_error (frames l) k) as [f|] eqn:NF; [|apply nth_error_None in NF; lia].
  exists f. eexists. exists 0. split; [reflexivity|].
  rewrite nth_error_map, (nth_error_combine _ _ _ _ _ NF N). cbn [option_map out].
  split; [reflexivity|]. destruct (good_at l k f p G NF N) as (W & H & Z). apply read_h264_head; lia.
Qed.
Print Assumptions C91_one_update_per_frame_partial.

Example C91_case : exists o,
  run (open_h264_new 0 0) [Encode (big 7 1000) true; Key; Done [0; 0; 1; 9]; Encode (bigger 8 2000) true; Done [0; 5]] = Ok o /\
  finished (o_log o) =
    [([0; 0; 0; 0; 0; 64; 0; 48; 0; 0; 0; 50; 0; 0; 0; 4; 0; 0; 0; 0; 0; 0; 1; 9], 1, 64, 48, 1000);
     ([0; 0; 0; 0; 0; 80; 0; 48; 0; 0; 0; 50; 0; 0; 0; 2; 0; 0; 0; 0; 0; 5], 1, 80, 48, 2000)].
Proof. eexists. split; vm_compute; reflexivity. Qed.

(** Frames of one size need not wait for each other: they come out in the order they were
    given, whatever the number waiting. *)
Theorem C91_in_the_order_given :
  forall (x y w h fmt : Z) (l : list op) (o : open),
    0 <= x < 2 ^ 16 -> 0 <= y < 2 ^ 16 -> 0 < w < 2 ^ 16 -> 0 < h < 2 ^ 16 ->
    Forall (same_size w h fmt) l -> run (open_h264_new x y) l = Ok o ->
    length (finished (o_log o)) = length (packets l) /\
    forall k p, nth_error (packets l) k = Some p ->
      exists f payload flags, nth_error (frames l) k = Some f /\
        nth_error (finished (o_log o)) k = Some (payload, 1, w, h, f_pts f) /\
        read_h264 payload = Some (x, y, w, h, flags, p).
Proof.
  intros x y w h fmt l o X Y W H F R.
  pose proof (qrun w h fmt x y W H l [] [] _ _ F (Forall_nil _) (qinv_new w h fmt x y) R) as (_ & _ & _ & _ & _ & I0).
  cbn [app] in I0. destruct (o_enc o) as [c|].
  - destruct I0 as (_ & _ & _ & _ & _ & gone & E1 & _ & E2 & E3). rewrite E3, map_length, combine_length.
    split; [lia|]. intros k p N. assert (K : (k < length (packets l))%nat) by (apply nth_error_Some; congruence).
    destruct (nth_error gone k) as [f|] eqn:NF; [|apply nth_error_None in NF; lia].
    assert (NL : nth_error (frames l) k = Some f) by (rewrite E1, nth_error_app1; [exact NF|lia]).
    assert (S0 : f_width f = w /\ f_height f = h).
    { apply nth_error_In in NL. unfold frames in NL. apply in_flat_map in NL as (a & A1 & A2).
      rewrite Forall_forall in F. specialize (F a A1). destruct a; try destruct A2 as [].
      subst. destruct F as (_ & _ & F1 & F2 & _). auto. destruct H0. }
    exists f. eexists. exists 0. split; [exact NL|].
    rewrite nth_error_map, (nth_error_combine _ _ _ _ _ NF N). cbn [option_map out].
    destruct S0 as [-> ->]. split; [reflexivity|].
    assert (GP : zlen p < 2 ^ 32).
    { apply nth_error_In in N. unfold packets in N. apply in_flat_map in N as (a & A1 & A2).
      rewrite Forall_forall in F. specialize (F a A1). destruct a; try destruct A2 as []; subst; [apply F|]. destruct H0. }
    apply read_h264_head; lia.
  - destruct I0 as (_ & _ & -> & ->). split; [reflexivity|]. intros [|k] p N; discriminate.
Qed.
Print Assumptions C91_in_the_order_given.

Example C91_order_case : exists o,
  run (open_h264_new 0 0) [Encode (big 7 1000) true; Encode (big 8 2000) true; Encode (big 9 3000) true; Done [1]; Key; Done [2]; Done [3]] = Ok o /\
  map (fun e => snd e) (finished (o_log o)) = [1000; 2000; 3000].
Proof. eexists. split; vm_compute; reflexivity. Qed.

(** If the encoder library makes nothing of a frame, no update comes out, now or later,
    and a frame waiting behind it is not begun either. *)
Theorem C91_one_update_per_frame_refuted :
  (exists o, run (open_h264_new 0 0) [Encode (big 7 1000) true; Done []] = Ok o /\
     finished (o_log o) = [] /\ exists k, o_enc o = Some k /\ k_current k = None /\ k_queue k = []) /\
  (exists o, run (open_h264_new 0 0) [Encode (big 7 1000) true; Encode (big 8 2000) true; Done []] = Ok o /\
     started (o_log o) = [(big 7 1000, true)] /\ exists k, o_enc o = Some k /\ k_current k = None /\ k_queue k = [big 8 2000]).
Proof.
  split; eexists; (split; [vm_compute; reflexivity|]); (split; [vm_compute; reflexivity|]);
    eexists; (split; [reflexivity|]); split; reflexivity.
Qed.
Print Assumptions C91_one_update_per_frame_refuted.

(** * C92: a decoder that starts anew is told so and begins with a key frame. *)

(** Frames are key frames exactly if they are the first of their size, format and quality
    or a key frame was asked for. *)
Theorem C92_key_frames_partial :
  forall (x y : Z) (l : list op), Forall good_op l -> paced true false l ->
    exists o, run (open_h264_new x y) l = Ok o /\ started (o_log o) = keyed None false false 6 l.
Proof.
  intros x y l G P.
  destruct (paced_run l true None None false false 6 (open_h264_new x y) G P (inv_new x y))
    as (o & evs & R & L & S & _).
  exists o. split; [exact R|]. rewrite L. cbn [app o_log open_h264_new]. exact S.
Qed.
Print Assumptions C92_key_frames_partial.

Example C92_case :
  map snd (keyed None false false 6
    [Encode (big 1 0) true; Done [0]; Encode (big 2 0) true; Done [0]; Quality 10; Encode (big 3 0) true; Done [0];
     Key; Encode (big 4 0) true; Done [0]; Quality 9; Encode (big 5 0) true; Done [0]; Encode (bigger 6 0) true]) =
  [true; false; false; true; true; true].
Proof. reflexivity. Qed.

(** The flags never ask the client to reset anything. *)
Theorem C92_no_update_resets_the_decoder :
  forall (x y : Z) (l : list op) (o : open) payload n w h t q,
    0 <= x < 2 ^ 16 -> 0 <= y < 2 ^ 16 -> Forall good_op l -> paced true false l ->
    run (open_h264_new x y) l = Ok o -> In (payload, n, w, h, t) (finished (o_log o)) ->
    read_h264 payload = Some q -> let '(_, _, _, _, flags, _) := q in resets flags = false.
Proof.
  intros x y l o payload n w h t q X Y G P R I RD.
  destruct (paced_run l true None None false false 6 (open_h264_new x y) G P (inv_new x y))
    as (o' & evs & R' & L & S & F & _). rewrite R in R'. injection R' as <-.
  rewrite L in I. cbn [app o_log open_h264_new] in I. rewrite F in I. apply in_map_iff in I.
  destruct I as ([f p] & E & I). cbn [app] in I. apply (f_equal (fun z => fst (fst (fst (fst z))))) in E. cbn [fst out] in E. subst payload.
  change (o_x (open_h264_new x y)) with x in RD. change (o_y (open_h264_new x y)) with y in RD.
  apply In_nth_error in I. destruct I as [k I]. apply nth_error_combine_inv in I. destruct I as [NF NP].
  destruct (good_at l k f p G NF NP) as (W & H & Z).
  rewrite read_h264_head in RD by lia. injection RD as <-. reflexivity.
Qed.
Print Assumptions C92_no_update_resets_the_decoder.

(** The size changes, a new stream begins, and the update does not say so. *)
Theorem C92_reset_is_announced_refuted :
  exists o payload data, run (open_h264_new 0 0)
      [Encode (big 7 1000) true; Done [0; 1]; Encode (bigger 8 2000) true; Done [0; 5]] = Ok o /\
    started (o_log o) = [(big 7 1000, true); (bigger 8 2000, true)] /\
    nth_error (finished (o_log o)) 1 = Some (payload, 1, 80, 48, 2000) /\
    read_h264 payload = Some (0, 0, 80, 48, 0, data) /\ resets 0 = false.
Proof.
  eexists. eexists. eexists. split; [vm_compute; reflexivity|]. split; [vm_compute; reflexivity|].
  split; [vm_compute; reflexivity|]. split; [vm_compute; reflexivity|]. reflexivity.
Qed.
Print Assumptions C92_reset_is_announced_refuted.

(** * C93: a framebuffer is held exactly while the encoder works on it. *)

(** At any time of the server's use, also when the encoder is destroyed at work.
    (Partial: as C91; two frames in the queue of an encoder that is destroyed are lost.) *)
Theorem C93_framebuffers_are_given_back_partial :
  forall (x y : Z) (l : list op) (id : nat), Forall good_op l -> paced true false l ->
    exists o, run (open_h264_new x y) l = Ok o /\
      refs id (o_log o) = counts (in_flight None l) id /\
      holds id (o_log o) = counts (in_flight None l) id.
Proof.
  intros x y l id G P.
  destruct (paced_run l true None None false false 6 (open_h264_new x y) G P (inv_new x y))
    as (o & evs & R & L & _ & _ & RR & HH).
  exists o. split; [exact R|]. rewrite L. cbn [app o_log open_h264_new]. rewrite RR, HH. cbn [counts]. lia.
Qed.
Print Assumptions C93_framebuffers_are_given_back_partial.

Example C93_case : exists o,
  run (open_h264_new 0 0) [Encode (big 7 1000) true; Done [0]; Encode (big 8 0) true; Destroy; DoneOld [0]] = Ok o /\
  refs 7 (o_log o) = 0 /\ refs 8 (o_log o) = 0 /\ holds 8 (o_log o) = 0 /\ o_dying o = [].
Proof. eexists. split; [vm_compute; reflexivity|]. vm_compute. repeat split. Qed.

Theorem C93_framebuffers_are_given_back_refuted :
  exists o, run (open_h264_new 0 0)
      [Encode (big 7 1000) true; Encode (big 8 0) true; Destroy; DoneOld [0]] = Ok o /\
    o_dying o = [] /\ o_enc o = None /\ refs 8 (o_log o) = 1 /\ holds 8 (o_log o) = 1.
Proof. eexists. split; [vm_compute; reflexivity|]. vm_compute. repeat split. Qed.
Print Assumptions C93_framebuffers_are_given_back_refuted.

(** * C94: the encoder library is told the frame's memory layout. *)

Theorem C94_ffmpeg_layout : forall f : drm, av_layout (drm_to_av f) = drm_layout f.
Proof. destruct f; reflexivity. Qed.
Print Assumptions C94_ffmpeg_layout.

Example C94_case : drm_to_av XRGB8888 = AV_BGR0 /\ drm_to_av BGRA8888 = AV_0RGB.
Proof. split; reflexivity. Qed.

(** Whatever the device supports, it is told the reverse of the frame's layout. *)
Theorem C94_v4l2_layout_is_reversed : forall (have : v4l2 -> bool) (f : drm) (v : v4l2),
  v4l2_format_from_drm have f = Some v ->
  have v = true /\ v4l2_layout v = rev (drm_layout f) /\ v4l2_layout v <> drm_layout f.
Proof.
  intros have f v H. apply find_some in H. destruct H as [I H]. split; [exact H|].
  destruct f; cbn [v4l2_candidates In] in I; destruct_all I; subst v; split; try reflexivity; discriminate.
Qed.
Print Assumptions C94_v4l2_layout_is_reversed.

Theorem C94_v4l2_layout_refuted : exists (have : v4l2 -> bool) (f : drm) (v w : v4l2),
  v4l2_format_from_drm have f = Some v /\ v4l2_layout v <> drm_layout f /\
  have w = true /\ v4l2_layout w = drm_layout f.
Proof.
  exists (fun _ => true), XRGB8888, XRGB32, XBGR32. split; [reflexivity|]. split; [discriminate|]. split; reflexivity.
Qed.
Print Assumptions C94_v4l2_layout_refuted.

(** * C95: no use of an H.264 client's encoder crashes the server. *)

(** Any requests in the server's order.  (Partial: encoders that can be created, frames
    without a transform, key frames asked for once there is an encoder.) *)
Theorem C95_no_crash_partial : forall (x y : Z) (l : list op), Forall good_op l -> paced true false l ->
  exists o, run (open_h264_new x y) l = Ok o.
Proof. intros x y l G P. destruct (C92_key_frames_partial x y l G P) as (o & R & _). exists o. exact R. Qed.
Print Assumptions C95_no_crash_partial.

Example C95_case : paced true false [Quality 3; Encode (big 1 0) true; Key; Key; Done [0]; Quality 4; Key].
Proof. cbn. repeat split. Qed.

(** The encoder cannot be created for the frame's size; then the client asks for the whole
    screen.  Or the frame has a transform. *)
Theorem C95_no_crash_refuted :
  (exists f, good_frame f /\ run (open_h264_new 0 0) [Encode f false; Key] = Fault NullDeref) /\
  (exists f, f_gbm f = true /\ run (open_h264_new 0 0) [Encode f true] = Fault AssertFail).
Proof.
  split.
  - exists (big 1 0). split; [unfold good_frame; cbn; lia|vm_compute; reflexivity].
  - exists (mk_frame 1 64 48 0 0 true false). split; [reflexivity|vm_compute; reflexivity].
Qed.
Print Assumptions C95_no_crash_refuted.
