(** Theorems about H.264 on V4L2 devices. *)
From Verif Require Import Common CommonProofs H264_Model H264_Spec H264_Proofs H264_Props V4l2_Model V4l2_Spec V4l2_Proofs.

(** * C96: the device's source buffers. *)

(** Whatever frames are given to it, and whatever the device returns when: a framebuffer
    has one reference and one hold for each buffer it is in, and a buffer is not given
    away twice. *)
Theorem C96_held_while_in_a_buffer :
  forall (l : list vop), Forall real_size (all_frames l) ->
    vrun v4l2_none l <> Fault AssertFail /\
    forall d, vrun v4l2_none l = Ok d ->
      forall id, refs id (v_log d) = buffered id (v_src d) /\ holds id (v_log d) = buffered id (v_src d).
Proof.
  intros l F. destruct (vrun_inv l v4l2_none vinv_none F) as [A O]. split; [exact A|].
  intros d R id. destruct (O d R) as (I1 & I2 & _). auto.
Qed.
Print Assumptions C96_held_while_in_a_buffer.

(** A frame is given up only if three others wait in the device. *)
Theorem C96_dropped_only_when_full :
  forall (l : list vop) (d d' : vdev) (f : frame) (c r : list nat),
    Forall real_size (all_frames l) -> real_size f ->
    vrun v4l2_none l = Ok d -> v4l2_encode d f c r = Ok d' ->
    v_dropped d' = v_dropped d \/
    v_dropped d' = v_dropped d ++ [f] /\ length (v_src d') = 3%nat /\ Forall (fun s => snd s <> None) (v_src d').
Proof.
  intros l d d' f c r F RF R E. destruct (vrun_inv l v4l2_none vinv_none F) as [_ O].
  destruct (v4l2_encode_inv d f c r (O d R) RF) as (_ & _ & K). destruct (K d' E) as (_ & D & _). exact D.
Qed.
Print Assumptions C96_dropped_only_when_full.

Example C96_case : exists d,
  vrun v4l2_none [VEncode (big 1 0) [] []; VEncode (big 2 0) [] []; VEvents [([0], None)]; VEncode (big 3 0) [] [0%nat];
                  VEncode (bigger 4 0) [1%nat; 2%nat] []] = Ok d /\
  refs 3 (v_log d) = 0 /\ holds 1 (v_log d) = 0 /\ refs 4 (v_log d) = 1 /\
  map snd (v_src d) = [Some (bigger 4 0); None; None].
Proof. eexists. split; [vm_compute; reflexivity|]. vm_compute. repeat split. Qed.

(** A device that hands out packets but is slow to return its source buffers: the fourth
    frame is given up, although each was encoded only after the packet of the one before;
    no update comes of it. *)
Theorem C96_no_frame_is_lost_refuted :
  exists d, vrun v4l2_none
      [VEncode (big 1 0) [] []; VEvents [([0], None)]; VEncode (big 2 0) [] []; VEvents [([0], None)];
       VEncode (big 3 0) [] []; VEvents [([0], None)]; VEncode (big 4 0) [] []] = Ok d /\
    v_dropped d = [big 4 0] /\ refs 4 (v_log d) = 0.
Proof. eexists. split; [vm_compute; reflexivity|]. vm_compute. repeat split. Qed.
Print Assumptions C96_no_frame_is_lost_refuted.

(** * C97: the next frame may come while the packet of the one before is handed over. *)

(** The encoder is not used after it has been destroyed, as long as all frames have one
    size and format.  (Partial: that hypothesis.) *)
Theorem C97_encode_from_the_callback_partial :
  forall (g f : frame) (c r : list nat) (l : list vop),
    real_size g -> Forall (same_geometry g) (all_frames (VEncode f c r :: l)) ->
    vrun v4l2_none (VEncode f c r :: l) <> Fault UseAfterFree.
Proof.
  intros g f c r l RG F. apply (same_run g); [exact RG|exact vinv_none| |exact F|eauto].
  intros G. contradiction.
Qed.
Print Assumptions C97_encode_from_the_callback_partial.

Example C97_case : exists d,
  vrun v4l2_none [VEncode (big 1 0) [] []; VEvents [([0], Some (big 2 0, [], [0%nat])); ([0], Some (big 3 0, [], []))]] = Ok d /\
  refs 1 (v_log d) = 0 /\ refs 2 (v_log d) = 1 /\ refs 3 (v_log d) = 1.
Proof. eexists. split; [vm_compute; reflexivity|]. vm_compute. repeat split. Qed.

(** The display changes its size: the callback destroys the encoder, whose loop goes on. *)
Theorem C97_encode_from_the_callback_refuted :
  exists f g, real_size f /\ real_size g /\
    vrun v4l2_none [VEncode f [] []; VEvents [([0], Some (g, [0%nat], []))]] = Fault UseAfterFree.
Proof.
  exists (big 1 0), (bigger 2 0). split; [reflexivity|]. split; [reflexivity|]. vm_compute. reflexivity.
Qed.
Print Assumptions C97_encode_from_the_callback_refuted.
