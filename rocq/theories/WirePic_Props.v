(** C141, the pictures: what the encoders of this server deliver. *)
From Verif Require Import Common Pixels_Model Pixels_Props Zrle_Model Zrle_Spec Zrle_Props Raw_Model Raw_Spec Raw_Props
  Tight_Model Tight_Spec Tight_Props Fb_Model Transform_Model Cursor_Model Cursor_Spec Cursor_Props H264_Model H264_Spec H264_Props
  Wire_Spec Wire3_Proofs.

(** Whether a picture is complete is settled by its own bytes. *)
Theorem C141_viewer_reads_forward : forall size tsize, prefix_wise (fun _ => viewer size tsize).
Proof. exact viewer_prefix. Qed.
Print Assumptions C141_viewer_reads_forward.

(** Each frame is exactly as many rectangles as the encoder says, to the last byte. *)
Theorem C141_raw_frames : forall fb x_pos y_pos dst src stride rects extents out n tsize,
  Forall (fits_header x_pos y_pos) (extents :: rects) ->
  Forall (fun b => x1 extents <= x1 b /\ x2 b <= x2 extents /\ y1 extents <= y1 b /\ y2 b <= y2 extents) rects ->
  raw_do_work fb x_pos y_pos dst src stride rects extents = Ok (out, n) ->
  readable (viewer (Z.to_nat (bits_per_pixel dst / 8)) tsize) n out.
Proof.
  intros fb x_pos y_pos dst src stride rects extents out n tsize F I0 H.
  destruct (C22_raw_frame_reads_back _ _ _ _ _ _ _ _ _ _ F I0 H) as (rs & R & _).
  exact (readable_raw _ tsize _ _ _ R).
Qed.
Print Assumptions C141_raw_frames.

Theorem C141_zrle_frames :
  forall zstate istate deflate inflate synced, zlib_works zstate istate deflate inflate synced ->
  forall zs st fb x_pos y_pos dst src stride rects extents zs' out n size tsize,
  0 <= bits_per_pixel src / 8 ->
  Forall (fits_header x_pos y_pos) (extents :: rects) ->
  Forall (fun b => x1 extents <= x1 b /\ x2 b <= x2 extents /\ y1 extents <= y1 b /\ y2 b <= y2 extents) rects ->
  synced zs st -> zlen out < 2 ^ 32 ->
  encode_frame zstate deflate zs fb x_pos y_pos dst src stride rects extents = Ok (zs', out, n) ->
  readable (viewer size tsize) n out.
Proof.
  intros zstate istate deflate inflate synced ZW zs st fb x_pos y_pos dst src stride rects extents zs' out n size tsize B F I0 SY L H.
  destruct (C66_frame_reads_back _ _ _ _ _ ZW _ _ _ _ _ _ _ _ _ _ _ _ _ B F I0 SY L H) as (rs & st' & R & _).
  exact (readable_zrle _ _ _ size tsize _ _ _ _ _ R).
Qed.
Print Assumptions C141_zrle_frames.

Theorem C141_tight_frames :
  forall zstate istate deflate inflate synced, zlib_works zstate istate deflate inflate synced ->
  forall tj have_jpeg te f xp yp w h damage sched te' out n sts size,
  well_formed te -> 0 <= w <= 32704 -> 0 <= h <= 32704 ->
  0 <= xp -> xp + w <= 2 ^ 16 -> 0 <= yp -> yp + h <= 2 ^ 16 -> 0 <= bits_per_pixel (tf_src f) ->
  (basic_mode have_jpeg f = true -> tpixel_agrees (tf_dst f) /\ tiles_long_enough f w h) ->
  four_workers w h sched -> streams_synced synced te sts ->
  tight_encode deflate tj have_jpeg te f xp yp w h damage sched = Ok (te', out, n) ->
  readable (viewer size (Z.to_nat (tpixel_size (tf_dst f)))) n out.
Proof.
  intros zstate istate deflate inflate synced ZW tj have_jpeg te f xp yp w h damage sched te' out n sts size
    W Hw Hh X1 X2 Y1 Y2 B C F SY H.
  destruct (C21_every_damaged_pixel_is_sent_partial _ _ _ _ _ ZW _ _ _ _ _ _ _ _ _ _ _ _ _ _ W Hw Hh X1 X2 Y1 Y2 B C F SY H)
    as (rs & st' & R & _).
  exact (readable_tight _ _ size _ _ _ _ _ _ R).
Qed.
Print Assumptions C141_tight_frames.

Theorem C141_h264_frames : forall x y l o payload n w h t size tsize,
  0 <= x < 2 ^ 16 -> 0 <= y < 2 ^ 16 -> Forall good_op l -> paced true false l ->
  run (open_h264_new x y) l = Ok o -> In (payload, n, w, h, t) (finished (o_log o)) ->
  readable (viewer size tsize) n payload.
Proof.
  intros x y l o payload n w h t size tsize X Y G P R I0.
  destruct (C91_one_update_per_frame_partial x y l X Y G P) as (o' & R' & L & K). rewrite R in R'. injection R' as <-.
  apply In_nth_error in I0 as [k I0]. destruct (nth_error (packets l) k) as [p|] eqn:N.
  - destruct (K k p N) as (f & pl & fg & _ & F & RD). rewrite I0 in F. injection F as <- -> _ _ _.
    exact (readable_h264 size tsize _ _ RD).
  - apply nth_error_None in N. assert (k < length (finished (o_log o)))%nat by (apply nth_error_Some; congruence). lia.
Qed.
Print Assumptions C141_h264_frames.

(** And a cursor is one. *)
Theorem C141_cursors : forall name a fmt src i width height hotspot_x hotspot_y w h hx hy tsize,
  alpha32 name a -> im_fourcc i = fourcc name -> client_format fmt ->
  pixfmt_from_fourcc (fourcc name) = Some src -> drawable i ->
  0 < im_w i -> 0 < im_h i -> im_w i <= im_stride i -> im_h i * im_stride i * 4 <= zlen (im_mem i) ->
  all_bytes (im_mem i) -> 0 < width <= im_w i -> 0 < height <= im_h i -> width < 2 ^ 16 -> height < 2 ^ 16 ->
  0 <= hotspot_x < 2 ^ 16 -> 0 <= hotspot_y < 2 ^ 16 ->
  transform_dimensions (im_transform i) width height = (w, h) ->
  transform_dimensions (im_transform i) hotspot_x hotspot_y = (hx, hy) ->
  needed w h (bits_per_pixel fmt / 8) <= reserved w h (bits_per_pixel fmt / 8) ->
  exists out, send_cursor_update true fmt (Some i) width height hotspot_x hotspot_y = Ok (Some ([0; 0; 0; 1] ++ out), 0) /\
    readable (viewer (Z.to_nat (bits_per_pixel fmt / 8)) tsize) 1 out.
Proof.
  intros name a fmt src i width height hotspot_x hotspot_y w h hx hy tsize H1 H2 H3 H4 H5 H6 H7 H8 H9 H10 H11 H12 H13 H14 H15 H16 H17 H18 H19.
  destruct (C50_cursor_reads_back_partial name a fmt src i width height hotspot_x hotspot_y w h hx hy
    H1 H2 H3 H4 H5 H6 H7 H8 H9 H10 H11 H12 H13 H14 H15 H16 H17 H18 H19) as (out & c & E & F & R & _).
  exists (skipn 4 out). split; [rewrite <- F, firstn_skipn; exact E|]. exact (readable_cursor _ tsize _ _ R).
Qed.
Print Assumptions C141_cursors.

(** The frames of the examples of C22, C66, C21 and C91, which meet these hypotheses. *)
Example C141_frames_ex :
  readable (viewer 2 2) 2 [0; 10; 0; 20; 0; 2; 0; 1; 0; 0; 0; 0; 16; 33; 32; 66;
                           0; 11; 0; 21; 0; 2; 0; 1; 0; 0; 0; 0; 80; 165; 96; 198] /\
  readable (viewer 4 3) 1 [0; 11; 0; 20; 0; 2; 0; 1; 0; 0; 0; 16; 0; 0; 0; 7; 0; 3; 2; 1; 6; 4; 2] /\
  (exists te' out, tight_encode id_deflate no_tj true fresh (frame_of (grey 140) 140 rgb888) 5 6 140 1 [mk_box 60 0 70 1] (in_turn 140 1) =
    Ok (te', out, 2) /\ readable (viewer 4 3) 2 out /\ ~ readable (viewer 4 3) 2 (out ++ [0])) /\
  readable (viewer 4 3) 1 [0; 0; 0; 0; 0; 64; 0; 48; 0; 0; 0; 50; 0; 0; 0; 4; 0; 0; 0; 0; 0; 0; 1; 9].
Proof.
  split; [reflexivity|]. split; [reflexivity|]. split; [|reflexivity].
  do 2 eexists. split; [vm_compute; reflexivity|]. split; vm_compute; [reflexivity|discriminate].
Qed.
