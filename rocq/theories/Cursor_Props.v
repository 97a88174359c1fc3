(** Cursors: C50 and C88. *)
From Verif Require Import Common CommonProofs Pixels_Model Pixels_Spec Pixels_Props Zrle_Model Zrle_Spec Raw_Model Raw_Spec
  Fb_Model Transform_Model Cursor_Model Cursor_Spec Cursor_Proofs Cursor2_Proofs.

(** ** C50
    Images of 32 bits with alpha, any size, stride, contents and transform, as
    long as the message fits what was reserved: the client reads one cursor
    rectangle and nothing is left.  Its pixel (x, y) is the conversion of the
    image's pixel that the transform puts there, shown iff that is more than half
    opaque; the padding of the mask is zero. *)
Theorem C50_cursor_reads_back_partial : forall name a fmt src i width height hotspot_x hotspot_y w h hx hy,
  alpha32 name a -> im_fourcc i = fourcc name -> client_format fmt ->
  pixfmt_from_fourcc (fourcc name) = Some src -> drawable i ->
  0 < im_w i -> 0 < im_h i -> im_w i <= im_stride i -> im_h i * im_stride i * 4 <= zlen (im_mem i) ->
  all_bytes (im_mem i) -> 0 < width <= im_w i -> 0 < height <= im_h i -> width < 2 ^ 16 -> height < 2 ^ 16 ->
  0 <= hotspot_x < 2 ^ 16 -> 0 <= hotspot_y < 2 ^ 16 ->
  transform_dimensions (im_transform i) width height = (w, h) ->
  transform_dimensions (im_transform i) hotspot_x hotspot_y = (hx, hy) ->
  let n := bits_per_pixel fmt / 8 in
  needed w h n <= reserved w h n ->
  exists out c, send_cursor_update true fmt (Some i) width height hotspot_x hotspot_y = Ok (Some out, 0) /\
    firstn 4 out = [0; 0; 0; 1] /\ read_cursor (Z.to_nat n) (skipn 4 out) = Some (c, []) /\
    c_x c = hx /\ c_y c = hy /\ c_w c = w /\ c_h c = h /\
    (forall x y, 0 <= x < w -> 0 <= y < h ->
       let (sx, sy) := comes_from (im_transform i) (im_w i) (im_h i) x y in
       exists p cp, get (im_mem i) ((sy * im_stride i + sx) * 4) 4 = Ok p /\
         pixel_to_cpixel n fmt src p 0 1 = Ok cp /\
         pixel_of c x y = Some cp /\ shown c x y = opaque a p) /\
    (forall x y, w <= x < 8 * ((w + 7) / 8) -> 0 <= y < h -> shown c x y = false).
Proof.
  intros name a fmt src i width height hotspot_x hotspot_y w h hx hy H1 H2 H3 H4 H5 H6 H7 H8 H9 H10 H11 H12 H13 H14 H15 H16 H17 H18 n H19.
  eapply message_reads; eassumption.
Qed.
Print Assumptions C50_cursor_reads_back_partial.

(** What is reserved is enough for widths that are multiples of eight, and for
    small cursors. *)
Theorem C50_room : forall w h n, 0 < w -> 0 < h -> 1 <= n ->
  (w mod 8 = 0 \/ needed w h n <= 4096) -> needed w h n <= reserved w h n.
Proof.
  intros w h n W H N [M|M]; unfold needed, reserved in *; [|lia].
  assert (E : w = 8 * (w / 8)) by (pose proof (Z.div_mod w 8 ltac:(lia)); lia).
  set (k := w / 8) in *. rewrite E.
  replace ((8 * k + 7) / 8) with k by (symmetry; rewrite Z.mul_comm, Z.div_add_l by lia; cbn; lia).
  replace ((8 * k * h + 7) / 8) with (k * h); [lia|].
  replace (8 * k * h + 7) with (k * h * 8 + 7) by ring. rewrite Z.div_add_l by lia. cbn. lia.
Qed.
Print Assumptions C50_room.

(* red, green, blue and half transparent blue pixels in three columns and two
   rows, with a stride of four *)
Definition little : image := mk_image R90 3 2 4 (fourcc "AR24")
  [0; 0; 255; 255;  0; 255; 0; 255;  255; 0; 0; 255;  9; 9; 9; 9;
   0; 0; 255; 127;  0; 255; 0; 128;  255; 0; 0; 0;    9; 9; 9; 9].

Lemma argb : alpha32 "AR24" (mk_field 24 8).
Proof. exists [(A, 8); (R, 8); (G, 8); (B, 8)]. split; [vm_compute; tauto|]. split; reflexivity. Qed.

Example C50_example :
  client_format rgb332 /\ drawable little /\ needed 2 3 1 <= reserved 2 3 1 /\ all_bytes (im_mem little) /\
  exists out, send_cursor_update true rgb332 (Some little) 3 2 0 1 = Ok (Some out, 0) /\
    read_cursor 1 (skipn 4 out) = Some (mk_cursor 1 0 2 3 [[224]; [224]; [28]; [28]; [3]; [3]] [[64]; [192]; [64]], []).
Proof.
  split; [vm_compute; repeat split; congruence|]. split; [right; repeat split; cbn; lia|].
  split; [vm_compute; congruence|]. split.
  { apply Forall_forall. intros z Hz. cbn in Hz. unfold is_byte. lia. }
  eexists. split; vm_compute; reflexivity.
Qed.

(** Otherwise the mask is written behind the block. *)
Theorem C50_mask_overflow : forall name a fmt src i width height hotspot_x hotspot_y w h hx hy,
  alpha32 name a -> im_fourcc i = fourcc name -> client_format fmt ->
  pixfmt_from_fourcc (fourcc name) = Some src -> drawable i ->
  0 < im_w i -> 0 < im_h i -> im_w i <= im_stride i -> im_h i * im_stride i * 4 <= zlen (im_mem i) ->
  all_bytes (im_mem i) -> 0 < width <= im_w i -> 0 < height <= im_h i -> width < 2 ^ 16 -> height < 2 ^ 16 ->
  0 <= hotspot_x < 2 ^ 16 -> 0 <= hotspot_y < 2 ^ 16 ->
  transform_dimensions (im_transform i) width height = (w, h) ->
  transform_dimensions (im_transform i) hotspot_x hotspot_y = (hx, hy) ->
  reserved w h (bits_per_pixel fmt / 8) < needed w h (bits_per_pixel fmt / 8) ->
  send_cursor_update true fmt (Some i) width height hotspot_x hotspot_y = Fault OobWrite.
Proof.
  intros name a fmt src i width height hotspot_x hotspot_y w h hx hy H1 H2 H3 H4 H5 H6 H7 H8 H9 H10 H11 H12 H13 H14 H15 H16 H17 H18 H19.
  eapply message_overflows; eassumption.
Qed.
Print Assumptions C50_mask_overflow.

(** So the claim that all writes are in the reserved memory is false: a white
    cursor of 33 times 33 pixels to a client of 32 bits per pixel. *)
Definition white33 : image := mk_image Normal 33 33 33 (fourcc "AR24") (repeat 255 (33 * 33 * 4)).

Theorem C50_stays_in_bounds_refuted : exists i fmt, client_format fmt /\ im_w i = 33 /\ im_h i = 33 /\
  im_h i * im_stride i * 4 = zlen (im_mem i) /\ im_transform i = Normal /\
  send_cursor_update true fmt (Some i) 33 33 0 0 = Fault OobWrite.
Proof.
  exists white33, xrgb8888. split; [vm_compute; repeat split; congruence|].
  split; [reflexivity|]. split; [reflexivity|]. split; [unfold zlen; cbn [im_mem white33]; rewrite repeat_length; reflexivity|].
  split; [reflexivity|].
  eapply (C50_mask_overflow _ _ _ _ _ _ _ _ _ 33 33 0 0 argb); try reflexivity; try (vm_compute; repeat split; congruence).
  - left. reflexivity.
  - apply Forall_forall. intros z Hz. apply repeat_spec in Hz. subst. unfold is_byte. lia.
Qed.
Print Assumptions C50_stays_in_bounds_refuted.

(** An image without alpha channel: the message is sent without mask, and the
    client takes what comes next for it. *)
Theorem C50_no_alpha_refuted : exists i fmt out, client_format fmt /\ 
  send_cursor_update true fmt (Some i) (im_w i) (im_h i) 0 0 = Ok (Some out, 0) /\
  read_cursor (Z.to_nat (bits_per_pixel fmt / 8)) (skipn 4 out) = None.
Proof.
  exists (mk_image Normal 1 1 1 (fourcc "XR24") [1; 2; 3; 0]), xrgb8888. eexists.
  split; [vm_compute; repeat split; congruence|]. split; [vm_compute; reflexivity|vm_compute; reflexivity].
Qed.
Print Assumptions C50_no_alpha_refuted.

(** Images of 16 bits: the mask is taken from the wrong rows, and from behind the
    image; with a transform the memset leaves the new image. *)
Theorem C50_16_bits_refuted : exists i j k fmt out, client_format fmt /\
  zlen (im_mem i) = im_h i * im_stride i * 2 /\
  send_cursor_update true fmt (Some i) (im_w i) (im_h i) 0 0 = Fault OobRead /\
  zlen (im_mem j) = im_h j * im_stride j * 2 /\
  send_cursor_update true fmt (Some j) (im_w j) (im_h j) 0 0 = Fault OobWrite /\
  (* three rows, of which two are sent: the second pixel is opaque, the third is
     not *)
  im_w k = 1 /\ im_mem k = [0; 0; 0; 240; 0; 0] /\
  send_cursor_update true fmt (Some k) 1 2 0 0 = Ok (Some out, 0) /\
  exists c, read_cursor (Z.to_nat (bits_per_pixel fmt / 8)) (skipn 4 out) = Some (c, []) /\ shown c 0 1 = false.
Proof.
  exists (mk_image Normal 1 2 1 (fourcc "AR12") [1; 240; 2; 240]),
    (mk_image R90 2 4 2 (fourcc "AR12") (repeat 255 16)),
    (mk_image Normal 1 3 1 (fourcc "AR12") [0; 0; 0; 240; 0; 0]), xrgb8888. eexists.
  split; [vm_compute; repeat split; congruence|].
  do 4 (split; [vm_compute; reflexivity|]). split; [reflexivity|]. split; [reflexivity|].
  split; [vm_compute; reflexivity|]. eexists. split; vm_compute; reflexivity.
Qed.
Print Assumptions C50_16_bits_refuted.

(** Formats pixman does not have stop the server when the image is transformed. *)
Theorem C50_unknown_to_pixman_refuted : exists i fmt name a, alpha32 name a /\ im_fourcc i = fourcc name /\ client_format fmt /\
  zlen (im_mem i) = im_h i * im_stride i * 4 /\
  send_cursor_update true fmt (Some i) (im_w i) (im_h i) 0 0 = Fault AssertFail.
Proof.
  exists (mk_image R90 1 1 1 (fourcc "RA30") [1; 2; 3; 4]), xrgb8888, "RA30"%string, (mk_field 0 2).
  split; [exists [(R, 10); (G, 10); (B, 10); (A, 2)]; split; [vm_compute; tauto|split; reflexivity]|].
  split; [reflexivity|]. split; [vm_compute; repeat split; congruence|]. split; reflexivity.
Qed.
Print Assumptions C50_unknown_to_pixman_refuted.

(** The hotspot is only right for two of the eight transforms. *)
Theorem C50_hotspot : forall t,
  (forall w h x y, 0 <= x < w -> 0 <= y < h ->
     let (hx, hy) := transform_dimensions t x y in comes_from t w h hx hy = (x, y)) <->
  t = Normal \/ t = Flipped_90.
Proof.
  intros t. split.
  - intros H. specialize (H 2 3 0 0 ltac:(lia) ltac:(lia)). destruct t; cbn in H; try discriminate; auto.
  - intros [-> | ->] w h x y _ _; reflexivity.
Qed.
Print Assumptions C50_hotspot.

Theorem C50_hotspot_refuted : exists i fmt out c hotspot_x hotspot_y, client_format fmt /\
  0 <= hotspot_x < im_w i /\ 0 <= hotspot_y < im_h i /\
  send_cursor_update true fmt (Some i) (im_w i) (im_h i) hotspot_x hotspot_y = Ok (Some out, 0) /\
  read_cursor (Z.to_nat (bits_per_pixel fmt / 8)) (skipn 4 out) = Some (c, []) /\
  comes_from (im_transform i) (im_w i) (im_h i) (c_x c) (c_y c) <> (hotspot_x, hotspot_y).
Proof.
  exists little, rgb332. do 2 eexists. exists 0, 0.
  split; [vm_compute; repeat split; congruence|]. split; [cbn; lia|]. split; [cbn; lia|].
  split; [vm_compute; reflexivity|]. split; [vm_compute; reflexivity|]. vm_compute. discriminate.
Qed.
Print Assumptions C50_hotspot_refuted.

(** A cursor in the corner of a larger image: after a rotation another part of the
    image is sent. *)
Theorem C50_part_of_an_image_refuted : exists i fmt out c width, client_format fmt /\ 0 < width < im_w i /\
  send_cursor_update true fmt (Some i) width (im_h i) 0 0 = Ok (Some out, 0) /\
  read_cursor (Z.to_nat (bits_per_pixel fmt / 8)) (skipn 4 out) = Some (c, []) /\
  width <= fst (comes_from (im_transform i) (im_w i) (im_h i) 0 0) /\
  (* red in the cursor, but green is sent *)
  im_mem i = [0; 0; 255; 255; 0; 255; 0; 255] /\ pixel_of c 0 0 = Some [28].
Proof.
  exists (mk_image R180 2 1 2 (fourcc "AR24") [0; 0; 255; 255; 0; 255; 0; 255]), rgb332. do 2 eexists. exists 1.
  split; [vm_compute; repeat split; congruence|]. split; [cbn; lia|].
  split; [vm_compute; reflexivity|]. split; [vm_compute; reflexivity|]. split; [cbn; lia|]. split; reflexivity.
Qed.
Print Assumptions C50_part_of_an_image_refuted.

(** Without an image a cursor of no pixels is sent. *)
Theorem C50_no_cursor : forall map_ok fmt w h x y size, exists out,
  send_cursor_update map_ok fmt None w h x y = Ok (Some out, 0) /\ firstn 4 out = [0; 0; 0; 1] /\
  read_cursor size (skipn 4 out) = Some (mk_cursor 0 0 0 0 [] [], []).
Proof.
  intros. eexists. split; [reflexivity|]. split; [reflexivity|]. vm_compute. reflexivity.
Qed.
Print Assumptions C50_no_cursor.

(** ** C88
    The application has framebuffers with any counts, makes any of them the cursor
    any number of times, and clients ask for the cursor in between.  As long as no
    encoding faults, each framebuffer has exactly one reference and one hold more
    while it is the cursor and none otherwise, is never freed, and is released
    each time it ceases to be the cursor if nobody else holds it. *)
Theorem C88_cursor_is_held_partial : forall fbs es, Forall owned fbs -> Forall (usual (length fbs)) es ->
  match cursor_run (mk_holder fbs None) es with
  | Ok s =>
      h_cursor s = cursor_after None es /\ length (h_fbs s) = length fbs /\
      forall k before, nth_error fbs k = Some before -> exists f, nth_error (h_fbs s) k = Some f /\
        fb_freed f = false /\ fb_ref f = fb_ref before + mine (h_cursor s) k /\
        fb_hold f = fb_hold before + mine (h_cursor s) k /\
        (fb_hold before = 0 -> fb_released f = fb_released before + let_go None es k)
  | Fault e => exists fmt img w h x y, send_cursor_update true fmt img w h x y = Fault e
  end.
Proof.
  intros fbs es O U.
  assert (K : kept fbs (mk_holder fbs None) (fun _ => 0)).
  { split; [discriminate|]. split; [reflexivity|]. intros k f N. exists f.
    rewrite Forall_forall in O. destruct (O f (nth_error_In _ _ N)) as [Of _].
    cbn [h_cursor mine]. repeat split; try assumption; lia. }
  pose proof (run_kept fbs O es _ _ K U) as H. destruct (cursor_run _ es) as [s|e]; [|exact H].
  destruct H as [H1 [_ [H3 H4]]]. split; [exact H1|]. split; [exact H3|].
  intros k f0 N. destruct (H4 k f0 N) as [f [A1 [A2 [A3 [A4 [_ A6]]]]]]. exists f.
  repeat split; assumption.
Qed.
Print Assumptions C88_cursor_is_held_partial.

Definition two : list fb := [fb_fresh (1, 1, 0, 1); mk_fb 3 2 false 0 (1, 1, 0, 1)].

Example C88_example : Forall owned two /\
  cursor_run (mk_holder two None) [SetCursor (Some 0%nat); SendCursor true rgb332 little 3 2 0 0;
    SetCursor (Some 0%nat); SetCursor (Some 1%nat)]
  = Ok (mk_holder [mk_fb 1 0 false 2 (1, 1, 0, 1); mk_fb 4 3 false 0 (1, 1, 0, 1)] (Some 1%nat)).
Proof. split; [repeat constructor; cbn; lia|]. vm_compute. reflexivity. Qed.

(** If mapping the image fails, the reference of the server is given up although
    the image stays the cursor: taking the next cursor then takes the
    application's reference, and the image is freed under it. *)
Theorem C88_map_failure_refuted : exists img s, 
  cursor_run (mk_holder [fb_fresh (1, 1, 0, 1)] None)
    [SetCursor (Some 0%nat); SendCursor false rgb332 img 1 1 0 0; SetCursor None] = Ok s /\
  exists f, nth_error (h_fbs s) 0 = Some f /\ fb_freed f = true.
Proof. exists little. eexists. split; [vm_compute; reflexivity|]. eexists. split; reflexivity. Qed.
Print Assumptions C88_map_failure_refuted.

(** A cursor the application left to the server cannot be passed again, e.g. to
    move the hotspot: the server frees it before it takes it. *)
Theorem C88_same_image_refuted : exists f, fb_freed f = false /\ fb_ref f = 1 /\ fb_hold f = 1 /\
  cursor_run (mk_holder [f] (Some 0%nat)) [SetCursor (Some 0%nat)] = Fault UseAfterFree.
Proof. exists (mk_fb 1 1 false 0 (1, 1, 0, 1)). repeat split. Qed.
Print Assumptions C88_same_image_refuted.
