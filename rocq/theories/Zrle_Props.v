(** ZRLE: C17, C18, C19, C66 and C67. *)
From Verif Require Import Common CommonProofs Ws_Proofs WsStream_Proofs Pixels_Model Pixels_Proofs Pixels_Props.
From Verif Require Import Zrle_Model Zrle_Spec Zrle_Proofs Zrle2_Proofs.

(** C17: what the RFC's reader makes of a tile is the tile: as many CPIXELs as
    there are pixels, each the conversion of its pixel, and no byte is left. *)
Theorem C17_tile_round_trip : forall dst dst_fmt src_fmt tile len v,
  encode_tile dst dst_fmt src_fmt tile len = Ok v ->
  exists cps, read_tile (Z.to_nat (calc_bytes_per_cpixel dst_fmt)) len (tdata v) = Some (cps, []) /\
    length cps = len /\
    forall k, (k < len)%nat -> exists p c,
      get tile (Z.of_nat k * (bits_per_pixel src_fmt / 8)) (bits_per_pixel src_fmt / 8) = Ok p /\
      pixel_to_cpixel (calc_bytes_per_cpixel dst_fmt) dst_fmt src_fmt p 0 1 = Ok c /\
      nth_error cps k = Some c.
Proof.
  intros dst dst_fmt src_fmt tile len v H.
  destruct (encode_tile_ok _ _ _ _ _ _ H) as [px [cps [P [F R]]]]. exists cps.
  specialize (R []). rewrite app_nil_r in R. split; [exact R|].
  destruct (pixels_of_length _ _ _ _ _ P) as [L _].
  split; [pose proof (Forall2_len _ _ _ _ _ F) as L2; unfold cpixel in *; congruence|]. intros k K.
  destruct (pixels_of_nth _ _ _ _ _ k P K) as [p [N G]].
  destruct (nth_same _ _ _ _ F k p N) as [c [N2 C]]. exists p, c. auto.
Qed.
Print Assumptions C17_tile_round_trip.

(** Palette RLE with a run over 255, one colour, and raw (5 pixels of 5 colours). *)
Definition rgb888 : pixfmt := mk_fmt 32 24 0 1 255 255 255 0 8 16.
Definition px4 (v : Z) : list Z := [v; 2 * v; 3 * v; 0].

Example C17_ex :
  encode_tile (mk_tv [] (tile_cap rgb888)) rgb888 xrgb8888
    (concat (repeat (px4 7) 300 ++ [px4 9])) 301
    = Ok (mk_tv ([130] ++ [21; 14; 7] ++ [27; 18; 9] ++ [128; 255; 44; 1]) (tile_cap rgb888)) /\
  encode_tile (mk_tv [] (tile_cap rgb888)) rgb888 xrgb8888 (concat (repeat (px4 7) 300)) 300
    = Ok (mk_tv [1; 21; 14; 7] (tile_cap rgb888)) /\
  encode_tile (mk_tv [] (tile_cap rgb888)) rgb888 xrgb8888 (concat (map px4 [1; 2; 3; 4; 5])) 5
    = Ok (mk_tv [0; 3; 2; 1; 6; 4; 2; 9; 6; 3; 12; 8; 4; 15; 10; 5] (tile_cap rgb888)).
Proof. repeat split; vm_compute; reflexivity. Qed.

(** C67: a tile never takes more than the raw form: one byte and the CPIXELs. *)
Theorem C67_tile_not_larger_than_raw : forall dst dst_fmt src_fmt tile len v,
  encode_tile dst dst_fmt src_fmt tile len = Ok v ->
  1 <= zlen (tdata v) <= 1 + calc_bytes_per_cpixel dst_fmt * Z.of_nat len.
Proof. exact encode_tile_size. Qed.
Print Assumptions C67_tile_not_larger_than_raw.

(** C18 in full: the encoder stays inside its buffers, whatever the client's
    format and the pixels.  It does not for clients with CPIXELs of 4 bytes: 13
    to 16 colours in a tile overflow the 48 bytes of the converted palette. *)
Theorem C18_palette_overflow_refuted : exists dst_fmt src_fmt tile len,
  zrle_formats dst_fmt src_fmt /\ (len <= 4096)%nat /\
  zlen tile = Z.of_nat len * (bits_per_pixel src_fmt / 8) /\
  encode_tile (mk_tv [] (tile_cap dst_fmt)) dst_fmt src_fmt tile len = Fault OobWrite.
Proof.
  exists (mk_fmt 32 32 0 1 255 255 255 16 8 0), xrgb8888, (concat (map px4 (zrange 13))), 13%nat.
  split; [vm_compute; repeat split; congruence|]. split; [lia|]. split; reflexivity.
Qed.
Print Assumptions C18_palette_overflow_refuted.

(** It happens for every tile with that many colours. *)
Theorem C18_wide_cpixels_overflow : forall dst dst_fmt src_fmt tile len colours,
  zrle_formats dst_fmt src_fmt -> calc_bytes_per_cpixel dst_fmt = 4 ->
  Z.of_nat len * (bits_per_pixel src_fmt / 8) <= zlen tile ->
  NoDup colours -> (13 <= length colours <= 16)%nat ->
  (forall p, In p colours <-> exists k, (k < len)%nat /\
     get tile (Z.of_nat k * (bits_per_pixel src_fmt / 8)) (bits_per_pixel src_fmt / 8) = Ok p) ->
  encode_tile dst dst_fmt src_fmt tile len = Fault OobWrite.
Proof. exact wide_overflow. Qed.
Print Assumptions C18_wide_cpixels_overflow.

Example C18_wide_ex : let f := mk_fmt 32 30 0 1 1023 1023 1023 20 10 0 in
  zrle_formats f xrgb8888 /\ calc_bytes_per_cpixel f = 4 /\
  NoDup (map px4 (zrange 14)) /\ length (map px4 (zrange 14)) = 14%nat /\
  encode_tile (mk_tv [] (tile_cap f)) f xrgb8888 (concat (map px4 (zrange 14))) 14 = Fault OobWrite.
Proof.
  split; [vm_compute; repeat split; congruence|]. split; [reflexivity|].
  split; [|split; vm_compute; reflexivity].
  vm_compute. repeat constructor; intros H; repeat destruct H as [H|H]; try discriminate; exact H.
Qed.

(** What holds: with CPIXELs of at most 3 bytes (or with at most 12 colours in
    the tile) no tile leaves a buffer or fails an assertion, and no frame of
    boxes inside the framebuffer does. *)
Theorem C18_tile_partial : forall dst dst_fmt src_fmt tile len, zrle_formats dst_fmt src_fmt ->
  (1 <= len <= 4096)%nat -> Z.of_nat len * (bits_per_pixel src_fmt / 8) <= zlen tile ->
  1 + calc_bytes_per_cpixel dst_fmt * 64 * 64 + 48 <= tcap dst ->
  (calc_bytes_per_cpixel dst_fmt <= 3 \/
   exists colours, NoDup colours /\ (length colours <= 12)%nat /\
     forall p, In p colours <-> exists k, (k < len)%nat /\
       get tile (Z.of_nat k * (bits_per_pixel src_fmt / 8)) (bits_per_pixel src_fmt / 8) = Ok p) ->
  exists v, encode_tile dst dst_fmt src_fmt tile len = Ok v.
Proof. exact tile_no_fault. Qed.
Print Assumptions C18_tile_partial.

Theorem C18_frame_partial : forall zstate deflate zs fb x_pos y_pos dst src stride height rects extents,
  zrle_formats dst src -> calc_bytes_per_cpixel dst <= 3 ->
  Forall (fun b => box_in b stride height) (extents :: rects) ->
  height * stride * (bits_per_pixel src / 8) <= zlen fb ->
  exists r, encode_frame zstate deflate zs fb x_pos y_pos dst src stride rects extents = Ok r.
Proof.
  intros zstate deflate zs fb xp yp dst src stride height rects extents F N H L. inversion H; subst.
  unfold encode_frame. cbv zeta.
  destruct (box_loop_total zstate deflate (if Z.of_nat (length rects) >? 65535 then [extents] else rects)
    zs fb xp yp dst src stride height F N) as [z E].
  - destruct (_ >? _); [constructor; [assumption|constructor]|assumption].
  - exact L.
  - rewrite E. cbn [bind]. eauto.
Qed.
Print Assumptions C18_frame_partial.

Example C18_partial_ex :
  zrle_formats rgb888 xrgb8888 /\ calc_bytes_per_cpixel rgb888 = 3 /\
  box_in (mk_box 1 0 3 2) 4 2 /\ 2 * 4 * (bits_per_pixel xrgb8888 / 8) = zlen (concat (map px4 (zrange 8))).
Proof. vm_compute. repeat split; congruence. Qed.

(** C19: the tiles are those of the RFC, in its order; each lies in the
    rectangle and is at most 64x64, and each pixel is in exactly one. *)
Theorem C19_tiles : forall w h, 0 < w -> 0 < h ->
  map (fun t => (tile_x t, tile_y t, tile_width t, tile_height t)) (tiles w h) = rfc_tiles w h /\
  (forall t, In t (tiles w h) ->
     0 <= tile_x t /\ 0 <= tile_y t /\ 1 <= tile_width t <= 64 /\ 1 <= tile_height t <= 64 /\
     tile_x t + tile_width t <= w /\ tile_y t + tile_height t <= h) /\
  forall x y, 0 <= x < w -> 0 <= y < h ->
    times (fun t => (tile_x t <=? x) && (x <? tile_x t + tile_width t) &&
                    (tile_y t <=? y) && (y <? tile_y t + tile_height t)) (tiles w h) = 1%nat.
Proof.
  intros w h Hw Hh. split; [exact (tiles_rfc w h Hw Hh)|]. split; [intros t; apply tiles_in; assumption|].
  intros x y Hx Hy. exact (tiles_cover w h x y Hw Hh Hx Hy).
Qed.
Print Assumptions C19_tiles.

Example C19_ex : map tuple (tiles 130 70) =
  [(0, 0, 64, 64); (64, 0, 64, 64); (128, 0, 2, 64); (0, 64, 64, 6); (64, 64, 64, 6); (128, 64, 2, 6)].
Proof. reflexivity. Qed.

(** C66: the client's view of a frame.  If zlib works, the client reads as many
    rectangles as it is told, to the last byte; each shows the framebuffer's
    pixels, and every damaged pixel is in one. *)
Theorem C66_frame_reads_back :
  forall zstate istate deflate inflate synced, zlib_works zstate istate deflate inflate synced ->
  forall zs st fb x_pos y_pos dst src stride rects extents zs' out n,
  0 <= bits_per_pixel src / 8 ->
  Forall (fits_header x_pos y_pos) (extents :: rects) ->
  Forall (fun b => x1 extents <= x1 b /\ x2 b <= x2 extents /\ y1 extents <= y1 b /\ y2 b <= y2 extents) rects ->
  synced zs st -> zlen out < 2 ^ 32 ->
  encode_frame zstate deflate zs fb x_pos y_pos dst src stride rects extents = Ok (zs', out, n) ->
  exists rs st', read_rects istate inflate (Z.to_nat (calc_bytes_per_cpixel dst)) (Z.to_nat n) st out = Some (rs, st') /\
    synced zs' st' /\ 0 <= n <= 65535 /\
    (forall r, In r rs -> exists b, In b (extents :: rects) /\ shows fb stride x_pos y_pos dst src b r) /\
    (forall b x y, In b rects -> x1 b <= x < x2 b -> y1 b <= y < y2 b ->
       exists r, In r rs /\ 0 <= x_pos + x - r_x r < r_w r /\ 0 <= y_pos + y - r_y r < r_h r).
Proof. exact frame_reads_back. Qed.
Print Assumptions C66_frame_reads_back.

(** A compressor for which the hypothesis holds, and a frame of two boxes. *)
Example C66_ex :
  zlib_works unit unit (fun s p _ => (s, p)) (fun s p => (s, p)) (fun _ _ => True) /\
  let fb := concat (map px4 (zrange 8)) in
  encode_frame unit (fun s p _ => (s, p)) tt fb 10 20 rgb888 xrgb8888 4
    [mk_box 1 0 3 1; mk_box 0 1 1 2] (mk_box 0 0 3 2) =
  Ok (tt, [0; 11; 0; 20; 0; 2; 0; 1; 0; 0; 0; 16; 0; 0; 0; 7; 0; 3; 2; 1; 6; 4; 2] ++
          [0; 10; 0; 21; 0; 1; 0; 1; 0; 0; 0; 16; 0; 0; 0; 4; 1; 12; 8; 4], 2).
Proof.
  split.
  - intros zs st pieces _ _. exists tt. split; [|exact I]. f_equal; [destruct st; reflexivity|].
    revert zs. induction pieces as [|p pieces IH]; intros zs; [reflexivity|].
    cbn [deflate_all concat]. specialize (IH zs).
    destruct (deflate_all unit _ zs pieces) as [z o]. cbn [snd] in *. rewrite IH. reflexivity.
  - vm_compute. reflexivity.
Qed.
