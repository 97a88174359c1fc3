(** The raw encoding: C22 and C68. *)
From Verif Require Import Common CommonProofs Ws_Proofs WsStream_Proofs Pixels_Model Pixels_Proofs Pixels_Props.
From Verif Require Import Zrle_Model Zrle_Spec Zrle_Proofs Zrle2_Proofs Raw_Model Raw_Spec Raw_Proofs.

(** C22: the client reads as many rectangles as the count says and no byte is
    left; each shows a damaged box, and every damaged pixel is in one of them. *)
Theorem C22_raw_frame_reads_back : forall fb x_pos y_pos dst src stride rects extents out n,
  Forall (fits_header x_pos y_pos) (extents :: rects) ->
  Forall (fun b => x1 extents <= x1 b /\ x2 b <= x2 extents /\ y1 extents <= y1 b /\ y2 b <= y2 extents) rects ->
  raw_do_work fb x_pos y_pos dst src stride rects extents = Ok (out, n) ->
  exists rs, read_raws (Z.to_nat (bits_per_pixel dst / 8)) (Z.to_nat n) out = Some rs /\ 0 <= n <= 65535 /\
    (forall r, In r rs -> exists b, In b (extents :: rects) /\ raw_shows fb stride x_pos y_pos dst src b r) /\
    (forall b x y, In b rects -> x1 b <= x < x2 b -> y1 b <= y < y2 b ->
       exists r, In r rs /\ 0 <= x_pos + x - rr_x r < rr_w r /\ 0 <= y_pos + y - rr_y r < rr_h r).
Proof. exact raw_frame_reads. Qed.
Print Assumptions C22_raw_frame_reads_back.

(** Two boxes of a 3x2 framebuffer to a client of 16 bits per pixel. *)
Definition fb32 : list Z := concat (map (fun v => [8 * v; 4 * v; 16 * v; 0]) [1; 2; 3; 4; 5; 6]).

Example C22_ex :
  Forall (fits_header 10 20) [mk_box 0 0 3 2; mk_box 0 0 2 1; mk_box 1 1 3 2] /\
  raw_do_work fb32 10 20 rgb565be xrgb8888 3 [mk_box 0 0 2 1; mk_box 1 1 3 2] (mk_box 0 0 3 2)
  = Ok ([0; 10; 0; 20; 0; 2; 0; 1; 0; 0; 0; 0; 16; 33; 32; 66;
         0; 11; 0; 21; 0; 2; 0; 1; 0; 0; 0; 0; 80; 165; 96; 198], 2).
Proof.
  split; [|vm_compute; reflexivity].
  repeat (constructor; [vm_compute; repeat split; congruence|]). constructor.
Qed.

(** C68: for boxes inside the framebuffer the encoder reads inside it and writes
    inside what it reserved, whatever the initial capacity. *)
Theorem C68_raw_stays_in_bounds : forall fb x_pos y_pos dst src stride height rects extents,
  raw_formats dst src -> Forall (fun b => box_in b stride height) (extents :: rects) ->
  height * stride * (bits_per_pixel src / 8) <= zlen fb ->
  exists out n, raw_do_work fb x_pos y_pos dst src stride rects extents = Ok (out, n).
Proof.
  intros fb xp yp dst src stride height rects extents F B L. unfold raw_do_work, raw_encode_frame. cbv zeta.
  inversion B; subst.
  destruct (raw_boxes_total (if Z.of_nat (length rects) >? 65535 then [extents] else rects)
    (mk_tv [] (region_area rects * (bits_per_pixel dst / 8) +
      (if Z.of_nat (length rects) >? 65535 then 1 else Z.of_nat (length rects)) * 12)) fb xp yp dst src stride height F)
    as [v E]; [|exact L|].
  - destruct (_ >? _); [constructor; [assumption|constructor]|assumption].
  - rewrite E. cbn [bind fst snd]. eauto.
Qed.
Print Assumptions C68_raw_stays_in_bounds.

Example C68_ex : raw_formats rgb565be xrgb8888 /\
  Forall (fun b => box_in b 3 2) [mk_box 0 0 3 2; mk_box 0 0 2 1; mk_box 1 1 3 2] /\ zlen fb32 = 2 * 3 * 4 /\
  raw_do_work fb32 0 0 rgb565be xrgb8888 3 [mk_box 0 0 3 3] (mk_box 0 0 3 3) = Fault OobRead.
Proof.
  split; [vm_compute; repeat split; congruence|].
  split; [repeat (constructor; [vm_compute; repeat split; congruence|]); constructor|].
  split; vm_compute; reflexivity.
Qed.
