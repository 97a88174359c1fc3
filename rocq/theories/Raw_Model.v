(** The raw encoder: src/enc/raw.c.

    Simplifications: allocation succeeds, int arithmetic on offsets and sizes is
    unbounded (exact for areas below 2^31 bytes), the framebuffer is the mapped
    block of bytes.  The hand-over to the worker thread is not modelled. *)
From Verif Require Import Common Pixels_Model Zrle_Model.

(* src/vec.c:34-47, vec_reserve *)
Definition reserve (v : tvec) (size : Z) : tvec :=
  if size <=? tcap v then v else mk_tv (tdata v) size.

(* src/enc/raw.c:86-89: writing the pixels behind the contents *)
Definition write_end (v : tvec) (l : list Z) : res tvec :=
  if zlen (tdata v) + zlen l <=? tcap v then Ok (mk_tv (tdata v ++ l) (tcap v)) else Fault OobWrite.

(* src/enc/raw.c:85-90: the loop over the rows *)
Fixpoint raw_rows (h : nat) (dst : tvec) (fb : list Z) (off src_stride : Z) (dst_fmt src_fmt : pixfmt)
  (bpp : Z) (width : nat) : res tvec :=
  match h with
  | O => Ok dst
  | S h =>
      let* out := pixel_to_cpixel bpp dst_fmt src_fmt fb off width in
      let* dst := write_end dst out in
      raw_rows h dst fb (off + src_stride) src_stride dst_fmt src_fmt bpp width
  end.

(* src/enc/raw.c:56-93, raw_encode_box; RFB_ENCODING_RAW is 0 *)
Definition raw_encode_box (dst : tvec) (fb : list Z) (x_pos y_pos : Z) (dst_fmt src_fmt : pixfmt)
  (x_start y_start stride width height : Z) : res tvec :=
  let dst := append dst (rect_head 0 (x_pos + x_start) (y_pos + y_start) width height) in
  let src_bpp := bits_per_pixel src_fmt / 8 in
  let xoff := x_start * src_bpp in
  let src_stride := stride * src_bpp in
  let bpp := bits_per_pixel dst_fmt / 8 in
  let dst := reserve dst (width * height * bpp + zlen (tdata dst)) in
  raw_rows (Z.to_nat height) dst fb (xoff + y_start * src_stride) src_stride dst_fmt src_fmt bpp (Z.to_nat width).

(* src/enc/raw.c:113-123: the loop over the rectangles *)
Fixpoint raw_boxes (boxes : list box) (dst : tvec) (fb : list Z) (x_pos y_pos : Z)
  (dst_fmt src_fmt : pixfmt) (stride : Z) : res tvec :=
  match boxes with
  | [] => Ok dst
  | b :: boxes =>
      let* dst := raw_encode_box dst fb x_pos y_pos dst_fmt src_fmt (x1 b) (y1 b) stride
                    (x2 b - x1 b) (y2 b - y1 b) in
      raw_boxes boxes dst fb x_pos y_pos dst_fmt src_fmt stride
  end.

(* src/enc/raw.c:95-127, raw_encode_frame, with the number of rectangles *)
Definition raw_encode_frame (dst : tvec) (fb : list Z) (x_pos y_pos : Z) (dst_fmt src_fmt : pixfmt)
  (stride : Z) (rects : list box) (extents : box) : res (tvec * Z) :=
  let boxes := if Z.of_nat (length rects) >? 65535 then [extents] else rects in
  let* dst := raw_boxes boxes dst fb x_pos y_pos dst_fmt src_fmt stride in
  Ok (dst, Z.of_nat (length boxes)).

(* src/enc/util.c:49-64, calculate_region_area *)
Definition region_area (rects : list box) : Z :=
  fold_left (fun a b => (a + (x2 b - x1 b) * (y2 b - y1 b)) mod 2 ^ 32) rects 0.

(* src/enc/raw.c:129-164, raw_encoder_do_work: payload and rectangle count of
   the frame *)
Definition raw_do_work (fb : list Z) (x_pos y_pos : Z) (dst_fmt src_fmt : pixfmt)
  (stride : Z) (rects : list box) (extents : box) : res (list Z * Z) :=
  let n := Z.of_nat (length rects) in
  let n := if n >? 65535 then 1 else n in
  let size := region_area rects * (bits_per_pixel dst_fmt / 8) + n * 12 in
  let* r := raw_encode_frame (mk_tv [] size) fb x_pos y_pos dst_fmt src_fmt stride rects extents in
  Ok (tdata (fst r), snd r).
