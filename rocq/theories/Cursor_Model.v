(** Cursor images: src/cursor.c, send_cursor_update and nvnc_set_cursor of
    src/server.c.

    Simplifications: allocation succeeds; offsets are unbounded (exact for cursors
    below 2^30 pixels); strides are not negative.  A [struct vec] is its contents
    and its capacity.  assert() is compiled in.  What pixman draws is
    [Transform_Spec.sampled], pixels outside of the source being 0. *)
From Verif Require Import Common Pixels_Model Zrle_Model Raw_Model Fb_Model Transform_Model Transform_Spec.

(* include/fb.h:29-50: the fields cursor_encode uses; the stride is in pixels,
   the memory is in bytes *)
Record image := mk_image { im_transform : transform; im_w : Z; im_h : Z; im_stride : Z;
                           im_fourcc : Z; im_mem : list Z }.

(* src/pixels.c:464-535, fourcc_to_pixman_fmt: whether there is a pixman format;
   the assertion is at 466 *)
Definition pixman_format (format : Z) : res bool :=
  if Z.testbit format 31 then Fault AssertFail
  else Ok (existsb (fun n => format =? fourcc n)
    ["AR24"; "AB24"; "XR24"; "XB24"; "RA24"; "BA24"; "RX24"; "BX24"; "RG24"; "BG24"; "RG16"; "BG16";
     "AR30"; "XR30"; "AB30"; "XB30"; "AR15"; "AB15"; "XR15"; "XB15"; "AR12"; "AB12"; "XR12"; "XB12"]%string).

(* src/resampler.c:138-143, pixman_image_composite: the pixel drawn at (x, y) *)
Definition drawn (i : image) (m : matrix) (bpp x y : Z) : res (list Z) :=
  let (sx, sy) := sampled m x y in
  if (0 <=? sx) && (sx <? im_w i) && (0 <=? sy) && (sy <? im_h i)
  then get (im_mem i) ((sy * im_stride i + sx) * bpp) bpp
  else Ok (repeat 0 (Z.to_nat bpp)).

(* src/resampler.c:138-143: [n] pixels of a row from (x, y) on *)
Fixpoint drawn_row (n : nat) (i : image) (m : matrix) (bpp x y : Z) : res (list Z) :=
  match n with
  | O => Ok []
  | S n =>
      let* p := drawn i m bpp x y in
      let* rest := drawn_row n i m bpp (x + 1) y in
      Ok (p ++ rest)
  end.

(* src/resampler.c:138-143: [h] rows of [w] pixels from row [y] on *)
Fixpoint drawn_rows (h w : nat) (i : image) (m : matrix) (bpp y : Z) : res (list Z) :=
  match h with
  | O => Ok []
  | S h =>
      let* row := drawn_row w i m bpp 0 y in
      let* rest := drawn_rows h w i m bpp (y + 1) in
      Ok (row ++ rest)
  end.

(* src/cursor.c:33-54, apply_transform, with resample_now of
   src/resampler.c:104-148; the new framebuffer has no room between its rows *)
Definition apply_transform (i : image) : res image :=
  match im_transform i with
  | Normal => Ok i
  | t =>
      let (width, height) := transform_dimensions t (im_w i) (im_h i) in
      let* size := fb_new width height (im_fourcc i) width in
      if negb ((width * height * 4) mod 2 ^ 32 <=? size) then Fault OobWrite
      else
        let* known := pixman_format (im_fourcc i) in
        if negb known then Fault AssertFail
        else
          let* m := to_pixman_transform t (im_w i) (im_h i) in
          let* px := drawn_rows (Z.to_nat height) (Z.to_nat width) i m
                       (pixel_size_from_fourcc (im_fourcc i)) 0 in
          Ok (mk_image Normal width height width (im_fourcc i)
                (px ++ repeat 0 (Z.to_nat (size - zlen px))))
  end.

(* include/rfb-proto.h:62-83, RFB_ENCODING_CURSOR *)
Definition CURSOR : Z := -239.

(* src/cursor.c:113-120: the loop over the rows of the mask; [off] is the offset of
   the row, computed with uint32_t pointers; false: goto failure.  The memset of
   src/pixels.c:566 comes before the format is looked at *)
Fixpoint mask_rows (h : nat) (dst : tvec) (mem : list Z) (off stride format width : Z) : res (tvec * bool) :=
  match h with
  | O => Ok (dst, true)
  | S h =>
      let m := (width + 8 - 1) / 8 in
      if negb (zlen (tdata dst) + m <=? tcap dst) then Fault OobWrite
      else
        match alpha_layout format with
        | None => Ok (dst, false)
        | Some (bpp, _, _) =>
            let* px := pixels_of (Z.to_nat width) bpp mem off in
            let* row := extract_alpha_mask (repeat 0 (Z.to_nat m)) format (map unle px) in
            let* dst := write_end dst (fst row) in
            mask_rows h dst mem (off + 4 * stride) stride format width
        end
  end.

(* src/cursor.c:56-126, cursor_encode: the return value, the vector, and the
   change of the image's reference count *)
Definition cursor_encode (map_ok : bool) (dst : tvec) (fmt : pixfmt) (img : option image)
  (width height hotspot_x hotspot_y : Z) : res (Z * tvec * Z) :=
  match img with
  | None => Ok (0, append dst (rect_head CURSOR 0 0 0 0), 0)
  | Some i =>
      let (width, height) := transform_dimensions (im_transform i) width height in
      let (hotspot_x, hotspot_y) := transform_dimensions (im_transform i) hotspot_x hotspot_y in
      if negb map_ok then Ok (-1, dst, -1)
      else
        let* i := apply_transform i in
        if negb ((width <=? im_w i) && (height <=? im_h i)) then Fault AssertFail
        else
          match pixfmt_from_fourcc (im_fourcc i) with
          | None => Ok (-1, dst, 0)
          | Some src =>
              let dst := append dst (rect_head CURSOR hotspot_x hotspot_y width height) in
              let bpp := bits_per_pixel fmt / 8 in
              let size := (width * height) mod 2 ^ 32 in
              let dst := reserve dst (zlen (tdata dst) + size * bpp + (size + 8 - 1) / 8) in
              let src_byte_stride := im_stride i * (bits_per_pixel src / 8) in
              let* dst :=
                (if width =? im_stride i then
                   let* out := pixel_to_cpixel bpp fmt src (im_mem i) 0 (Z.to_nat size) in
                   write_end dst out
                 else raw_rows (Z.to_nat height) dst (im_mem i) 0 src_byte_stride fmt src bpp (Z.to_nat width)) in
              let* r := mask_rows (Z.to_nat height) dst (im_mem i) 0 (im_stride i) (im_fourcc i) width in
              Ok (0, fst r, 0)
          end
  end.

(* src/server.c:697-724, send_cursor_update: what is sent, if anything, and the
   change of the image's reference count *)
Definition send_cursor_update (map_ok : bool) (fmt : pixfmt) (img : option image)
  (width height hotspot_x hotspot_y : Z) : res (option (list Z) * Z) :=
  let payload := append (mk_tv [] 4096) ([0; 0] ++ be 2 1) in
  let* r := cursor_encode map_ok payload fmt img width height hotspot_x hotspot_y in
  let '(rc, payload, refs) := r in
  Ok ((if rc <? 0 then None else Some (tdata payload)), refs).

(** ** Whose image it is *)

(* include/common.h:171-211: all framebuffers of the application, and
   server->cursor.buffer *)
Record holder := mk_holder { h_fbs : list fb; h_cursor : option nat }.

(* the calls of src/server.c:2904-2912 and src/cursor.c:124 on a framebuffer that may
   be NULL; one that does not exist is a wild pointer *)
Definition on_image (s : holder) (which : option nat) (call : fb -> res fb) : res holder :=
  match which with
  | None => Ok s
  | Some k =>
      match nth_error (h_fbs s) k with
      | None => Fault NullDeref
      | Some f => let* f := call f in Ok (mk_holder (set_fb (h_fbs s) k f) (h_cursor s))
      end
  end.

(* src/server.c:2900-2934, nvnc_set_cursor: the reference and hold counts *)
Definition set_cursor (s : holder) (new : option nat) : res holder :=
  let* s := on_image s (h_cursor s) (fun f => let* r := nvnc_fb_release f in Ok (fst r)) in
  let* s := on_image s (h_cursor s) nvnc_fb_unref in
  let s := mk_holder (h_fbs s) new in
  let* s := on_image s new nvnc_fb_ref in
  on_image s new nvnc_fb_hold.

(* what the application does, and a client asking for the cursor *)
(* src/server.c:2900-2934 and 697-724 *)
Inductive cursor_event :=
| SetCursor (new : option nat)
| SendCursor (map_ok : bool) (fmt : pixfmt) (img : image) (width height hotspot_x hotspot_y : Z).

(* src/server.c:697-724 and 2900-2934; the contents of the current image come with the
   event *)
Definition cursor_step (s : holder) (e : cursor_event) : res holder :=
  match e with
  | SetCursor new => set_cursor s new
  | SendCursor map_ok fmt img width height hx hy =>
      let* r := send_cursor_update map_ok fmt
                  (match h_cursor s with Some _ => Some img | None => None end) width height hx hy in
      if snd r <? 0 then on_image s (h_cursor s) nvnc_fb_unref else Ok s
  end.

(* any number of these calls *)
(* src/server.c:2900-2934 and 697-724 *)
Fixpoint cursor_run (s : holder) (es : list cursor_event) : res holder :=
  match es with
  | [] => Ok s
  | e :: es => let* s := cursor_step s e in cursor_run s es
  end.
