(** What becomes of the buffers fed to a display: nvnc_display_feed_buffer of
    src/display.c with src/resampler.c, up to what a client that redraws the damage
    shows.

    Simplifications: as in Refinery_Model; each frame is done before the next is fed (for
    the order of the works see Disp); a client has all damage sent to it at once, and shows
    pixels as they are in the buffer (for the encodings and for frames that are skipped see
    Mirror).  The contents of a framebuffer are a function that gives the bytes at a place,
    or says that they cannot be read. *)
From Verif Require Import Common Zrle_Model Raw_Model Transform_Model Transform_Spec Refinery_Model Cursor_Model.

(* include/fb.h:29-50 with the arguments of src/display.c:112-114 *)
Record frame := mk_frame { fr_turn : transform; fr_format : Z; fr_fed : fed }.

(* include/fb.h:29-50 *)
Definition pic (f : frame) : picture := f_pic (fr_fed f).

(* the contents of a framebuffer: include/fb.h:29-50, addr *)
Definition canvas := Z -> Z -> res (list Z).

(* include/fb.h:29-50: the source as pixman sees it, src/resampler.c:118-124 *)
Definition as_image (f : frame) : image :=
  mk_image (fr_turn f) (pic_w (pic f)) (pic_h (pic f)) (pic_stride (pic f)) (fr_format f) (pic_mem (pic f)).

(* pixman_region_contains_point, which is what src/resampler.c:135-137 makes pixman ask *)
Definition within (r : list box) (x y : Z) : bool :=
  existsb (fun b => (x1 b <=? x) && (x <? x2 b) && (y1 b <=? y) && (y <? y2 b)) r.

(* src/resampler.c:104-148, resample_now: drawn inside of the damage if there is any, as a
   whole otherwise *)
Definition resample_now (damage : option (list box)) (dst : canvas) (f : frame) : res canvas :=
  let* known := pixman_format (fr_format f) in
  if negb known then Fault AssertFail
  else
    let* m := to_pixman_transform (fr_turn f) (pic_w (pic f)) (pic_h (pic f)) in
    Ok (fun x y => if match damage with Some r => within r x y | None => true end
                   then drawn (as_image f) m (pic_bpp (pic f)) x y else dst x y).

(* src/resampler.c:150-160 do_work, 162-168 on_work_done, 170-243 resampler_feed: the frame
   given to the display.  The side data are set on the buffer that is fed (211) and asked of
   the one from the pool (156), which has none: the damage passed to resample_now is NULL,
   the address of the first field (32) in no structure.  [dst] is what was in the buffer
   from the pool. *)
Definition resampler_feed (dst : canvas) (f : frame) : res canvas :=
  match fr_turn f with
  | Normal => Ok (fun x y => get (pic_mem (pic f)) ((y * pic_stride (pic f) + x) * pic_bpp (pic f)) (pic_bpp (pic f)))
  | _ => resample_now None dst f
  end.

Section Turn.
Variable xxh : list Z -> Z.
Variable rects_of : list box -> list box.

(* src/display.c:112-146, nvnc_display_feed_buffer, and 31-51: the new frame and its damage *)
Definition display_feed (r : refinery) (dst : canvas) (f : frame) : res (refinery * canvas * list box) :=
  let* (r, damage) := feed_damage xxh rects_of r (f_clients (fr_fed f)) (pic f) (f_damage (fr_fed f)) in
  let transformed := transform_region damage (fr_turn f) (pic_w (pic f)) (pic_h (pic f)) in
  let* shown := resampler_feed dst f in
  Ok (r, shown, transformed).

(* the screen of a client: the format and the bytes of the pixel, which is what the encoders
   make the colour of (src/enc/raw.c:60-95) *)
Definition screen := Z -> Z -> res (Z * list Z).

(* the client draws what is damaged: src/server.c:2625-2636, 863-959 *)
Definition redraw (damage : list box) (format : Z) (shown : canvas) (s : screen) : screen :=
  fun x y => if within damage x y then let* p := shown x y in Ok (format, p) else s x y.

(* any number of frames, newest first; [dst] gives what is in the buffers of the pool *)
(* src/display.c:112-146 again and again *)
Fixpoint run (dst : nat -> canvas) (s : screen) (l : list frame) : res (refinery * screen) :=
  match l with
  | [] => Ok (refinery_init 0 0, s)
  | f :: l =>
      let* (r, s) := run dst s l in
      let* (p, damage) := display_feed r (dst (length l)) f in
      let (r, shown) := p in
      Ok (r, redraw damage (fr_format f) shown s)
  end.
End Turn.
