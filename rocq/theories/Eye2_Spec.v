(** A viewer that draws Raw, ZRLE and Tight rectangles, and the frames of the ZRLE and
    Tight encoders. *)
From Verif Require Import Common Pixels_Model Zrle_Model Zrle_Spec Raw_Model Tight_Model Tight_Spec
  Msg_Model Upd_Spec Wire_Spec Mirror_Spec Eye_Spec.

(** The rectangle of a header has pixel (a, b). *)
Definition inside (r : list Z) (a b : Z) : bool :=
  (field 2 0 r <=? a) && (a <? field 2 0 r + field 2 4 r) && (field 2 2 r <=? b) && (b <? field 2 2 r + field 2 6 r).

(** The pixels the rectangles of an update have. *)
Definition mark (r : list Z) (s : Z -> Z -> bool) : Z -> Z -> bool :=
  if existsb (Z.eqb (to_signed 32 (field 4 8 r))) [0; 7; 16] then fun a b => inside r a b || s a b else s.
Definition viewer_of (p : pixfmt) : Wire_Spec.picture := viewer (Z.to_nat (bits_per_pixel p / 8)) (Z.to_nat (tpixel_size p)).
Definition touched (p : pixfmt) (m : list Z) : Z -> Z -> bool := draw (viewer_of p) mark (fun _ _ => false) m.

Section Full.
Variable istate : Type. (* zlib's, at the viewer *)
Variable inflate : istate -> list Z -> istate * list Z.

(** The screen, the ZRLE stream and the four Tight streams. *)
Record view := mk_view { scr : display; zr : istate; ti : list istate }.

(** Bytes per pixel in Raw, ZRLE and Tight rectangles: RFC 6143 7.7.1, 7.7.6 and the
    description of Tight.  JPEG images are not drawn. *)
Definition full_paint (size csize tsize : nat) (r : list Z) (v : view) : view :=
  let e := to_signed 32 (field 4 8 r) in
  if e =? 0 then mk_view (raw_paint size r (scr v)) (zr v) (ti v)
  else if e =? 16 then
    match read_rect istate inflate csize (zr v) r with
    | Some (z, st, _) =>
        mk_view (fun a b => if inside r a b then Zrle_Spec.shown z (a - r_x z) (b - r_y z) else scr v a b) st (ti v)
    | None => v
    end
  else if e =? 7 then
    match read_trect istate inflate tsize (ti v) r with
    | Some (t, sts, _) =>
        mk_view (fun a b =>
          match t_data t with
          | T_pixels px => if inside r a b then nth_error px (Z.to_nat ((b - t_y t) * t_w t + (a - t_x t))) else scr v a b
          | T_jpeg _ => scr v a b
          end) (zr v) sts
    | None => v
    end
  else v.

(** What is on the screen of a viewer of format [p] after the messages [ms], all streams
    new at first. *)
Definition on_screen (p : pixfmt) (st : istate) (ms : list (list Z)) : display :=
  scr (fold_left
    (draw (viewer_of p) (full_paint (Z.to_nat (bits_per_pixel p / 8)) (Z.to_nat (calc_bytes_per_cpixel p)) (Z.to_nat (tpixel_size p))))
    ms (mk_view dark st [st; st; st; st])).
End Full.

Section Frames.
Variable zstate : Type. (* zlib's, at the server *)
Variable deflate : zstate -> list Z -> bool -> zstate * list Z.
Variables dst src : pixfmt.

(** The frame [f] is what the ZRLE encoder makes of a buffer that shows [Q] for a client of
    format [dst], given the region [r], its zlib stream going from [zs] to [zs']. *)
Definition zrle_frame (zs : zstate) (r : region) (Q : Mirror_Spec.picture (list Z)) (f : frame) (zs' : zstate) : Prop :=
  exists fb stride rects extents,
    encode_frame zstate deflate zs fb 0 0 dst src stride rects extents = Ok (zs', f_data f, f_rects f) /\
    Forall (fits_header 0 0) rects /\ Z.of_nat (length rects) <= 65533 /\ zlen (f_data f) < 2 ^ 32 /\
    (forall x y, Upd_Spec.covers r x y <-> exists b, In b rects /\ x1 b <= x < x2 b /\ y1 b <= y < y2 b) /\
    (forall x y, Upd_Spec.covers r x y ->
       get fb ((y * stride + x) * (bits_per_pixel src / 8)) (bits_per_pixel src / 8) = Ok (Q x y)).

(** The same for the Tight encoder without JPEG and a buffer of [w] by [h] pixels; the
    conditions of C21 and C70. *)
Definition tight_frame (te : tenc zstate) (r : region) (Q : Mirror_Spec.picture (list Z)) (f : frame) (te' : tenc zstate) : Prop :=
  exists tf tj have_jpeg w h rects sched,
    tight_encode deflate tj have_jpeg te tf 0 0 w h rects sched = Ok (te', f_data f, f_rects f) /\
    tf_dst tf = dst /\ tf_src tf = src /\ basic_mode have_jpeg tf = true /\ tpixel_agrees dst /\ tiles_long_enough tf w h /\
    0 <= w <= 32704 /\ 0 <= h <= 32704 /\ four_workers w h sched /\ f_rects f <= 65533 /\
    (forall x y, Upd_Spec.covers r x y -> 0 <= x < w /\ 0 <= y < h /\ damaged rects x y) /\
    (forall x y, 0 <= x < w -> 0 <= y < h ->
       get (tf_fb tf) ((y * tf_stride tf + x) * (bits_per_pixel src / 8)) (bits_per_pixel src / 8) = Ok (Q x y)).
End Frames.
