(** Output transforms: src/transform-util.c.

    A region is its list of boxes; pixman_region_init_rects makes the union of the
    boxes.  malloc succeeds. *)
From Verif Require Import Common Zrle_Model.

(* include/neatvnc.h: enum nvnc_transform *)
(* include/neatvnc.h:85-94 *)
Inductive transform := Normal | R90 | R180 | R270 | Flipped | Flipped_90 | Flipped_180 | Flipped_270.

(* rows 0 and 1 of a pixman_transform_t; row 2 is always 0, 0, F1 *)
(* src/transform-util.c:46-128 *)
Record matrix := mk_m { m00 : Z; m01 : Z; m02 : Z; m10 : Z; m11 : Z; m12 : Z }.

(* src/transform-util.c:51: pixman_fixed_1 *)
Definition F1 : Z := 65536.

(* an int multiplication by F1, src/transform-util.c:67, 76, 77, 86, 96, 117, 126, 127 *)
Definition times_F1 (v : Z) : res Z :=
  if (- 2 ^ 31 <=? v * F1) && (v * F1 <? 2 ^ 31) then Ok (v * F1) else Fault SignedOverflow.

(* src/transform-util.c:48-137, nvnc_transform_to_pixman_transform *)
Definition to_pixman_transform (t : transform) (width height : Z) : res matrix :=
  match t with
  | Normal => Ok (mk_m F1 0 0 0 F1 0)
  | R90 => let* h := times_F1 height in Ok (mk_m 0 F1 0 (- F1) 0 h)
  | R180 => let* w := times_F1 width in let* h := times_F1 height in Ok (mk_m (- F1) 0 w 0 (- F1) h)
  | R270 => let* w := times_F1 width in Ok (mk_m 0 (- F1) w F1 0 0)
  | Flipped => let* w := times_F1 width in Ok (mk_m (- F1) 0 w 0 F1 0)
  | Flipped_90 => Ok (mk_m 0 F1 0 F1 0 0)
  | Flipped_180 => let* h := times_F1 height in Ok (mk_m F1 0 0 0 (- F1) h)
  | Flipped_270 => let* w := times_F1 width in let* h := times_F1 height in Ok (mk_m 0 (- F1) w (- F1) 0 h)
  end.

(* src/transform-util.c:139-152, is_transform_90_degrees *)
Definition is_transform_90_degrees (t : transform) : bool :=
  match t with R90 | R270 | Flipped_90 | Flipped_270 => true | _ => false end.

(* src/transform-util.c:154-162, nvnc_transform_dimensions *)
Definition transform_dimensions (t : transform) (width height : Z) : Z * Z :=
  if is_transform_90_degrees t then (height, width) else (width, height).

(* conversion to int16_t in the assignments of src/transform-util.c:185-230 *)
Definition int16 (v : Z) : Z := to_signed 16 v.

(* src/transform-util.c:183-232: one box *)
Definition transform_box (t : transform) (width height : Z) (b : box) : box :=
  match t with
  | Normal => b
  | R90 => mk_box (int16 (height - y2 b)) (int16 (x1 b)) (int16 (height - y1 b)) (int16 (x2 b))
  | R180 => mk_box (int16 (width - x2 b)) (int16 (height - y2 b)) (int16 (width - x1 b)) (int16 (height - y1 b))
  | R270 => mk_box (int16 (y1 b)) (int16 (width - x2 b)) (int16 (y2 b)) (int16 (width - x1 b))
  | Flipped => mk_box (int16 (width - x2 b)) (int16 (y1 b)) (int16 (width - x1 b)) (int16 (y2 b))
  | Flipped_90 => mk_box (int16 (y1 b)) (int16 (x1 b)) (int16 (y2 b)) (int16 (x2 b))
  | Flipped_180 => mk_box (int16 (x1 b)) (int16 (height - y2 b)) (int16 (x2 b)) (int16 (height - y1 b))
  | Flipped_270 => mk_box (int16 (height - y2 b)) (int16 (width - x2 b)) (int16 (height - y1 b)) (int16 (width - x1 b))
  end.

(* src/transform-util.c:165-238, nvnc_transform_region *)
Definition transform_region (src : list box) (t : transform) (width height : Z) : list box :=
  map (transform_box t width height) src.
