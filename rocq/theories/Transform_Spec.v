(** What transforms have to do with one another. *)
From Verif Require Import Common Zrle_Model Transform_Model.

(** pixman: which source pixel the destination pixel (x, y) shows with matrix [m]
    and nearest-neighbour sampling: the one under the centre of the pixel, in
    16.16 fixed point. *)
Definition sampled (m : matrix) (x y : Z) : Z * Z :=
  let cx := x * 65536 + 32768 in
  let cy := y * 65536 + 32768 in
  let sx := (m00 m * cx + m01 m * cy) / 65536 + m02 m in
  let sy := (m10 m * cx + m11 m * cy) / 65536 + m12 m in
  (sx / 65536, sy / 65536).

Definition in_region (r : list box) (x y : Z) : Prop :=
  exists b, In b r /\ x1 b <= x < x2 b /\ y1 b <= y < y2 b.

Definition region_within (r : list box) (w h : Z) : Prop :=
  Forall (fun b => 0 <= x1 b /\ x1 b < x2 b /\ x2 b <= w /\ 0 <= y1 b /\ y1 b < y2 b /\ y2 b <= h) r.
