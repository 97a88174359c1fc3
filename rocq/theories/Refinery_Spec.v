(** What refined damage has to be. *)
From Verif Require Import Common Zrle_Model Transform_Model Transform_Spec Refinery_Model.

(** The bytes of the 32 by 32 tile in column [tx] of row [ty], as far as it is in
    the picture. *)
Definition tile_bytes (p : picture) (tx ty : Z) : list Z :=
  flat_map (fun y =>
      firstn (Z.to_nat ((Z.min (32 * tx + 32) (pic_w p) - 32 * tx) * pic_bpp p))
        (skipn (Z.to_nat ((y * pic_stride p + 32 * tx) * pic_bpp p)) (pic_mem p)))
    (range (32 * ty) (Z.min (32 * ty + 32) (pic_h p))).

(** Some point of the region is in the tile. *)
Definition touches (damage : list box) (tx ty : Z) : Prop :=
  exists x y, in_region damage x y /\ x / 32 = tx /\ y / 32 = ty.

Definition touchesb (damage : list box) (tx ty : Z) : bool :=
  existsb (fun b => (x1 b <? 32 * tx + 32) && (32 * tx <? x2 b) && (y1 b <? 32 * ty + 32) && (32 * ty <? y2 b)
                    && (x1 b <? x2 b) && (y1 b <? y2 b)) damage.

(** The hash of a tile when it was last looked at, among the frames before (newest
    first) with clients and of this size without interruption; 0 if it was not. *)
Fixpoint remembered (xxh : list Z -> Z) (before : list fed) (w h tx ty : Z) : Z :=
  match before with
  | [] => 0
  | f :: before =>
      if f_clients f && (pic_w (f_pic f) =? w) && (pic_h (f_pic f) =? h) then
        if touchesb (f_damage f) tx ty then xxh (tile_bytes (f_pic f) tx ty) mod 2 ^ 32
        else remembered xxh before w h tx ty
      else 0
  end.

(** What a cut of a region into rectangles has to keep. *)
Definition keeps_points (rects_of : list box -> list box) : Prop :=
  forall l x y, in_region (rects_of l) x y <-> in_region l x y.

(** A picture whose memory is there. *)
Definition sound (p : picture) : Prop :=
  0 < pic_w p <= 32736 /\ 0 < pic_h p <= 32736 /\ 0 <= pic_bpp p /\ pic_w p <= pic_stride p /\
  pic_h p * pic_stride p * pic_bpp p <= zlen (pic_mem p).

(** And damage inside of it. *)
Definition proper (f : fed) : Prop :=
  sound (f_pic f) /\ region_within (f_damage f) (pic_w (f_pic f)) (pic_h (f_pic f)).
