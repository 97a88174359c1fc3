(** Refining damage: src/damage-refinery.c, and its use in
    nvnc_display_feed_buffer of src/display.c.

    Simplifications: allocation and mapping succeed; offsets into the framebuffer
    are unbounded (exact below 2^31 bytes).  A region is a list of boxes; how
    pixman cuts a region into rectangles is a parameter [rects_of].  XXH3 of the
    bytes of a tile, in the order they are given to XXH3_64bits_update, is a
    parameter [xxh]. *)
From Verif Require Import Common Zrle_Model Transform_Model.

Section Refinery.
Variable xxh : list Z -> Z.
Variable rects_of : list box -> list box.

(* include/damage-refinery.h:25-30 *)
Record refinery := mk_rf { rf_w : Z; rf_h : Z; rf_hashes : list Z }.

(* src/damage-refinery.c:33, UDIV_UP(v, 32) of a uint32_t *)
Definition tiles_up (v : Z) : Z := ((v + 32 - 1) mod 2 ^ 32) / 32.

(* src/damage-refinery.c:37-57, damage_refinery_init *)
Definition refinery_init (width height : Z) : refinery :=
  mk_rf width height (repeat 0 (Z.to_nat ((tiles_up width * tiles_up height) mod 2 ^ 32))).

(* src/damage-refinery.c:59-67, damage_refinery_resize *)
Definition refinery_resize (r : refinery) (width height : Z) : refinery :=
  if (width =? rf_w r) && (height =? rf_h r) then r else refinery_init width height.

(* src/damage-refinery.c:90-93: the bytes given to the hash, row by row *)
Fixpoint tile_rows (n : nat) (mem : list Z) (off byte_stride len : Z) : res (list Z) :=
  match n with
  | O => Ok []
  | S n =>
      let* row := get mem off len in
      let* rest := tile_rows n mem (off + byte_stride) byte_stride len in
      Ok (row ++ rest)
  end.

(* src/damage-refinery.c:75-96, damage_hash_tile; tx and ty are uint32_t, the bounds
   are int *)
Definition hash_tile (r : refinery) (tx ty : Z) (mem : list Z) (stride bpp : Z) : res Z :=
  let byte_stride := stride * bpp in
  let x_start := to_signed 32 (tx * 32) in
  let x_stop := to_signed 32 (Z.min (((tx + 1) * 32) mod 2 ^ 32) (rf_w r)) in
  let y_start := to_signed 32 (ty * 32) in
  let y_stop := to_signed 32 (Z.min (((ty + 1) * 32) mod 2 ^ 32) (rf_h r)) in
  let* bytes := tile_rows (Z.to_nat (y_stop - y_start)) mem (x_start * bpp + y_start * byte_stride)
                  byte_stride (bpp * (x_stop - x_start)) in
  Ok (xxh bytes mod 2 ^ 32).

(* src/damage-refinery.c:98-103, damage_tile_hash_ptr: the index *)
Definition hash_index (r : refinery) (tx ty : Z) : Z := (tx + ty * tiles_up (rf_w r)) mod 2 ^ 32.

(* src/damage-refinery.c:105-117, damage_refine_tile: whether the tile is damaged *)
Definition refine_tile (r : refinery) (tx ty : Z) (mem : list Z) (stride bpp : Z) : res (refinery * bool) :=
  let* hash := hash_tile r tx ty mem stride bpp in
  let* old := get (rf_hashes r) (hash_index r tx ty) 1 in
  let* hs := put (rf_hashes r) (hash_index r tx ty) [hash] in
  Ok (mk_rf (rf_w r) (rf_h r) hs, negb (hash =? hd 0 old)).

(* pixman_region_union_rect(dst, dst, x, y, width, height) with the conversion to
   int16_t; an empty or invalid rectangle adds nothing *)
(* called at src/damage-refinery.c:115-116, 131 *)
Definition union_rect (l : list box) (x y w h : Z) : list box :=
  let b := mk_box (int16 x) (int16 y) (int16 (x + w)) (int16 (y + h)) in
  if (x1 b <? x2 b) && (y1 b <? y2 b) then l ++ [b] else l.

(* src/damage-refinery.c:119-133, tile_region_from_region; int division truncates *)
Fixpoint tile_region (src : list box) (dst : list box) : list box :=
  match src with
  | [] => dst
  | b :: src =>
      let x1 := Z.quot (x1 b) 32 in
      let y1 := Z.quot (y1 b) 32 in
      let x2 := Z.quot (x2 b + 32 - 1) 32 in
      let y2 := Z.quot (y2 b + 32 - 1) 32 in
      tile_region src (union_rect dst x1 y1 (x2 - x1) (y2 - y1))
  end.

(* a, a + 1, ..., b - 1: the for loops of src/damage-refinery.c:154-155 *)
Definition range (a b : Z) : list Z := map (fun i => a + Z.of_nat i) (seq 0 (Z.to_nat (b - a))).

(* src/damage-refinery.c:153-156: the tiles in the order they are looked at *)
Definition tiles_in (rects : list box) : list (Z * Z) :=
  flat_map (fun b => flat_map (fun ty => map (fun tx => (tx, ty)) (range (x1 b) (x2 b))) (range (y1 b) (y2 b))) rects.

(* src/damage-refinery.c:153-156: looking at them; int to uint32_t *)
Fixpoint refine_tiles (ts : list (Z * Z)) (r : refinery) (refined : list box) (mem : list Z) (stride bpp : Z)
  : res (refinery * list box) :=
  match ts with
  | [] => Ok (r, refined)
  | (tx, ty) :: ts =>
      let tx := tx mod 2 ^ 32 in
      let ty := ty mod 2 ^ 32 in
      let* (r, damaged) := refine_tile r tx ty mem stride bpp in
      refine_tiles ts r (if damaged then union_rect refined (tx * 32) (ty * 32) 32 32 else refined) mem stride bpp
  end.

(* pixman_region_intersect_rect(r, r, 0, 0, width, height), box by box, with the
   conversion to int16_t *)
(* called at src/damage-refinery.c:159-160 *)
Definition clip (width height : Z) (l : list box) : list box :=
  filter (fun b => (x1 b <? x2 b) && (y1 b <? y2 b))
    (map (fun b => mk_box (Z.max 0 (x1 b)) (Z.max 0 (y1 b))
                     (Z.min (int16 width) (x2 b)) (Z.min (int16 height) (y2 b))) l).

(* a framebuffer: size, stride in pixels, bytes per pixel, memory *)
(* include/fb.h:29-50, as far as src/damage-refinery.c:75-96 uses it *)
Record picture := mk_pic { pic_w : Z; pic_h : Z; pic_stride : Z; pic_bpp : Z; pic_mem : list Z }.

(* src/damage-refinery.c:135-161, damage_refine *)
Definition damage_refine (r : refinery) (refined hint : list box) (p : picture) : res (refinery * list box) :=
  if negb ((rf_w r =? pic_w p) && (rf_h r =? pic_h p)) then Fault AssertFail
  else
    let* (r, refined) := refine_tiles (tiles_in (rects_of (tile_region hint []))) r refined
                           (pic_mem p) (pic_stride p) (pic_bpp p) in
    Ok (r, clip (rf_w r) (rf_h r) refined).

(* src/display.c:107-134, nvnc_display_feed_buffer up to the transform: the damage
   passed on; [clients] says if n_damage_clients is not 0 *)
Definition feed_damage (r : refinery) (clients : bool) (p : picture) (damage : list box) : res (refinery * list box) :=
  if clients then damage_refine (refinery_resize r (pic_w p) (pic_h p)) [] damage p
  else Ok (refinery_resize r 0 0, damage).

(* what the application feeds *)
(* the arguments of src/display.c:104-105 *)
Record fed := mk_fed { f_clients : bool; f_pic : picture; f_damage : list box }.

(* src/display.c:64 and 107-134: one frame after the other, newest first; the
   refinery and the damage passed on *)
Fixpoint feeds (frames : list fed) : res (refinery * list (list box)) :=
  match frames with
  | [] => Ok (refinery_init 0 0, [])
  | f :: frames =>
      let* (r, outs) := feeds frames in
      let* (r, out) := feed_damage r (f_clients f) (f_pic f) (f_damage f) in
      Ok (r, out :: outs)
  end.
End Refinery.
