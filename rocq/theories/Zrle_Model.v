(** The ZRLE encoder: src/enc/zrle.c and encode_rect_head of src/enc/util.c.

    Simplifications: allocation succeeds; a [struct vec] is its contents and its
    capacity (Vec_Model has the rest); the pixels of a tile are taken out of the
    tile block once instead of at each comparison; zlib's deflate is a
    parameter, the output growing loop around it (zrle_deflate) is not
    modelled.  int arithmetic on offsets is unbounded. *)
From Verif Require Import Common Pixels_Model.

(* src/enc/zrle.c:35 *)
Definition TILE_LENGTH : Z := 64.

(* include/vec.h:23-27 *)
Record tvec := mk_tv { tdata : list Z; tcap : Z }.

(* include/vec.h:45-49, vec_fast_append_8 *)
Definition append_8 (v : tvec) (b : Z) : res tvec :=
  if zlen (tdata v) <? tcap v then Ok (mk_tv (tdata v ++ [b mod 256]) (tcap v)) else Fault AssertFail.

(* src/vec.c:49-55 and 70-80, vec_append *)
Definition append (v : tvec) (l : list Z) : tvec :=
  let n := zlen (tdata v) + zlen l in
  mk_tv (tdata v ++ l) (if n <? tcap v then tcap v else Z.max (tcap v) (2 * n)).

(* src/enc/zrle.c:106-109 and 208-211: writing [l] at data + 1 and adding its
   length to len *)
Definition write_at_1 (v : tvec) (l : list Z) : res tvec :=
  if 1 + zlen l <=? tcap v
  then Ok (mk_tv (firstn 1 (tdata v) ++ l) (tcap v)) else Fault OobWrite.

(* the memcmp of src/enc/zrle.c:69 and 151 *)
Definition px_eqb (a b : list Z) : bool := if list_eq_dec Z.eq_dec a b then true else false.

(* src/enc/zrle.c:65-73, find_colour_in_palette *)
Fixpoint find_colour_from (i : Z) (palette : list (list Z)) (colour : list Z) : Z :=
  match palette with
  | [] => -1
  | c :: palette => if px_eqb c colour then i else find_colour_from (i + 1) palette colour
  end.
(* src/enc/zrle.c:65-73, from the first entry on *)
Definition find_colour := find_colour_from 0.

(* src/enc/zrle.c:83-92: the loop; None for -1.  The palette block has 16 * 4
   bytes (line 186). *)
Fixpoint palette_loop (bpp : Z) (palette : list (list Z)) (px : list (list Z))
  : res (option (list (list Z))) :=
  match px with
  | [] => Ok (Some palette)
  | c :: px =>
      if find_colour palette c <? 0 then
        if Z.of_nat (length palette) >=? 16 then Ok None
        else if (Z.of_nat (length palette) + 1) * bpp <=? 16 * 4
        then palette_loop bpp (palette ++ [c]) px
        else Fault OobWrite
      else palette_loop bpp palette px
  end.

(* src/enc/zrle.c:75-95, zrle_get_tile_palette *)
Definition get_tile_palette (bpp : Z) (px : list (list Z)) : res (option (list (list Z))) :=
  match px with
  | [] => Fault OobRead
  | c :: _ => palette_loop bpp [c] px
  end.

(* src/enc/zrle.c:121-124: the loop *)
Fixpoint run_escapes (fuel : nat) (dst : tvec) (run_length : Z) : res (tvec * Z) :=
  if run_length >? 255 then
    match fuel with
    | O => Fault Diverges
    | S fuel =>
        let* dst := append_8 dst 255 in
        run_escapes fuel dst (run_length - 255)
    end
  else Ok (dst, run_length).

(* src/enc/zrle.c:112-127, encode_run_length *)
Definition encode_run_length (dst : tvec) (index run_length : Z) : res tvec :=
  let index := index mod 256 in
  if run_length =? 1 then append_8 dst index
  else
    let* dst := append_8 dst (Z.lor index 128) in
    let* x := run_escapes (Z.to_nat run_length) dst run_length in
    append_8 (fst x) (snd x - 1).

(* src/enc/zrle.c:149-165: the loop over the pixels after the first, and the
   final run *)
Fixpoint packed_loop (dst : tvec) (palette : list (list Z)) (prev : list Z) (run_length : Z)
  (px : list (list Z)) : res tvec :=
  match px with
  | [] => if run_length >? 0 then encode_run_length dst (find_colour palette prev) run_length
          else Ok dst
  | c :: px =>
      if px_eqb c prev then packed_loop dst palette prev (run_length + 1) px
      else
        let* dst := encode_run_length dst (find_colour palette prev) run_length in
        packed_loop dst palette c 1 px
  end.

(* src/enc/zrle.c:129-166, zrle_encode_packed_tile *)
Definition encode_packed_tile (dst : tvec) (dst_fmt src_fmt : pixfmt) (px : list (list Z))
  (palette : list (list Z)) : res tvec :=
  let bytes_per_cpixel := calc_bytes_per_cpixel dst_fmt in
  let* colours := pixel_to_cpixel bytes_per_cpixel dst_fmt src_fmt (concat palette) 0 (length palette) in
  let* cpalette := put (repeat 0 (16 * 3)) 0 colours in
  let* dst := append_8 dst (Z.lor 128 (Z.of_nat (length palette))) in
  let* used := get cpalette 0 (Z.of_nat (length palette) * bytes_per_cpixel) in
  let dst := append dst used in
  match px with
  | [] => Fault OobRead
  | c :: px => packed_loop dst palette c 1 px
  end.

(* src/enc/zrle.c:97-110, zrle_encode_unichrome_tile *)
Definition encode_unichrome_tile (dst : tvec) (dst_fmt src_fmt : pixfmt) (colour : list Z) : res tvec :=
  let* dst := append_8 dst 1 in
  let* out := pixel_to_cpixel (calc_bytes_per_cpixel dst_fmt) dst_fmt src_fmt colour 0 1 in
  write_at_1 dst out.

(* the pixels in a tile block, [n] of [bpp] bytes; the reads of
   src/enc/zrle.c:84, 151, 156 and 163 *)
Fixpoint pixels_of (n : nat) (bpp : Z) (tile : list Z) (off : Z) : res (list (list Z)) :=
  match n with
  | O => Ok []
  | S n =>
      let* p := get tile off bpp in
      let* rest := pixels_of n bpp tile (off + bpp) in
      Ok (p :: rest)
  end.

(* src/enc/zrle.c:176-212, zrle_encode_tile *)
Definition encode_tile (dst : tvec) (dst_fmt src_fmt : pixfmt) (tile : list Z) (length : nat) : res tvec :=
  let bytes_per_cpixel := calc_bytes_per_cpixel dst_fmt in
  let src_bpp := bits_per_pixel src_fmt / 8 in
  let dst := mk_tv [] (tcap dst) in
  let* px := pixels_of length src_bpp tile 0 in
  let* palette := get_tile_palette src_bpp px in
  let raw dst :=
    let* dst := append_8 dst 0 in
    let* out := pixel_to_cpixel bytes_per_cpixel dst_fmt src_fmt tile 0 length in
    write_at_1 dst out in
  match palette with
  | None => raw dst
  | Some [c] => encode_unichrome_tile dst dst_fmt src_fmt c
  | Some palette =>
      let* packed := encode_packed_tile dst dst_fmt src_fmt px palette in
      if zlen (tdata packed) <=? 1 + bytes_per_cpixel * Z.of_nat length then Ok packed
      else raw (mk_tv [] (tcap packed))
  end.

(* src/enc/zrle.c:172-173: the rows, from byte offset [off] of
   the framebuffer on; the tile block has 64 * 64 * 4 bytes (line 253) *)
Fixpoint copy_rows (h : nat) (fb : list Z) (off byte_stride row : Z) : res (list Z) :=
  match h with
  | O => Ok []
  | S h =>
      let* r := get fb off row in
      let* rest := copy_rows h fb (off + byte_stride) byte_stride row in
      Ok (r ++ rest)
  end.

(* src/enc/zrle.c:168-174, zrle_copy_tile *)
Definition copy_tile (fb : list Z) (off src_bpp stride width height : Z) : res (list Z) :=
  let* rows := copy_rows (Z.to_nat height) fb off (stride * src_bpp) (width * src_bpp) in
  if zlen rows <=? TILE_LENGTH * TILE_LENGTH * 4 then Ok rows else Fault OobWrite.

(* src/enc/zrle.c:37 *)
Definition UDIV_UP (a b : Z) : Z := (a + b - 1) / b.

(* src/enc/zrle.c:273-280: position and size of tile [i] of a rectangle *)
Record tile_rect := mk_tile { tile_x : Z; tile_y : Z; tile_width : Z; tile_height : Z }.

(* src/enc/zrle.c:273-280 *)
Definition tile_at (width height i : Z) : tile_rect :=
  let tx := (i mod UDIV_UP width TILE_LENGTH) * TILE_LENGTH in
  let ty := (i / UDIV_UP width TILE_LENGTH) * TILE_LENGTH in
  mk_tile tx ty
    (if width - tx >=? TILE_LENGTH then TILE_LENGTH else width - tx)
    (if height - ty >=? TILE_LENGTH then TILE_LENGTH else height - ty).

(* src/enc/zrle.c:270 *)
Definition n_tiles (width height : Z) : Z := UDIV_UP width TILE_LENGTH * UDIV_UP height TILE_LENGTH.

(* src/enc/zrle.c:272: all the tiles in order *)
Definition tiles (width height : Z) : list tile_rect :=
  map (fun i => tile_at width height (Z.of_nat i)) (seq 0 (Z.to_nat (n_tiles width height))).

(* src/enc/util.c:29-41, encode_rect_head *)
Definition rect_head (encoding x y width height : Z) : list Z :=
  be 2 (x mod 2 ^ 16) ++ be 2 (y mod 2 ^ 16) ++ be 2 (width mod 2 ^ 16) ++ be 2 (height mod 2 ^ 16)
    ++ be 4 (encoding mod 2 ^ 32).

Section Zlib.
Variable zstate : Type.
(** deflate of one piece, with or without Z_SYNC_FLUSH *)
Variable deflate : zstate -> list Z -> bool -> zstate * list Z.

(* src/enc/zrle.c:272-295: the loop over the tiles *)
Fixpoint tile_loop (ts : list tile_rect) (zs : zstate) (fb : list Z) (stride x y : Z)
  (dst_fmt src_fmt : pixfmt) (cap : Z) : res (zstate * list Z) :=
  match ts with
  | [] => Ok (zs, [])
  | t :: ts =>
      let src_bpp := bits_per_pixel src_fmt / 8 in
      let y_off := (y + tile_y t) * stride * src_bpp in
      let x_off := (x + tile_x t) * src_bpp in
      let* tile := copy_tile fb (x_off + y_off) src_bpp stride (tile_width t) (tile_height t) in
      let* v := encode_tile (mk_tv [] cap) dst_fmt src_fmt tile
                  (Z.to_nat (tile_width t * tile_height t)) in
      let (zs, out) := deflate zs (tdata v) (match ts with [] => true | _ => false end) in
      let* z := tile_loop ts zs fb stride x y dst_fmt src_fmt (tcap v) in
      Ok (fst z, out ++ snd z)
  end.

(* src/enc/zrle.c:239-305, zrle_encode_box; RFB_ENCODING_ZRLE is 16 *)
Definition encode_box (zs : zstate) (fb : list Z) (x_pos y_pos : Z) (dst_fmt src_fmt : pixfmt)
  (x y stride width height : Z) : res (zstate * list Z) :=
  let cap := 1 + calc_bytes_per_cpixel dst_fmt * TILE_LENGTH * TILE_LENGTH + 16 * 3 in
  let* z := tile_loop (tiles width height) zs fb stride x y dst_fmt src_fmt cap in
  Ok (fst z, rect_head 16 (x_pos + x) (y_pos + y) width height
               ++ be 4 (zlen (snd z) mod 2 ^ 32) ++ snd z).

(* pixman_box16, as src/enc/zrle.c:328-331 uses it *)
Record box := mk_box { x1 : Z; y1 : Z; x2 : Z; y2 : Z }.

(* src/enc/zrle.c:327-337: the loop over the rectangles *)
Fixpoint box_loop (boxes : list box) (zs : zstate) (fb : list Z) (x_pos y_pos : Z)
  (dst_fmt src_fmt : pixfmt) (stride : Z) : res (zstate * list Z) :=
  match boxes with
  | [] => Ok (zs, [])
  | b :: boxes =>
      let* r := encode_box zs fb x_pos y_pos dst_fmt src_fmt (x1 b) (y1 b) stride
                  (x2 b - x1 b) (y2 b - y1 b) in
      let* z := box_loop boxes (fst r) fb x_pos y_pos dst_fmt src_fmt stride in
      Ok (fst z, snd r ++ snd z)
  end.

(* src/enc/zrle.c:307-341, zrle_encode_frame; [rects] and [extents] as pixman
   reports them.  The number of rectangles goes with the result. *)
Definition encode_frame (zs : zstate) (fb : list Z) (x_pos y_pos : Z) (dst_fmt src_fmt : pixfmt)
  (stride : Z) (rects : list box) (extents : box) : res (zstate * list Z * Z) :=
  let boxes := if Z.of_nat (length rects) >? 65535 then [extents] else rects in
  let* z := box_loop boxes zs fb x_pos y_pos dst_fmt src_fmt stride in
  Ok (fst z, snd z, Z.of_nat (length boxes)).
End Zlib.
