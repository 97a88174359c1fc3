(** The Tight encoder: src/enc/tight.c.

    Simplifications: allocation and nvnc_fb_map succeed; a tile's buffer is the
    bytes stored in it (size is their number); deflate's Z_STREAM_ERROR does not
    happen; a tile is encoded in one step of its worker; int arithmetic on
    offsets is unbounded.  zlib's deflate and tjCompress2 are parameters. *)
From Verif Require Import Common Pixels_Model Zrle_Model.

(* src/enc/tight.c:45-55 *)
Definition TIGHT_JPEG : Z := 144.
(* src/enc/tight.c:45-55 *)
Definition TIGHT_STREAM (n : Z) : Z := n * 16.
(* src/enc/tight.c:45-55 *)
Definition TSL : Z := 64.
(* src/enc/tight.c:45-55 *)
Definition MAX_TILE_SIZE : Z := 2 * TSL * TSL * 4.

(* src/enc/tight.c:89-93 *)
Inductive tile_state := Ready | Damaged | Encoded.

(* src/enc/tight.c:95-100, struct tight_tile *)
Record ttile := mk_tt { tt_state : tile_state; tt_type : Z; tt_buf : list Z }.

(* src/enc/tight.c:184: a tile as calloc makes it *)
Definition blank : ttile := mk_tt Ready 0 [].

(* tile coordinates, the pairs gx, gy of src/enc/tight.c *)
(* gx and gy of src/enc/tight.c:234-235, 437-438 *)
Definition job : Type := Z * Z.

(* for (x = from; x < bound; x += step), as in src/enc/tight.c:234, 235, 437, 438, 505, 506 *)
Fixpoint count_up (fuel : nat) (from step bound : Z) : list Z :=
  match fuel with
  | O => []
  | S fuel => if from <? bound then from :: count_up fuel (from + step) step bound else []
  end.

(* src/enc/tight.c:234-235 and 505-506: the order of the tiles *)
Definition grid_jobs (gw gh : Z) : list job :=
  flat_map (fun y => map (fun x => (x, y)) (count_up (Z.to_nat gw) 0 1 gw)) (count_up (Z.to_nat gh) 0 1 gh).

(* src/enc/tight.c:437-438: the tiles worker [index] looks at *)
Definition worker_jobs (index gw gh : Z) : list job :=
  flat_map (fun y => map (fun x => (x, y)) (count_up (Z.to_nat gw) index 4 gw)) (count_up (Z.to_nat gh) 0 1 gh).

(* conversion to int16_t, src/enc/tight.c:236-241 *)
Definition int16 (v : Z) : Z := to_signed 16 (v mod 2 ^ 16).

(* pixman_region_contains_rectangle(damage, box) != PIXMAN_REGION_OUT,
   src/enc/tight.c:243-246, for a region of these boxes *)
Definition overlaps (damage : list box) (b : box) : bool :=
  existsb (fun d => (x1 d <? x2 b) && (x1 b <? x2 d) && (y1 d <? y2 b) && (y1 b <? y2 d)) damage.

(* src/enc/tight.c:236-241 *)
Definition tile_box (j : job) : box :=
  mk_box (int16 (fst j * TSL)) (int16 (snd j * TSL)) (int16 ((fst j + 1) * TSL)) (int16 ((snd j + 1) * TSL)).

(* src/enc/tight.c:257-264, tight_encode_size *)
Definition encode_size (dst : tvec) (size : Z) : res tvec :=
  let* dst := append_8 dst (Z.lor (Z.land size 127) (if size >=? 128 then 128 else 0)) in
  let* dst := if size >=? 128
              then append_8 dst (Z.lor (Z.land (size / 2 ^ 7) 127) (if size >=? 16384 then 128 else 0))
              else Ok dst in
  if size >=? 16384 then append_8 dst (Z.land (size / 2 ^ 14) 255) else Ok dst.

(* src/enc/tight.c:327-349, tight_get_jpeg_pixfmt; the TJPF constants by name,
   None for TJPF_UNKNOWN *)
Definition jpeg_pixfmt (f : Z) : option string :=
  if existsb (Z.eqb f) [fourcc "RA24"; fourcc "RX24"] then Some "XBGR"%string
  else if existsb (Z.eqb f) [fourcc "BA24"; fourcc "BX24"] then Some "XRGB"%string
  else if existsb (Z.eqb f) [fourcc "AR24"; fourcc "XR24"] then Some "BGRX"%string
  else if existsb (Z.eqb f) [fourcc "AB24"; fourcc "XB24"] then Some "RGBX"%string
  else if f =? fourcc "BG24" then Some "RGB"%string
  else if f =? fourcc "RG24" then Some "BGR"%string
  else None.

(* rfb_pixfmt_from_fourcc of DRM_FORMAT_XBGR8888 at src/enc/tight.c:304 *)
Definition xbgr8888 : pixfmt := mk_fmt 32 24 0 1 255 255 255 0 8 16.

(* what an encode call works on: the framebuffer with its stride and format, the
   client's format and quality; src/enc/tight.c:584-601, 571-582 *)
Record tframe := mk_tf {
  tf_fb : list Z; tf_stride : Z; tf_fourcc : Z; tf_src : pixfmt; tf_dst : pixfmt; tf_quality : Z }.

(* src/enc/tight.c:302-306: the format of the pixels sent *)
Definition cfmt (f : tframe) : pixfmt :=
  if calc_bytes_per_cpixel (tf_dst f) =? 3 then xbgr8888 else tf_dst f.

(* l[n] := v *)
(* src/enc/tight.c:130-134, a tile of the grid changes *)
Fixpoint set_nth {A} (l : list A) (n : nat) (v : A) : list A :=
  match l, n with
  | [], _ => []
  | _ :: l, O => v :: l
  | x :: l, S n => x :: set_nth l n v
  end.

Section Tight.
Variable zstate : Type.
(** deflate of one piece, with or without Z_SYNC_FLUSH *)
Variable deflate : zstate -> list Z -> bool -> zstate * list Z.
(** tjCompress2: format, quality, width, height and the pixels; None on failure *)
Variable tj : string -> Z -> Z -> Z -> list Z -> option (list Z).
(** HAVE_JPEG *)
Variable have_jpeg : bool.

(* src/enc/tight.c:61-87, struct tight_encoder *)
Record tenc := mk_te { te_w : Z; te_h : Z; te_gw : Z; te_gh : Z; te_grid : list ttile; te_zs : list zstate }.

(* src/enc/tight.c:169-187, tight_encoder_resize *)
Definition tight_resize (te : tenc) (w h : Z) : tenc :=
  if (te_w te =? w) && (te_h te =? h) then te
  else let gw := UDIV_UP w 64 in let gh := UDIV_UP h 64 in
       mk_te w h gw gh (repeat blank (Z.to_nat (gw * gh))) (te_zs te).

(* src/enc/tight.c:130-134, tight_tile *)
Definition tile_index (te : tenc) (j : job) : nat := Z.to_nat (fst j + snd j * te_gw te).

(* src/enc/tight.c:239, 408, 482: reading through tight_tile *)
Definition get_tile (te : tenc) (j : job) : res ttile :=
  match nth_error (te_grid te) (tile_index te j) with Some t => Ok t | None => Fault OobRead end.

(* src/enc/tight.c:248-250, 296, 355, 428, 500: writing through tight_tile *)
Definition set_tile (te : tenc) (j : job) (t : ttile) : tenc :=
  mk_te (te_w te) (te_h te) (te_gw te) (te_gh te) (set_nth (te_grid te) (tile_index te j) t) (te_zs te).

(* src/enc/tight.c:136-140, tight_tile_width *)
Definition tight_tile_width (te : tenc) (x : Z) : Z := if x + TSL >? te_w te then te_w te - x else TSL.
(* src/enc/tight.c:142-146, tight_tile_height *)
Definition tight_tile_height (te : tenc) (y : Z) : Z := if y + TSL >? te_h te then te_h te - y else TSL.

(* src/enc/tight.c:234-252: the loops over the tiles *)
Fixpoint damage_loop (jobs : list job) (te : tenc) (damage : list box) (n_damaged : Z) : res (tenc * Z) :=
  match jobs with
  | [] => Ok (te, n_damaged)
  | j :: jobs =>
      let* t := get_tile te j in
      if overlaps damage (tile_box j)
      then damage_loop jobs (set_tile te j (mk_tt Damaged (tt_type t) (tt_buf t))) damage (n_damaged + 1)
      else damage_loop jobs (set_tile te j (mk_tt Ready (tt_type t) (tt_buf t))) damage n_damaged
  end.

(* src/enc/tight.c:228-255, tight_apply_damage *)
Definition apply_damage (te : tenc) (damage : list box) : res (tenc * Z) :=
  damage_loop (grid_jobs (te_gw te) (te_gh te)) te damage 0.

(* src/enc/tight.c:266-289, tight_deflate: the buffer with the output behind it.
   The loop gives up when the buffer is full; the caller aborts (line 321). *)
Definition tight_deflate (buf : list Z) (src : list Z) (zs : zstate) (flush : bool) : res (zstate * list Z) :=
  let (zs, out) := deflate zs src flush in
  if zlen buf + zlen out <? MAX_TILE_SIZE then Ok (zs, buf ++ out) else Fault AssertFail.

(* src/enc/tight.c:313-322: the loop over the rows; row has TSL * 4 bytes (line 300) *)
Fixpoint basic_rows (h : nat) (f : tframe) (off byte_stride : Z) (width : nat) (zs : zstate) (buf : list Z)
  : res (zstate * list Z) :=
  match h with
  | O => Ok (zs, buf)
  | S h =>
      let* row := pixel_to_cpixel (calc_bytes_per_cpixel (tf_dst f)) (cfmt f) (tf_src f) (tf_fb f) off width in
      let* _ := put (repeat 0 (Z.to_nat (TSL * 4))) 0 row in
      let* r := tight_deflate buf row zs (match h with O => true | _ => false end) in
      basic_rows h f (off + byte_stride) byte_stride width (fst r) (snd r)
  end.

(* src/enc/tight.c:291-324, tight_encode_tile_basic: stream and buffer *)
Definition encode_tile_basic (f : tframe) (zs : zstate) (x y width height : Z) : res (zstate * list Z) :=
  let bpp := bits_per_pixel (tf_src f) / 8 in
  let byte_stride := tf_stride f * bpp in
  basic_rows (Z.to_nat height) f (x * bpp + y * byte_stride) byte_stride (Z.to_nat width) zs [].

(* src/enc/tight.c:351-402, tight_encode_tile_jpeg: the buffer; every failure
   leaves it empty (line 416) *)
Definition encode_tile_jpeg (f : tframe) (x y width height : Z) : res (list Z) :=
  match jpeg_pixfmt (tf_fourcc f) with
  | None => Ok []
  | Some tjfmt =>
      let bpp := bits_per_pixel (tf_src f) / 8 in
      let byte_stride := tf_stride f * bpp in
      let* img := copy_rows (Z.to_nat height) (tf_fb f) (x * bpp + y * byte_stride) byte_stride (width * bpp) in
      match tj tjfmt (11 * tf_quality f + 1) width height img with
      | None => Ok []
      | Some out => Ok (if zlen out >? MAX_TILE_SIZE then [] else out)
      end
  end.

(* src/enc/tight.c:405-429, tight_encode_tile *)
Definition tight_encode_tile (f : tframe) (te : tenc) (j : job) : res tenc :=
  let x := fst j * TSL in
  let y := snd j * TSL in
  let width := tight_tile_width te x in
  let height := tight_tile_height te y in
  if negb have_jpeg || (tf_quality f >=? 10) then
    let n := Z.to_nat (fst j mod 4) in
    match nth_error (te_zs te) n with
    | None => Fault OobRead
    | Some zs =>
        let* r := encode_tile_basic f zs x y width height in
        let te := mk_te (te_w te) (te_h te) (te_gw te) (te_gh te) (te_grid te) (set_nth (te_zs te) n (fst r)) in
        Ok (set_tile te j (mk_tt Encoded (TIGHT_STREAM (fst j mod 4)) (snd r)))
    end
  else
    let* buf := encode_tile_jpeg f x y width height in
    Ok (set_tile te j (mk_tt Encoded TIGHT_JPEG buf)).

(* src/enc/tight.c:439-440: a worker at one tile *)
Definition work_on (f : tframe) (te : tenc) (j : job) : res tenc :=
  let* t := get_tile te j in
  match tt_state t with
  | Damaged => tight_encode_tile f te j
  | _ => Ok te
  end.

(* src/enc/tight.c:431-441, do_tight_zs_work, the tiles in the order in which the
   workers get to them *)
Fixpoint work (f : tframe) (te : tenc) (jobs : list job) : res tenc :=
  match jobs with
  | [] => Ok te
  | j :: jobs => let* te := work_on f te j in work f te jobs
  end.

(* src/enc/tight.c:479-501, tight_finish_tile; RFB_ENCODING_TIGHT is 7 *)
Definition finish_tile (x_pos y_pos : Z) (te : tenc) (j : job) (t : ttile) (dst : tvec) : res (tenc * tvec) :=
  let x := fst j * TSL in
  let y := snd j * TSL in
  let dst := append dst (rect_head 7 (x_pos + x) (y_pos + y) (tight_tile_width te x) (tight_tile_height te y)) in
  let dst := append dst [tt_type t] in
  let* dst := encode_size dst (zlen (tt_buf t)) in
  let dst := append dst (tt_buf t) in
  Ok (set_tile te j (mk_tt Ready (tt_type t) (tt_buf t)), dst).

(* src/enc/tight.c:503-509, tight_finish: the loops over the tiles *)
Fixpoint finish_loop (x_pos y_pos : Z) (jobs : list job) (te : tenc) (dst : tvec) : res (tenc * tvec) :=
  match jobs with
  | [] => Ok (te, dst)
  | j :: jobs =>
      let* t := get_tile te j in
      match tt_state t with
      | Encoded =>
          let* r := finish_tile x_pos y_pos te j t dst in
          finish_loop x_pos y_pos jobs (fst r) (snd r)
      | _ => finish_loop x_pos y_pos jobs te dst
      end
  end.

(* src/enc/tight.c:584-623, tight_encoder_encode, and what its jobs do
   (431-455, 503-531), the workers getting to the tiles in the order [sched]:
   the encoder, the bytes and the number of rectangles *)
Definition tight_encode (te : tenc) (f : tframe) (x_pos y_pos w h : Z) (damage : list box) (sched : list job)
  : res (tenc * list Z * Z) :=
  let te := tight_resize te w h in
  let* d := apply_damage te damage in
  if snd d <=? 0 then Fault AssertFail
  else
    let* te := work f (fst d) sched in
    let* r := finish_loop x_pos y_pos (grid_jobs (te_gw te) (te_gh te)) te (mk_tv [] ((w * h * 4) mod 2 ^ 32)) in
    Ok (fst r, tdata (snd r), snd d).
End Tight.
Arguments mk_te {zstate}.
Arguments te_w {zstate}.
Arguments te_h {zstate}.
Arguments te_gw {zstate}.
Arguments te_gh {zstate}.
Arguments te_grid {zstate}.
Arguments te_zs {zstate}.
Arguments tile_index {zstate}.
Arguments get_tile {zstate}.
Arguments set_tile {zstate}.
Arguments tight_resize {zstate}.
Arguments tight_tile_width {zstate}.
Arguments tight_tile_height {zstate}.
Arguments damage_loop {zstate}.
Arguments apply_damage {zstate}.
Arguments finish_tile {zstate}.
Arguments finish_loop {zstate}.
Arguments work {zstate}.
Arguments work_on {zstate}.
Arguments tight_encode {zstate}.
