(** Pixel formats and pixel conversion: src/pixels.c, calc_bytes_per_cpixel of
    src/enc/util.c and the SetPixelFormat handling of src/server.c.

    The host is little-endian.  assert() is taken as compiled in, as abort() is:
    both are [AssertFail].  A shift by 32 or more is [BadShift].  The colour map
    message is in Msg_Model, the rating of formats in Rate_Model, the pixman
    format table in Cursor_Model; the strings for logging are not modelled. *)
From Verif Require Import Common.

(* include/rfb-proto.h:171-183, struct rfb_pixel_format *)
Record pixfmt := mk_fmt {
  bits_per_pixel : Z; depth : Z; big_endian_flag : Z; true_colour_flag : Z;
  red_max : Z; green_max : Z; blue_max : Z;
  red_shift : Z; green_shift : Z; blue_shift : Z }.

(* src/pixels.c:25, POPCOUNT of a 16-bit value *)
Fixpoint popcount_bits (n : nat) (v : Z) : Z :=
  match n with O => 0 | S n => v mod 2 + popcount_bits n (v / 2) end.
(* src/pixels.c:25 *)
Definition popcount (v : Z) : Z := popcount_bits 16 v.

(* uint32_t << and >> as used in src/pixels.c:72-83 *)
Definition shl32 (a k : Z) : res Z := if k <? 32 then Ok ((a * 2 ^ k) mod 2 ^ 32) else Fault BadShift.
(* src/pixels.c:72-83 *)
Definition shr32 (a k : Z) : res Z := if k <? 32 then Ok (a / 2 ^ k) else Fault BadShift.

(* src/pixels.c:72-83 and 206-217, one line of CONVERT_PIXELS *)
Definition convert_channel (px src_shift src_max src_bits dst_bits dst_shift : Z) : res Z :=
  let* a := shr32 px src_shift in
  let* a := shl32 (Z.land a src_max) dst_bits in
  let* a := shr32 a src_bits in
  shl32 a dst_shift.

(* src/pixels.c:72-83 and 206-217, CONVERT_PIXELS; the destination shifts come
   separately since the 3-byte case changes them *)
Definition convert_pixel (dst src : pixfmt) (rs gs bs : Z) (px : Z) : res Z :=
  let* r := convert_channel px (red_shift src) (red_max src)
              (popcount (red_max src)) (popcount (red_max dst)) rs in
  let* g := convert_channel px (green_shift src) (green_max src)
              (popcount (green_max src)) (popcount (green_max dst)) gs in
  let* b := convert_channel px (blue_shift src) (blue_max src)
              (popcount (blue_max src)) (popcount (blue_max dst)) bs in
  Ok (Z.lor (Z.lor r g) b).

(* (cpx >> k) & 0xff, e.g. src/pixels.c:93 *)
Definition byte_at (cpx k : Z) : Z := Z.land (cpx / 2 ^ k) 255.

(* src/pixels.c:110-120 and 250-260 *)
Definition min_shift (dst : pixfmt) : Z :=
  if (bits_per_pixel dst =? 32) && (depth dst <=? 24) then
    let m := red_shift dst in
    let m := if m >? green_shift dst then green_shift dst else m in
    if m >? blue_shift dst then blue_shift dst else m
  else 0.

(* src/pixels.c:85-161 and 219-303: the body of the loop for one pixel value *)
Definition emit_pixel (n : Z) (dst src : pixfmt) (px : Z) : res (list Z) :=
  let big := negb (big_endian_flag dst =? 0) in
  let rs := red_shift dst in let gs := green_shift dst in let bs := blue_shift dst in
  match n with
  | 4 =>
      let* cpx := convert_pixel dst src rs gs bs px in
      Ok (if big then [byte_at cpx 24; byte_at cpx 16; byte_at cpx 8; byte_at cpx 0]
          else [byte_at cpx 0; byte_at cpx 8; byte_at cpx 16; byte_at cpx 24])
  | 3 =>
      let m := min_shift dst in
      let* cpx := convert_pixel dst src (rs - m) (gs - m) (bs - m) px in
      let corr := if big then 16 else 0 in
      Ok [byte_at cpx (Z.lxor 0 corr); byte_at cpx 8; byte_at cpx (Z.lxor 16 corr)]
  | 2 =>
      let* cpx := convert_pixel dst src rs gs bs px in
      let corr := if big then 8 else 0 in
      Ok [byte_at cpx (Z.lxor 0 corr); byte_at cpx (Z.lxor 8 corr)]
  | 1 =>
      let* cpx := convert_pixel dst src rs gs bs px in
      Ok [byte_at cpx 0]
  | _ => Fault AssertFail
  end.

(* the loops: [len] pixels of [step] bytes each, read from [src] *)
(* src/pixels.c:85-195 and 219-265 *)
Fixpoint emit_pixels (len : nat) (n step : Z) (dst src : pixfmt) (mem : list Z) (off : Z) : res (list Z) :=
  match len with
  | O => Ok []
  | S len =>
      let* bytes := get mem off step in
      let* out := emit_pixel n dst src (unle bytes) in
      let* rest := emit_pixels len n step dst src mem (off + step) in
      Ok (out ++ rest)
  end.

(* src/pixels.c:46-51 and 177-182 *)
Definition asserts (n : Z) (dst src : pixfmt) : bool :=
  negb (true_colour_flag src =? 0) && (depth src <=? 32) &&
  negb (true_colour_flag dst =? 0) && (bits_per_pixel dst <=? 32) && (depth dst <=? 32) &&
  (n <=? 4) && (n >=? 1).

(* src/pixels.c:40-164, pixel32_to_cpixel: the bytes written at dst *)
Definition pixel32_to_cpixel (n : Z) (dst src : pixfmt) (mem : list Z) (off : Z) (len : nat) :=
  if asserts n dst src then emit_pixels len n 4 dst src mem off else Fault AssertFail.

(* src/pixels.c:166-306, pixel_to_cpixel *)
Definition pixel_to_cpixel (n : Z) (dst src : pixfmt) (mem : list Z) (off : Z) (len : nat) : res (list Z) :=
  if bits_per_pixel src =? 32 then pixel32_to_cpixel n dst src mem off len
  else if asserts n dst src then emit_pixels len n (bits_per_pixel src / 8) dst src mem off
  else Fault AssertFail.

(* src/enc/util.c:43-47, calc_bytes_per_cpixel *)
Definition calc_bytes_per_cpixel (f : pixfmt) : Z :=
  if bits_per_pixel f =? 32 then (depth f + 8 - 1) / 8 else (bits_per_pixel f + 8 - 1) / 8.

(* libdrm drm_fourcc.h, fourcc_code *)
(* used throughout src/pixels.c:268-535 *)
Definition fourcc (s : String.string) : Z := unle (codes s).

(* src/pixels.c:310 and 420, DRM_FORMAT_BIG_ENDIAN is bit 31 *)
Definition BIG_ENDIAN : Z := 2 ^ 31.

(* src/pixels.c:309-425, rfb_pixfmt_from_fourcc; None for -1 *)
Definition layout_of_fourcc (src : Z) : option (Z * Z * Z * (Z * Z * Z)) :=
  let is n := Z.land src (Z.lnot BIG_ENDIAN) =? fourcc n in
  let bpp_32_10bit := (32, 30, 1023) in
  let bpp_32 := (32, 24, 255) in
  let bpp_24 := (24, 24, 255) in
  let bpp_16 := (16, 12, 127) in
  if is "RA30"%string || is "RX30"%string then Some ((22, 12, 2), bpp_32_10bit)
  else if is "BA30"%string || is "BX30"%string then Some ((2, 12, 22), bpp_32_10bit)
  else if is "AR30"%string || is "XR30"%string then Some ((20, 10, 0), bpp_32_10bit)
  else if is "AB30"%string || is "XB30"%string then Some ((0, 10, 20), bpp_32_10bit)
  else if is "RA24"%string || is "RX24"%string then Some ((24, 16, 8), bpp_32)
  else if is "BA24"%string || is "BX24"%string then Some ((8, 16, 24), bpp_32)
  else if is "AR24"%string || is "XR24"%string then Some ((16, 8, 0), bpp_32)
  else if is "AB24"%string || is "XB24"%string then Some ((0, 8, 16), bpp_32)
  else if is "BG24"%string then Some ((0, 8, 16), bpp_24)
  else if is "RG24"%string then Some ((16, 8, 0), bpp_24)
  else if is "RA12"%string || is "RX12"%string then Some ((12, 8, 4), bpp_16)
  else if is "BA12"%string || is "BX12"%string then Some ((4, 8, 12), bpp_16)
  else if is "AR12"%string || is "XR12"%string then Some ((8, 4, 0), bpp_16)
  else if is "AB12"%string || is "XB12"%string then Some ((0, 4, 8), bpp_16)
  else None.

(* src/pixels.c:418-425, the common tail *)
Definition pixfmt_from_fourcc (src : Z) : option pixfmt :=
  match layout_of_fourcc src with
  | Some ((rs, gs, bs), (bpp, dep, max)) =>
      Some (mk_fmt bpp dep (if Z.testbit src 31 then 1 else 0) 1 max max max rs gs bs)
  | None => None
  end.

(* src/pixels.c:427-462, pixel_size_from_fourcc *)
Definition pixel_size_from_fourcc (src : Z) : Z :=
  let is n := Z.land src (Z.lnot BIG_ENDIAN) =? fourcc n in
  if existsb is ["RA30"; "RX30"; "BA30"; "BX30"; "AR30"; "XR30"; "AB30"; "XB30";
                 "RA24"; "RX24"; "BA24"; "BX24"; "AR24"; "XR24"; "AB24"; "XB24"]%string then 4
  else if existsb is ["BG24"; "RG24"]%string then 3
  else if existsb is ["RA12"; "RX12"; "BA12"; "BX12"; "AR12"; "XR12"; "AB12"; "XB12"]%string then 2
  else 0.

(* src/pixels.c:537-560, extract_alpha_mask_rgba32 and _rgba16: one row of bits;
   [px] are the pixel values; the 16-bit version has alpha_max 15 *)
Fixpoint alpha_bits (px : list Z) (shift max : Z) (i : nat) (dst : list Z) : res (list Z) :=
  match px with
  | [] => Ok dst
  | p :: px =>
      let alpha := Z.land (p / 2 ^ shift) max mod 256 in
      let binary := if alpha >? max / 2 then 1 else 0 in
      let k := Z.of_nat i / 8 in
      let* old := get dst k 1 in
      let* dst := put dst k [Z.lor (hd 0 old) ((binary * 2 ^ (7 - Z.of_nat i mod 8)) mod 256)] in
      alpha_bits px shift max (S i) dst
  end.

(* src/pixels.c:563-610, extract_alpha_mask, little-endian branch: bytes per
   pixel, shift and maximum of the alpha channel *)
Definition alpha_layout (format : Z) : option (Z * Z * Z) :=
  let is n := Z.land format (Z.lnot BIG_ENDIAN) =? fourcc n in
  if is "RA30"%string || is "BA30"%string then Some (4, 0, 3)
  else if is "AR30"%string || is "AB30"%string then Some (4, 30, 3)
  else if is "RA24"%string || is "BA24"%string then Some (4, 0, 255)
  else if is "AR24"%string || is "AB24"%string then Some (4, 24, 255)
  else if is "RA12"%string || is "BA12"%string then Some (2, 0, 15)
  else if is "AR12"%string || is "AB12"%string then Some (2, 12, 15)
  else None.

(* src/pixels.c:562-610: [dst] is the destination block, [px] the pixel values;
   None in the result for false *)
Definition extract_alpha_mask (dst : list Z) (format : Z) (px : list Z) : res (list Z * bool) :=
  let* dst := put dst 0 (repeat 0 (Z.to_nat ((zlen px + 8 - 1) / 8))) in
  match alpha_layout format with
  | Some (_, shift, max) => let* dst := alpha_bits px shift max 0 dst in Ok (dst, true)
  | None => Ok (dst, false)
  end.

(* src/server.c:504-521, cook_pixel_map: the format set *)
Definition rgb332 : pixfmt := mk_fmt 8 8 0 1 7 7 3 5 2 0.

(* src/server.c:528-557, on_client_set_pixel_format: the 16 bytes of the format
   in the message; the reserved three bytes are dropped *)
Definition client_pixfmt (m : list Z) : pixfmt :=
  let b i := nth i m 0 in
  let f := mk_fmt (b 0%nat) (b 1%nat) (b 2%nat) (b 3%nat)
             (unbe [b 4%nat; b 5%nat]) (unbe [b 6%nat; b 7%nat]) (unbe [b 8%nat; b 9%nat])
             (b 10%nat) (b 11%nat) (b 12%nat) in
  if true_colour_flag f =? 0 then rgb332 else f.
