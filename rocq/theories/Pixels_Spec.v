(** True-colour pixels as RFC 6143 sections 7.4 and 7.7.6 describe them,
    independent of the code. *)
From Verif Require Import Common Pixels_Model.

(** A channel is a field of [bits] bits at [shift]. *)
Record field := mk_field { f_shift : Z; f_bits : Z }.

(** [has_fields f r g b]: the format has true colour and these three fields. *)
Definition has_fields (f : pixfmt) (r g b : field) : Prop :=
  true_colour_flag f <> 0 /\
  red_max f = 2 ^ f_bits r - 1 /\ red_shift f = f_shift r /\
  green_max f = 2 ^ f_bits g - 1 /\ green_shift f = f_shift g /\
  blue_max f = 2 ^ f_bits b - 1 /\ blue_shift f = f_shift b.

Definition apart (a b : field) : Prop :=
  f_shift a + f_bits a <= f_shift b \/ f_shift b + f_bits b <= f_shift a.

Definition inside (n : Z) (a : field) : Prop :=
  0 <= f_bits a <= 16 /\ 0 <= f_shift a < n /\ f_shift a + f_bits a <= n.

(** Three fields that do not overlap, in a pixel of [n] bits. *)
Definition fields_ok (n : Z) (r g b : field) : Prop :=
  inside n r /\ inside n g /\ inside n b /\ apart r g /\ apart r b /\ apart g b.

(** The value of a channel in a pixel value. *)
Definition channel (a : field) (v : Z) : Z := (v / 2 ^ f_shift a) mod 2 ^ f_bits a.

(** Bringing a channel value from one width to another. *)
Definition rescale (from to : field) (x : Z) : Z := x * 2 ^ f_bits to / 2 ^ f_bits from.

(** The pixel with the given channel values and all other bits clear. *)
Definition compose (r g b : field) (x y z : Z) : Z :=
  x * 2 ^ f_shift r + y * 2 ^ f_shift g + z * 2 ^ f_shift b.

(** Bytes of a pixel in the byte order of the format. *)
Definition pixel_bytes (f : pixfmt) (n : nat) (v : Z) : list Z :=
  if big_endian_flag f =? 0 then le n v else be n v.

(** Size of a CPIXEL, RFC 6143 7.7.5: a pixel, except that with 32 bits per
    pixel, depth 24 or less and all colour bits in the low three or the high
    three bytes only those three are sent. *)
Definition fits_low (r g b : field) : Prop := inside 24 r /\ inside 24 g /\ inside 24 b.
Definition fits_high (r g b : field) : Prop :=
  8 <= f_shift r /\ 8 <= f_shift g /\ 8 <= f_shift b.

Definition cpixel_size (bpp dep : Z) (fits : bool) : Z :=
  if (bpp =? 32) && (dep <=? 24) && fits then 3 else bpp / 8.

(** The field layouts of the DRM formats by their names: letters from the most
    significant bits down, with widths. *)
Inductive letter := R | G | B | A | X.

Fixpoint drm_bits (l : list (letter * Z)) : Z :=
  match l with [] => 0 | (_, w) :: l => w + drm_bits l end.

Fixpoint drm_field (c : letter) (l : list (letter * Z)) : option field :=
  match l with
  | [] => None
  | (c', w) :: l =>
      match c, c' with
      | R, R | G, G | B, B | A, A | X, X => Some (mk_field (drm_bits l) w)
      | _, _ => drm_field c l
      end
  end.

(** drm_fourcc.h of libdrm, for the formats with three colour channels. *)
Definition drm_formats : list (String.string * list (letter * Z)) :=
  let four a b c d w x y z := [(a, w); (b, x); (c, y); (d, z)] in
  [ ("RA30", four R G B A 10 10 10 2); ("RX30", four R G B X 10 10 10 2);
    ("BA30", four B G R A 10 10 10 2); ("BX30", four B G R X 10 10 10 2);
    ("AR30", four A R G B 2 10 10 10); ("XR30", four X R G B 2 10 10 10);
    ("AB30", four A B G R 2 10 10 10); ("XB30", four X B G R 2 10 10 10);
    ("RA24", four R G B A 8 8 8 8); ("RX24", four R G B X 8 8 8 8);
    ("BA24", four B G R A 8 8 8 8); ("BX24", four B G R X 8 8 8 8);
    ("AR24", four A R G B 8 8 8 8); ("XR24", four X R G B 8 8 8 8);
    ("AB24", four A B G R 8 8 8 8); ("XB24", four X B G R 8 8 8 8);
    ("RG24", [(R, 8); (G, 8); (B, 8)]); ("BG24", [(B, 8); (G, 8); (R, 8)]);
    ("RA12", four R G B A 4 4 4 4); ("RX12", four R G B X 4 4 4 4);
    ("BA12", four B G R A 4 4 4 4); ("BX12", four B G R X 4 4 4 4);
    ("AR12", four A R G B 4 4 4 4); ("XR12", four X R G B 4 4 4 4);
    ("AB12", four A B G R 4 4 4 4); ("XB12", four X B G R 4 4 4 4);
    ("RG16", [(R, 5); (G, 6); (B, 5)]); ("BG16", [(B, 5); (G, 6); (R, 5)]) ]%string.

(** Bit [j] of a bitmap, most significant bit first. *)
Definition bitmap (m : list Z) (j : Z) : bool :=
  Z.testbit (nth (Z.to_nat (j / 8)) m 0) (7 - j mod 8).
