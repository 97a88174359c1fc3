(** The colours on a viewer's screen. *)
From Verif Require Import Common Pixels_Model Pixels_Spec Tight_Spec Msg_Model Wire_Spec Eye_Spec Eye2_Spec.

(** The colour of a pixel of value [v]: red, green, blue (RFC 6143 7.4). *)
Definition tint (p : pixfmt) (v : Z) : list Z :=
  [Z.land (v / 2 ^ red_shift p) (red_max p); Z.land (v / 2 ^ green_shift p) (green_max p);
   Z.land (v / 2 ^ blue_shift p) (blue_max p)].
Definition number (p : pixfmt) (c : list Z) : Z := if big_endian_flag p =? 0 then unle c else unbe c.

(** All colour bits are in the three low bytes. *)
Definition low (p : pixfmt) : bool :=
  (red_max p * 2 ^ red_shift p <? 2 ^ 24) && (green_max p * 2 ^ green_shift p <? 2 ^ 24) && (blue_max p * 2 ^ blue_shift p <? 2 ^ 24).

(** How the bytes [c] of a pixel in a rectangle of the encoding [kind] are read: RFC 6143
    7.7.1 for Raw, 7.7.5 for ZRLE (16; if three bytes of four are sent they are the low
    ones if all colours are in them, otherwise the high ones), and the description of
    Tight (7; red, green and blue if three bytes). *)
Definition tint_of (p : pixfmt) (kind : Z) (c : list Z) : list Z :=
  if (kind =? 7) && is_tpixel3 p then c
  else if (kind =? 16) && (bits_per_pixel p =? 32) && (zlen c =? 3) then
    tint p (if low p then number p c else 256 * number p c)
  else tint p (number p c).

Section Hues.
Variable istate : Type. (* zlib's, at the viewer *)
Variable inflate : istate -> list Z -> istate * list Z.
Variable p : pixfmt.

(** A viewer like that of Eye2_Spec.v that turns the bytes of each pixel into a colour
    when it draws it. *)
Definition hue_paint (csize : nat) (r : list Z) (s : view istate * display) : view istate * display :=
  let v := full_paint istate inflate (Z.to_nat (bits_per_pixel p / 8)) csize (Z.to_nat (tpixel_size p)) r (fst s) in
  let kind := to_signed 32 (field 4 8 r) in
  (v, fun a b =>
        if existsb (Z.eqb kind) [0; 7; 16] && inside r a b then option_map (tint_of p kind) (scr istate v a b) else snd s a b).

(** The colours on the screen after the messages [ms]. *)
Definition hues (st : istate) (ms : list (list Z)) : display :=
  snd (fold_left (draw (viewer_of p) (hue_paint (Z.to_nat (cpixel_size (bits_per_pixel p) (depth p) true))))
    ms (mk_view istate dark st [st; st; st; st], dark)).
End Hues.

(** A true-colour format of a client with these fields, for which it is clear how three
    bytes are chosen out of four (C25, C63). *)
Definition clear_format (p : pixfmt) (r g b : Pixels_Spec.field) : Prop :=
  has_fields p r g b /\ fields_ok (bits_per_pixel p) r g b /\ In (bits_per_pixel p) [8; 16; 32] /\ depth p <= 32 /\
  1 <= f_bits r /\ 1 <= f_bits g /\ 1 <= f_bits b /\
  (bits_per_pixel p = 32 -> 17 <= depth p /\
   (depth p <= 24 -> fits_low r g b /\ (f_shift r = 0 \/ f_shift g = 0 \/ f_shift b = 0) \/
                     ~ fits_low r g b /\ fits_high r g b /\ (f_shift r = 8 \/ f_shift g = 8 \/ f_shift b = 8))).

(** A format of a buffer. *)
Definition source_format (p : pixfmt) (r g b : Pixels_Spec.field) : Prop :=
  has_fields p r g b /\ fields_ok (bits_per_pixel p) r g b /\ In (bits_per_pixel p) [8; 16; 24; 32] /\ depth p <= 32.

(** Buffers of the DRM format [code] have pixels of [bits] bits with these fields, going by
    its name; not the formats of 16 bits (C24). *)
Definition drm_colours (code bits : Z) (r g b : Pixels_Spec.field) : Prop :=
  exists name layout, In (name, layout) drm_formats /\ code = fourcc name /\ drm_bits layout = bits /\ bits <> 16 /\
    drm_field R layout = Some r /\ drm_field G layout = Some g /\ drm_field B layout = Some b.
