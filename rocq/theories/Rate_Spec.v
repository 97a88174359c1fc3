(** What an application that picks the format with the highest rating relies on. *)
From Verif Require Import Common Pixels_Model Pixels_Spec Rate_Model.

(* fractions have positive denominators *)
Definition above (a b : fraction) : Prop := num a * den b > num b * den a.
Definition positive (a : fraction) : Prop := 0 < num a /\ 0 < den a.
Definition zero (a : fraction) : Prop := num a = 0 /\ 0 < den a.
Definition at_most_one (a : fraction) : Prop := num a <= den a.

(* formats by their names in drm_fourcc.h: colour bits of a pixel, and whether it has alpha *)
Definition formats : list (String.string * (Z * bool)) :=
  [("RA30", (30, true)); ("BA30", (30, true)); ("AR30", (30, true)); ("AB30", (30, true));
   ("RX30", (30, false)); ("BX30", (30, false)); ("XR30", (30, false)); ("XB30", (30, false));
   ("RA24", (24, true)); ("BA24", (24, true)); ("AR24", (24, true)); ("AB24", (24, true));
   ("RX24", (24, false)); ("BX24", (24, false)); ("XR24", (24, false)); ("XB24", (24, false));
   ("RG24", (24, false)); ("BG24", (24, false));
   ("RA12", (12, true)); ("BA12", (12, true)); ("AR12", (12, true)); ("AB12", (12, true));
   ("RX12", (12, false)); ("BX12", (12, false)); ("XR12", (12, false)); ("XB12", (12, false))]%string.

(* [format], little-endian, has [d] bits of colour and alpha if [a] *)
Definition has_format (format d : Z) (a : bool) : Prop :=
  exists name, In (name, (d, a)) formats /\ format = fourcc name.

(* bit 31 makes the big-endian twin *)
Definition twin (format : Z) : Z := format + 2 ^ 31.

(* linear, the three tilings of Intel, and AMD's without compression *)
Definition layout_ok (modifier : Z) : Prop :=
  modifier = 0 \/ modifier = 2 ^ 56 + 1 \/ modifier = 2 ^ 56 + 2 \/ modifier = 2 ^ 56 + 3 \/
  (modifier / 2 ^ 56 = 2 /\ Z.testbit modifier 13 = false /\ Z.testbit modifier 14 = false).

(* the most colours any client shows; without clients 24 bits *)
Definition deepest (clients : list pixfmt) (t : Z) : Prop :=
  (exists f, In f clients /\ 0 < rfb_pixfmt_depth f) /\ (exists f, In f clients /\ rfb_pixfmt_depth f = t) /\
    (forall f, In f clients -> rfb_pixfmt_depth f <= t)
  \/ (forall f, In f clients -> rfb_pixfmt_depth f <= 0) /\ t = 24.

(* first come formats that show all colours of the deepest client, the one with fewest
   bits first; then those that do not, the one with most bits first; of equal ones
   that without alpha *)
Definition preferred (t : Z) (f g : Z * bool) : Prop :=
  t <= fst f /\ fst g < t
  \/ t <= fst f < fst g
  \/ fst g < fst f < t
  \/ fst f = fst g /\ snd f = false /\ snd g = true.
(* for cursors only the depths matter *)
Definition preferred_cursor (t d e : Z) : Prop := t <= d /\ e < t \/ t <= d < e \/ e < d < t.

(* little- or big-endian *)
Definition known_format (format : Z) : Prop :=
  exists d a, has_format format d a \/ exists g, format = twin g /\ has_format g d a.

(* candidates for a buffer: format and modifier, with what is known of the format *)
Record candidate := mk_cand { c_format : Z; c_modifier : Z; c_depth : Z; c_alpha : bool }.
Definition candidate_ok (simple : bool) (c : candidate) : Prop :=
  has_format (c_format c) (c_depth c) (c_alpha c) /\ layout_ok (c_modifier c) /\ (simple = true -> c_modifier c = 0).
