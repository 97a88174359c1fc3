(** Frames of the Raw, ZRLE and Tight encoders in one session. *)
From Verif Require Import Common Pixels_Model Zrle_Model Zrle_Spec Raw_Model Tight_Model Tight_Spec
  Msg_Model Upd_Spec Mirror_Spec Eye_Spec Eye2_Spec.

(** The bytes [c] are the pixel [q], converted to the client's format, in the form one of
    the three encodings has for it. *)
Definition pixel_form (dst src : pixfmt) (q c : list Z) : Prop :=
  pixel_to_cpixel (bits_per_pixel dst / 8) dst src q 0 1 = Ok c \/
  pixel_to_cpixel (calc_bytes_per_cpixel dst) dst src q 0 1 = Ok c \/
  tpixel dst src q = Ok c.

(** A frame of any of the three; the client keeps its ZRLE and its Tight encoder while
    another is in use (C139). *)
Definition any_frame (zstate : Type) (deflate : zstate -> list Z -> bool -> zstate * list Z) (dst src : pixfmt)
    (e : zstate * tenc zstate) (r : region) (Q : Mirror_Spec.picture (list Z)) (f : frame) (e' : zstate * tenc zstate) : Prop :=
  raw_frame dst src r Q f /\ e' = e \/
  zrle_frame zstate deflate dst src (fst e) r Q f (fst e') /\ snd e' = snd e \/
  tight_frame zstate deflate dst src (snd e) r Q f (snd e') /\ fst e' = fst e.
