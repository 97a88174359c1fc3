(** Images of cursors, by the names of their formats. *)
From Coq Require Import String.
From Verif Require Import Common Pixels_Model Pixels_Spec Fb_Model Transform_Model Cursor_Model.

(** A format of 32 bits with alpha and these fields. *)
Definition alpha_colours (name : string) (a r g b : Pixels_Spec.field) : Prop :=
  exists layout, In (name, layout) drm_formats /\ drm_bits layout = 32 /\
    drm_field A layout = Some a /\ drm_field R layout = Some r /\ drm_field G layout = Some g /\ drm_field B layout = Some b.

(** Images that need no turning, or that are not too large and in a format that pixman has
    too (it has none with alpha last and ten bits per colour). *)
Definition can_be_turned (name : string) (i : image) : Prop :=
  im_transform i = Normal \/
  (In name ["AR24"; "AB24"; "RA24"; "BA24"; "AR30"; "AB30"]%string /\ im_w i <= 32767 /\ im_h i <= 32767).
