(** What the viewer has to see of the buffers fed to the display. *)
From Verif Require Import Common Pixels_Model Msg_Model Mirror_Spec Refinery_Model Refinery_Spec Turn_Model Turn_Spec Feed_Model.

(** All buffers fed, newest first. *)
Definition all_fed (before : list Turn_Model.frame) (hs : list happening) : list Turn_Model.frame :=
  fold_left (fun fs h => match h with Fed f => f :: fs | Else _ => fs end) hs before.

(** The application uses the display as it should: usable buffers of one pixel format, true
    damage, no turning of buffers of the same size; and the hash tells their tiles apart. *)
Definition well_fed (xxh : list Z -> Z) (src : pixfmt) (fs : list Turn_Model.frame) : Prop :=
  Forall usable fs /\ every honest fs /\ every Turn_Spec.steady fs /\ tells_apart xxh fs /\
  Forall (fun f => pixfmt_from_fourcc (fr_format f) = Some src) fs.

(** What the display's buffer shows at first is the newest of the buffers fed before. *)
Definition shows (before : list Turn_Model.frame) (P : Mirror_Spec.picture (list Z)) : Prop :=
  match before with
  | f :: _ => forall x y, inside f x y -> P x y = snd (pixel f x y)
  | [] => True
  end.
