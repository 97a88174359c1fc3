(** What is said about buffers in graphics memory. *)
From Verif Require Import Common Pixels_Model Gbm_Model.

(** The library knows the format. *)
Definition known (format : Z) : Prop := pixel_size_from_fourcc format <> 0.

(** The driver can map the buffer, whoever asks. *)
Definition mappable (a : act) : Prop :=
  match a with
  | Map _ answer | VTake answer | Refine answer _ _ | Resample answer _ _ => answer <> None
  | _ => True
  end.

(** When it does, each row begins [pitch] bytes after the previous one. *)
Definition pitched (pitch : Z) (a : act) : Prop :=
  match a with
  | Map _ answer | VTake answer | Refine answer _ _ | Resample answer _ _ => answer = Some pitch
  | _ => True
  end.

(** Somebody is about to map the buffer; somebody reads it. *)
Definition about_to_map (p : phase) : Prop := match p with Mapping | Storing _ => True | _ => False end.
Definition reads (p : phase) : Prop := match p with Mapped | InBox _ _ => True | _ => False end.

(** A step that disturbs others: looking for a mapping while somebody is about to make one;
    the V4L2 encoder giving back the buffer while somebody reads it or is about to. *)
Definition disturbs (w : world) (a : act) : Prop :=
  match a with
  | Begin _ | VTake _ | Refine _ _ _ | Resample _ _ _ => exists p, In p (w_works w) /\ about_to_map p
  | VGive => exists p, In p (w_works w) /\ (about_to_map p \/ reads p)
  | _ => False
  end.

Fixpoint undisturbed (w : world) (acts : list act) : Prop :=
  match acts with
  | [] => True
  | a :: acts => ~ disturbs w a /\ (forall w', step w a = Ok w' -> undisturbed w' acts)
  end.

(** No viewer is served by the V4L2 encoder. *)
Definition no_v4l2 (a : act) : Prop := match a with VTake _ | VGive => False | _ => True end.

(** No viewer is served by an encoder that reads pixels. *)
Definition no_readers (a : act) : Prop := match a with Begin _ => False | _ => True end.

(** Some viewer whose damage is refined is there whenever the buffer is fed. *)
Inductive fed_refined : list act -> Prop :=
| fr_nil : fed_refined []
| fr_feed : forall answer x y l, fed_refined l -> fed_refined (Refine answer x y :: Show :: l)
| fr_other : forall a l, a <> Show -> fed_refined l -> fed_refined (a :: l).

(** Where pixel (x, y) is in a mapping of such a buffer. *)
Definition position (pitch size x y : Z) : Z := y * pitch + x * size.
