(** Terms for the theorems about V4L2 devices. *)
From Verif Require Import Common H264_Model V4l2_Model.

(** How many of the encoder's buffers contain framebuffer [id]. *)
Definition buffered (id : nat) (l : list src_buf) : Z :=
  fold_right (fun s n => match s with (_, Some f) => if Nat.eqb (f_id f) id then n + 1 else n | _ => n end) 0 l.

(** The frames given to the encoder, from callbacks too. *)
Definition callback_frames (l : list (list Z * callback)) : list frame :=
  flat_map (fun e => match snd e with Some (f, _, _) => [f] | None => [] end) l.
Definition all_frames (l : list vop) : list frame :=
  flat_map (fun a => match a with VEncode f _ _ => [f] | VEvents e => callback_frames e end) l.

Definition real_size (f : frame) : Prop := 0 < f_width f.
Definition same_geometry (g f : frame) : Prop :=
  f_width f = f_width g /\ f_height f = f_height g /\ f_format f = f_format g.
