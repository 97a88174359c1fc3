(** What a WebSocket byte stream means, independent of the model. *)
From Verif Require Import Common Ws_Spec.

(** A data frame as the client sends it. *)
Record frame := Frame { f_head : frame_header; f_data : list Z }.

Definition body (f : frame) : list Z :=
  match h_key (f_head f) with None => f_data f | Some k => masked k (f_data f) end.

Definition frame_bytes (f : frame) : list Z := header_bytes (f_head f) ++ body f.

Definition valid_frame (f : frame) : Prop :=
  valid_header (f_head f) /\ h_len (f_head f) = zlen (f_data f).

(** Non-empty binary frames and their continuations, starting with a binary
    frame. *)
Definition binary_stream (fs : list frame) : Prop :=
  Forall valid_frame fs /\
  Forall (fun f => (h_opcode (f_head f) = 2 \/ h_opcode (f_head f) = 0) /\ f_data f <> []) fs /\
  match fs with [] => True | f :: _ => h_opcode (f_head f) = 2 end.

Definition wire (fs : list frame) : list Z := concat (map frame_bytes fs).
Definition data (fs : list frame) : list Z := concat (map f_data fs).

(** [cut_point fs pos before]: position [pos] of the wire image of [fs] is a
    place where the stream may be cut: between two frames, or inside the payload
    of one, then after a multiple of four bytes if that frame is masked.
    [before] is the application data in front of it. *)
Inductive cut_point (fs : list frame) : Z -> list Z -> Prop :=
| cut_between : forall a b, fs = a ++ b -> cut_point fs (zlen (wire a)) (data a)
| cut_inside : forall a f b k, fs = a ++ f :: b -> (k <= length (f_data f))%nat ->
    (h_key (f_head f) = None \/ (k mod 4 = 0)%nat) ->
    cut_point fs (zlen (wire a) + zlen (header_bytes (f_head f)) + Z.of_nat k)
                 (data a ++ firstn k (f_data f)).
