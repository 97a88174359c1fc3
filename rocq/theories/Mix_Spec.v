(** What a viewer in a browser can read, and what it sends.  RFC 6455, sections 5.1 to 5.6. *)
From Verif Require Import Common.
From Verif Require Import Ws_Spec WsStream_Spec.

(** A frame that may follow a complete message from the server: not masked, no bits that an
    extension would define, and a text or binary message or a whole control frame. *)
Definition acceptable (f : frame) : Prop :=
  valid_frame f /\ h_key (f_head f) = None /\ h_rsv (f_head f) = 0 /\
  (h_opcode (f_head f) = 1 \/ h_opcode (f_head f) = 2 \/
   (h_opcode (f_head f) = 8 \/ h_opcode (f_head f) = 9 \/ h_opcode (f_head f) = 10) /\ h_fin (f_head f) = true).

(** Something has arrived, and whatever comes next it is not the start of such a frame; the
    viewer has to fail the connection. *)
Definition unreadable (w : list Z) : Prop :=
  w <> [] /\ forall more f rest, acceptable f -> w ++ more <> frame_bytes f ++ rest.

(** The bytes are frames that may come one after the other and hold the data. *)
Definition readable_as (w d : list Z) : Prop :=
  exists fs, Forall acceptable fs /\ Forall (fun f => h_fin (f_head f) = true) fs /\ wire fs = w /\ data fs = d.
