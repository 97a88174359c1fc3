(** Where in the received bytes a frame begins. *)
From Verif Require Import Common Ws_Spec.

(** Whole frames, one after the other. *)
Inductive whole_frames : list Z -> Prop :=
| wf_none : whole_frames []
| wf_one f b l : valid_header f -> zlen b = h_len f -> whole_frames l -> whole_frames (header_bytes f ++ b ++ l).

(** The received bytes [l] are the rest of the payload being read ([left] bytes),
    whole frames, and a frame that is a ping (or continues one) announcing more
    than 4082 bytes, with the buffer nearly full of it.  RFC 6455 allows a ping
    125. *)
Definition long_ping (left current : Z) (l : list Z) : Prop :=
  exists payload frames f rest,
    l = payload ++ frames ++ header_bytes f ++ rest /\
    zlen payload = left /\ whole_frames frames /\ valid_header f /\
    (h_opcode f = 9 \/ h_opcode f = 0 /\ current = 9) /\
    4096 < zlen (header_bytes f) + Z.min (zlen (header_bytes f ++ rest)) (h_len f) /\ 4082 < h_len f.
