(** A client that answers each ping once, in order, with what it was sent. *)
From Verif Require Import Common Bwe_Model Bwe_Spec Pace_Model.

Inductive pace_event :=
| Handshake (now : Z)          (* a message of the handshake *)
| Frame (size now : Z)         (* a frame was sent, with a ping *)
| Answer (now : Z).            (* the answer to the oldest ping that has none *)

(* pings without an answer: when they were sent, of which size *)
Definition outstanding := list (Z * Z).

(* what the server makes of it *)
Definition honest_step (s : pace) (o : outstanding) (ev : pace_event) : res (pace * outstanding) :=
  match ev with
  | Handshake now => let* s := update_min_rtt s now in Ok (s, o)
  | Frame size now => Ok (fst (send_ping s size now), o ++ [(now, size)])
  | Answer now =>
      match o with
      | [] => Ok (s, o)
      | (sent, size) :: o => let* r := fence_answered s now (sent mod 2 ^ 32) size 8 in Ok (fst r, o)
      end
  end.
Fixpoint honest_run (s : pace) (o : outstanding) (evs : list pace_event) : res (pace * outstanding) :=
  match evs with
  | [] => Ok (s, o)
  | ev :: evs => let* r := honest_step s o ev in honest_run (fst r) (snd r) evs
  end.

Definition unanswered (o : outstanding) : Z := fold_right (fun x t => snd x + t) 0 o.

(* sizes of frames are positive, what is unanswered stays below 2^31 - 17, and every
   answer comes within 2^31 microseconds (35 minutes); so does every message of the
   handshake, counted from the one before it, which came at [last] *)
Fixpoint timely (last : Z) (o : outstanding) (evs : list pace_event) : Prop :=
  match evs with
  | [] => True
  | Handshake now :: evs => last <= now < last + 2 ^ 31 /\ timely now o evs
  | Frame size now :: evs => 0 < size /\ unanswered o + size < 2 ^ 31 - 17 /\ timely last (o ++ [(now, size)]) evs
  | Answer now :: evs =>
      match o with
      | [] => timely last [] evs
      | (sent, _) :: o => sent <= now < sent + 2 ^ 31 /\ timely last o evs
      end
  end.

(* the round trips measured: from one message of the handshake to the next, the first
   counted from [last], and from a ping to its answer *)
Fixpoint trips (last : Z) (o : outstanding) (evs : list pace_event) : list Z :=
  match evs with
  | [] => []
  | Handshake now :: evs => now - last :: trips now o evs
  | Frame size now :: evs => trips last (o ++ [(now, size)]) evs
  | Answer now :: evs =>
      match o with
      | [] => trips last [] evs
      | (sent, _) :: o => now - sent :: trips last o evs
      end
  end.

(* more than [rtt] microseconds' worth of [bandwidth] bytes per second, to the nearest byte *)
Definition more_than (bytes bandwidth microseconds : Z) : Prop := 1000000 * bytes > bandwidth * microseconds.

(* no more frames: what the limit says now it says whatever the client answers *)
Definition stalled (s : pace) (o : outstanding) : Prop :=
  o = [] /\ limited s = Ok true /\ forall times, honest_run s o (map Answer times) = Ok (s, o).

(* the clock's lower half, as a signed number, goes from 2^31 - 1 to - 2^31 between the two times *)
Definition sign_changes (sent now : Z) : Prop := sent mod 2 ^ 32 < 2 ^ 31 <= now mod 2 ^ 32.
