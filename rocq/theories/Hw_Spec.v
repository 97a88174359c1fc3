(** What the hardware encoder's life and frames should be like. *)
From Verif Require Import Common Hw_Model.

(** The first device that has a render node. *)
Fixpoint first_node (devices : list device) : option (list Z) :=
  match devices with
  | [] => None
  | Some path :: _ => Some path
  | None :: devices => first_node devices
  end.
(** Paths are C strings. *)
Definition paths_ok (devices : list device) : Prop := Forall (fun d => match d with Some p => Forall (fun c => c <> 0) p | None => True end) devices.

(** Nothing is held any more. *)
Definition given_back (k : kit) : Prop :=
  k_self k = false /\ k_packet k = false /\ k_work k = false /\ k_dev k = 0%nat /\ k_frames k = 0%nat /\
  k_graph k = None /\ k_codec k = false.

(** The libraries' answers with the codec context allocated and opened. *)
Definition codec_opens (L : lib) : lib :=
  mk_lib (l_self L) (l_packet L) (l_work L) (l_devices L) (l_device L) (l_format L) (l_find L) (l_frames L) (l_frames_init L)
    (l_graph L) (l_source L) (l_params L) (l_params_set L) (l_sink L) (l_inputs L) (l_outputs L) (l_parse L) (l_filters L)
    (l_config L) true (l_sink_frames L) true.

(** The codec is the only thing that does not work. *)
Definition only_codec_fails (L : lib) : Prop :=
  (exists k, create (codec_opens L) = Ok (true, k)) /\ l_sink_frames L = true /\ l_codec L && l_open L = false.

(** What the attempts that failed have left, and how many of them keep a device open. *)
Fixpoint leftovers (l : list lib) : list kit :=
  match l with
  | [] => []
  | L :: l => match create L with Ok (false, k) => [k] | _ => [] end ++ leftovers l
  end.
Definition open_devices (l : list kit) : nat := length (filter (fun k => (0 <? k_dev k)%nat) l).

(** How often [fd] was opened and closed. *)
Definition opened (fd : Z) (ev : list event) : nat := length (filter (fun e => match e with Opened g => g =? fd | _ => false end) ev).
Definition closed (fd : Z) (ev : list event) : nat := length (filter (fun e => match e with Closed g => g =? fd | _ => false end) ev).

(** What the codec gave for a frame, if it got so far. *)
Definition codec_gave (A : answers) : list Z :=
  if (a_add A =? 0) && a_alloc A && (a_get A =? 0) && (a_send A =? 0) then concat (a_packets A) else [].
