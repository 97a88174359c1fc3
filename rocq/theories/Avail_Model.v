(** Whether H.264 can be used: have_working_h264_encoder (src/server.c), with
    h264_encoder_create and h264_encoder_destroy (src/enc/h264/encoder.c).  Whether an
    implementation can make an encoder at some time is a parameter.  The encoders are seen
    from outside only; their insides are in H264_Model and V4l2_Model. *)
From Verif Require Import Common.

(* src/enc/h264/encoder.c:20-26 *)
Inductive impl := V4l2m2m | Ffmpeg.

(* width, height, format and quality, src/enc/h264/encoder.c:28-29 *)
Record params := mk_params { p_width : Z; p_height : Z; p_format : Z; p_quality : Z }.

(* the library as built, HAVE_V4L2 and HAVE_FFMPEG (src/enc/h264/encoder.c:33-45), and what
   the implementations can do as time goes by *)
Record world := mk_world { built : impl -> bool; works : impl -> nat -> params -> bool }.

(* src/enc/h264/encoder.c:28-48 *)
Definition h264_encoder_create (w : world) (now : nat) (p : params) : option impl :=
  if built w V4l2m2m && works w V4l2m2m now p then Some V4l2m2m
  else if built w Ffmpeg && works w Ffmpeg now p then Some Ffmpeg
  else None.

(* what is seen from outside; src/server.c:122-139, src/enc/h264/encoder.c:28-54 *)
Inductive event :=
| Tried (p : params) (got : option impl)    (* h264_encoder_create was called *)
| Freed (i : impl)                          (* an encoder was destroyed *)
| Answer (b : bool).                        (* what have_working_h264_encoder returned *)

(* the static variable of src/server.c:124, the encoders that exist and what happened, the
   latest first; src/server.c:122-139 *)
Record state := mk_state { cached_result : Z; alive : list impl; seen : list event }.

(* DRM_FORMAT_XRGB8888, src/server.c:131 *)
Definition XRGB8888 : Z := 875713112.

(* src/enc/h264/encoder.c:50-54 *)
Definition h264_encoder_destroy (e : option impl) (s : state) : state :=
  match e, alive s with
  | Some i, _ :: l => mk_state (cached_result s) l (Freed i :: seen s)
  | _, _ => s
  end.

(* src/enc/h264/encoder.c:28-48; the new encoder is put in front *)
Definition create (w : world) (now : nat) (p : params) (s : state) : state * option impl :=
  let e := h264_encoder_create w now p in
  (mk_state (cached_result s) (match e with Some i => i :: alive s | None => alive s end) (Tried p e :: seen s), e).

(* src/server.c:122-139 *)
Definition have_working_h264_encoder (w : world) (now : nat) (s : state) : state * bool :=
  if negb (cached_result s =? 0) then (s, cached_result s =? 1)
  else
    let '(s, e) := create w now (mk_params 1920 1080 XRGB8888 5) s in
    let s := mk_state (match e with Some _ => 1 | None => -1 end) (alive s) (seen s) in
    let s := h264_encoder_destroy e s in
    (s, cached_result s =? 1).

(* what goes on in the process: a client's encodings are looked at (src/server.c:2467), or an
   encoder is made for a client or destroyed (src/enc/h264/open-h264.c:127-128, 138-144) *)
Inductive op := Ask | Make (p : params) | Drop (n : nat).

(* src/server.c:2467; src/enc/h264/open-h264.c:127-128, 138-144 *)
Definition step (w : world) (now : nat) (a : op) (s : state) : state :=
  match a with
  | Ask => let '(s, b) := have_working_h264_encoder w now s in mk_state (cached_result s) (alive s) (Answer b :: seen s)
  | Make p => fst (create w now p s)
  | Drop n =>
      match nth_error (alive s) n with
      | Some i => mk_state (cached_result s) (firstn n (alive s) ++ skipn (S n) (alive s)) (Freed i :: seen s)
      | None => s
      end
  end.

(* the calls one after another, at times counted up; src/server.c:2467 *)
Fixpoint run (w : world) (now : nat) (l : list op) (s : state) : state :=
  match l with
  | [] => s
  | a :: l => run w (S now) l (step w now a s)
  end.

(* the process at its start, src/server.c:124 *)
Definition state0 : state := mk_state 0 [] [].
