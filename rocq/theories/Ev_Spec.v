(** What a client and an application expect of input events, pixel formats,
    continuous updates, resizing and time messages; for the statements in Ev_Props.v.
    The message layouts are in Msg2_Spec.v. *)
From Verif Require Import Common Pixels_Model Msg_Model Msg2_Spec Upd_Spec.

(** ** Events for the application *)

(** A key goes up or down, the pointer moves, an update is asked for. *)
Inductive event : Type :=
| Key (sym down p1 p2 : Z)
| Mouse (buttons x y : Z)
| Ask (inc x y w h : Z).
Definition good_event (e : event) : Prop :=
  match e with
  | Key sym down _ _ => 0 <= sym < 2 ^ 32
  | Mouse _ x y => 0 <= x < 2 ^ 16 /\ 0 <= y < 2 ^ 16
  | Ask _ x y w h => 0 <= x < 2 ^ 16 /\ 0 <= y < 2 ^ 16 /\ 0 <= w < 2 ^ 16 /\ 0 <= h < 2 ^ 16
  end.
(** as a message *)
Definition wire (e : event) : list Z :=
  match e with
  | Key sym down p1 p2 => key_msg down p1 p2 sym
  | Mouse buttons x y => pointer_msg buttons x y
  | Ask inc x y w h => update_request_msg inc x y w h
  end.
(** the callback it should cause *)
Definition callback (e : event) : out :=
  match e with
  | Key sym down _ _ => KeySym sym (negb (down =? 0))
  | Mouse buttons x y => Pointer x y buttons
  | Ask inc x y w h => FbReq inc x y w h
  end.
(** all callbacks of the application in a log *)
Definition is_callback (o : out) : bool :=
  match o with
  | FbReq _ _ _ _ _ | KeySym _ _ | KeyCode _ _ | Pointer _ _ _ | CutText _ | AskLayout _ _ _ => true
  | _ => false
  end.
Definition callbacks (l : list out) : list out := filter is_callback l.

(** ** Pixel formats *)

Definition byte (z : Z) : Prop := 0 <= z < 2 ^ 8.
Definition short (z : Z) : Prop := 0 <= z < 2 ^ 16.
(** A SetPixelFormat message with its padding. *)
Definition pixel_format_msg (p1 p2 p3 : Z) (f : pixfmt) (q1 q2 q3 : Z) : list Z :=
  [0; p1; p2; p3; bits_per_pixel f; depth f; big_endian_flag f; true_colour_flag f] ++
  be 2 (red_max f) ++ be 2 (green_max f) ++ be 2 (blue_max f) ++
  [red_shift f; green_shift f; blue_shift f; q1; q2; q3].
Definition good_format (f : pixfmt) : Prop :=
  short (red_max f) /\ short (green_max f) /\ short (blue_max f).

(** [nearest v max i]: [v] is the 16-bit intensity closest to [i] out of [max]. *)
Definition nearest (v max i : Z) : Prop := 2 * Z.abs (v * max - 65535 * i) <= max.
(** The colour map message [m] gives index [i] the intensities [r], [g], [b]. *)
Definition map_entry (m : list Z) (i r g b : Z) : Prop :=
  get m (6 + 6 * i) 6 = Ok (be 2 r ++ be 2 g ++ be 2 b).

(** ** What is owed *)

(** Coordinates of a request are kept in 16 bits. *)
Definition within (x w p : Z) : Prop := (p - x) mod 2 ^ 16 < w mod 2 ^ 16.
(** The pixel was asked for in full by a request in the log. *)
Definition requested (l : list out) (px py : Z) : Prop :=
  exists x y w h, In (FbReq 0 x y w h) l /\ within x w px /\ within y h py.

(** Frames sent in a log. *)
Definition sent_frame (l : list out) : Prop := exists b, In (Update KFrame b) l.

(** ** Continuous updates *)

(** EndOfContinuousUpdates, which also announces the extension *)
Definition is_cu_end (o : out) : bool := match o with Sent [150] => true | _ => false end.
(** the client switches continuous updates off *)
Definition is_cu_off (o : out) : bool := match o with CuMode false => true | _ => false end.
Definition touches (r : region) (x y w h : Z) : Prop :=
  exists px py, covers r px py /\ x <= px < x + w /\ y <= py < y + h.

(** ** Sizes *)

(** The rectangle that tells a client the size: extended desktop size with one
    screen, or desktop size. *)
Definition size_rect (ext : bool) (w h : Z) : list Z :=
  be 2 0 ++ be 2 0 ++ be 2 w ++ be 2 h ++ be 4 ((if ext then -308 else -223) mod 2 ^ 32) ++
  (if ext then [1; 0; 0; 0] ++ be 4 0 ++ be 2 0 ++ be 2 0 ++ be 2 w ++ be 2 h ++ be 4 0 else []).
(** the time stamp rectangle *)
Definition time_rect (t : Z) : list Z :=
  be 2 0 ++ be 2 0 ++ be 2 0 ++ be 2 0 ++ be 4 (-1000 mod 2 ^ 32) ++ be 8 t.

(** Nothing was given to the encoder and no frame completed. *)
Definition still (l : list out) : Prop :=
  Forall (fun o => match o with Encode _ _ _ _ | Completed => False | _ => True end) l.

(** A frame can be sent to the client: it is connected, and either nothing changed
    while the frame was made or it supports fences (-312). *)
Definition sendable (c : client) : Prop := closed c = false /\ (fmt_changed c = false \/ In (-312) (encs c)).
(** the time stamp a frame comes with, if the client wants it (-1000) *)
Definition stamp (c : client) (f : frame) : list Z :=
  match f_pts f with Some t => if existsb (Z.eqb (-1000)) (encs c) then time_rect t else [] | None => [] end.
Definition stamps (c : client) (f : frame) : Z := match stamp c f with [] => 0 | _ => 1 end.
(** frames of this size *)
Definition same_size (w h : Z) (i : input) : Prop :=
  match i with IEncoded f => f_w f = w /\ f_h f = h | _ => True end.

(** No region was given to the encoder. *)
Definition nothing_encoded (l : list out) : Prop := ~ exists r w h ok, In (Encode r w h ok) l.

(** ** Time *)

(** EnableContinuousUpdates *)
Definition enable_cu_msg (on x y w h : Z) : list Z := [150; on] ++ be 2 x ++ be 2 y ++ be 2 w ++ be 2 h.
