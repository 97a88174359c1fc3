(** Framebuffer updates as seen from outside: counting requests and frames in
    what the client and the application observe, and damaged pixels.  Nothing
    here uses the model's functions. *)
From Verif Require Import Common Msg_Model.

(** How many of the events satisfy [p]. *)
Definition count (p : out -> bool) (l : list out) : Z := Z.of_nat (length (filter p l)).

(** a FramebufferUpdateRequest that took effect *)
Definition is_request (o : out) : bool := match o with FbReq _ _ _ _ _ => true | _ => false end.
(** a frame given to the encoder, which accepted it *)
Definition is_frame (o : out) : bool := match o with Encode _ _ _ ok => ok | _ => false end.
(** a frame that was encoded but thrown away *)
Definition is_drop (o : out) : bool := match o with Dropped => true | _ => false end.
(** an update that has no frame in it (key support, cursor, LED state), or the
    attempt to make one *)
Definition is_reply (o : out) : bool :=
  match o with
  | Update KExt _ | Update KCursor _ | Update KLed _ | CursorFailed => true
  | _ => false
  end.
Definition is_cu_on (o : out) : bool := match o with CuMode b => b | _ => false end.
Definition is_fence (o : out) : bool := match o with FenceReq _ _ => true | _ => false end.

(** Is a frame in flight after these events?  None as soon as one was given to the
    encoder while another was in flight, or one completed that was not. *)
Definition flight (s : option bool) (o : out) : option bool :=
  match o, s with
  | Encode _ _ _ ok, Some false => Some ok
  | Encode _ _ _ _, _ => None
  | Completed, Some true => Some false
  | Completed, _ => None
  | _, _ => s
  end.
Definition in_flight (l : list out) : option bool := fold_left flight l (Some false).

(** The pixel x, y belongs to the region. *)
Definition covers (r : region) (x y : Z) : Prop :=
  Exists (fun b => let '(x1, y1, x2, y2) := b in x1 <= x < x2 /\ y1 <= y < y2) r.

(** The pixel was in a region given to the encoder. *)
Definition encoded (l : list out) (x y : Z) : Prop :=
  exists r w h ok, In (Encode r w h ok) l /\ covers r x y.

(** A buffer that has the pixel and is not larger than 32767 either way. *)
Definition holds (x y : Z) (f : fb) : Prop :=
  0 <= x < fb_w f /\ 0 <= y < fb_h f /\ fb_w f <= 32767 /\ fb_h f <= 32767.

Definition input_holds (x y : Z) (i : input) : Prop :=
  match i with IDamage f _ => holds x y f | _ => True end.
