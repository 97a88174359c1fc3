(** What H.264 updates are meant to be, without the encoder's inner workings. *)
From Verif Require Import Common H264_Model.

(** One rectangle in the Open H.264 encoding: position, size, encoding 50, the length of
    the data, flags, the data. *)
Definition read_h264 (l : list Z) : option (Z * Z * Z * Z * Z * list Z) :=
  match l with
  | x1 :: x0 :: y1 :: y0 :: w1 :: w0 :: h1 :: h0 :: 0 :: 0 :: 0 :: 50 ::
    n3 :: n2 :: n1 :: n0 :: f3 :: f2 :: f1 :: f0 :: data =>
      if unbe [n3; n2; n1; n0] =? zlen data
      then Some (unbe [x1; x0], unbe [y1; y0], unbe [w1; w0], unbe [h1; h0], unbe [f3; f2; f1; f0], data)
      else None
  | _ => None
  end.

(** The client is to start a new decoding context. *)
Definition resets (flags : Z) : bool := Z.odd flags || Z.odd (flags / 2).

(** A frame as it may be given to the encoder. *)
Definition good_frame (f : frame) : Prop :=
  0 < f_width f < 2 ^ 16 /\ 0 < f_height f < 2 ^ 16 /\ f_gbm f = true /\ f_plain f = true.

(** Packets the encoder library may return for a frame. *)
Definition good_packet (p : list Z) : Prop := p <> [] /\ zlen p < 2 ^ 32.

Definition good_op (a : op) : Prop :=
  match a with Encode f _ => good_frame f | Done p => good_packet p | _ => True end.

(** The server's use of an encoder: a frame is given to it only after the one before has
    come out; key frames are asked for only once a frame has been accepted; after Destroy
    only the work begun before may still finish.  [first]: no frame has been accepted
    yet. *)
Fixpoint paced (first busy : bool) (l : list op) : Prop :=
  match l with
  | [] => True
  | Encode _ ok :: l => busy = false /\ ok = true /\ paced false true l
  | Done _ :: l => busy = true /\ paced first false l
  | DoneOld _ :: _ => False
  | Key :: l => first = false /\ paced first busy l
  | Quality _ :: l => paced first busy l
  | Destroy :: l => l = [] \/ busy = true /\ exists p, l = [DoneOld p]
  end.

(** The frames given to the encoder, each with whether it has to be a key frame: if it is
    the first one, if its size, format or quality differs from those of the frame before,
    or if a key frame was asked for since then. *)
Definition quality_of (v : Z) : Z := if v =? 10 then 6 else v.

Fixpoint keyed (last : option (Z * Z * Z)) (asked changed : bool) (q : Z) (l : list op) : list (frame * bool) :=
  match l with
  | [] => []
  | Encode f _ :: l =>
      (f, match last with
          | None => true
          | Some (w, h, fmt) =>
              asked || changed || negb ((w =? f_width f) && (h =? f_height f) && (fmt =? f_format f))
          end) :: keyed (Some (f_width f, f_height f, f_format f)) false false q l
  | Key :: l => keyed last true changed q l
  | Quality v :: l => keyed last asked (changed || negb (quality_of v =? q)) (quality_of v) l
  | _ :: l => keyed last asked changed q l
  end.

Definition frames (l : list op) : list frame :=
  flat_map (fun a => match a with Encode f _ => [f] | _ => [] end) l.
Definition packets (l : list op) : list (list Z) :=
  flat_map (fun a => match a with Done p => [p] | _ => [] end) l.

(** What the log says: frames handed to the encoder library, frames that came out. *)
Definition started (l : list event) : list (frame * bool) :=
  flat_map (fun e => match e with Started f k => [(f, k)] | _ => [] end) l.
Definition finished (l : list event) : list (list Z * Z * Z * Z * Z) :=
  flat_map (fun e => match e with Finished p n w h t => [(p, n, w, h, t)] | _ => [] end) l.

(** References and holds on a framebuffer taken and not given back. *)
Definition refs (id : nat) (l : list event) : Z :=
  fold_right (fun e n => match e with
    | Reffed i => if Nat.eqb i id then n + 1 else n
    | Unreffed i => if Nat.eqb i id then n - 1 else n
    | _ => n end) 0 l.
Definition holds (id : nat) (l : list event) : Z :=
  fold_right (fun e n => match e with
    | Held i => if Nat.eqb i id then n + 1 else n
    | Released i => if Nat.eqb i id then n - 1 else n
    | _ => n end) 0 l.

(** ** Memory layouts: the bytes of a pixel in the order of their addresses *)

Inductive channel := R | G | B | X.

(** drm_fourcc.h: names are in the order of significance, the least significant byte is
    the first one; alpha does not matter. *)
Definition drm_layout (f : drm) : list channel :=
  match f with
  | XRGB8888 | ARGB8888 => [B; G; R; X]
  | XBGR8888 | ABGR8888 => [R; G; B; X]
  | RGBX8888 | RGBA8888 => [X; B; G; R]
  | BGRX8888 | BGRA8888 => [X; R; G; B]
  end.
(** libavutil/pixfmt.h: names are in the order of addresses. *)
Definition av_layout (f : av) : list channel :=
  match f with
  | AV_BGR0 => [B; G; R; X] | AV_RGB0 => [R; G; B; X]
  | AV_0BGR => [X; B; G; R] | AV_0RGB => [X; R; G; B]
  end.
(** The kernel's documentation of packed RGB formats. *)
Definition v4l2_layout (f : v4l2) : list channel :=
  match f with
  | RGBX32 | RGBA32 => [R; G; B; X]
  | XRGB32 | ARGB32 | RGB32 => [X; R; G; B]
  | XBGR32 | ABGR32 | BGR32 => [B; G; R; X]
  | BGRX32 | BGRA32 => [X; B; G; R]
  end.

(** The frame that has been given to the encoder and has not come out: for the server's
    use, the last one, until its packet is done. *)
Fixpoint in_flight (now : option frame) (l : list op) : option frame :=
  match l with
  | [] => now
  | Encode f _ :: l => in_flight (Some f) l
  | Done _ :: l | DoneOld _ :: l => in_flight None l
  | _ :: l => in_flight now l
  end.
Definition counts (now : option frame) (id : nat) : Z :=
  match now with Some f => if Nat.eqb (f_id f) id then 1 else 0 | None => 0 end.

(** Frames of one size and format, any number of them waiting; the encoder stays. *)
Definition same_size (w h fmt : Z) (a : op) : Prop :=
  match a with
  | Encode f ok => ok = true /\ good_frame f /\ f_width f = w /\ f_height f = h /\ f_format f = fmt
  | Done p => good_packet p
  | Key => True
  | _ => False
  end.
