(** The cursor pseudo-encoding as a client reads it: RFC 6143 7.8.1. *)
From Verif Require Import Common Pixels_Model Pixels_Spec Zrle_Model Zrle_Spec Raw_Spec Fb_Model Transform_Model Cursor_Model.

(** The hotspot, the size, the pixels and the rows of the mask. *)
Record cursor := mk_cursor { c_x : Z; c_y : Z; c_w : Z; c_h : Z;
                             c_px : list (list Z); c_mask : list (list Z) }.

(** A header with encoding -239; then width times height pixels of [size] bytes,
    left to right and top to bottom; then the mask, each row padded to whole
    bytes. *)
Definition read_cursor (size : nat) (l : list Z) : option (cursor * list Z) :=
  match take 12 l with
  | None => None
  | Some (head, l) =>
      let x := u16 head in let y := u16 (skipn 2 head) in
      let w := u16 (skipn 4 head) in let h := u16 (skipn 6 head) in
      if unbe (skipn 8 head) =? 2 ^ 32 - 239 then
        match read_cpixels size (Z.to_nat (w * h)) l with
        | Some (px, l) =>
            match read_cpixels (Z.to_nat ((w + 7) / 8)) (Z.to_nat h) l with
            | Some (rows, l) => Some (mk_cursor x y w h px rows, l)
            | None => None
            end
        | None => None
        end
      else None
  end.

(** The pixel in column x of row y, and whether the mask shows it. *)
Definition pixel_of (c : cursor) (x y : Z) : option (list Z) :=
  nth_error (c_px c) (Z.to_nat (y * c_w c + x)).
Definition shown (c : cursor) (x y : Z) : bool :=
  bitmap (nth (Z.to_nat y) (c_mask c) []) x.

(** Where in the buffer the pixel (x, y) of the picture comes from, if the
    buffer's size is [w] and [h]: the transforms of wl_output. *)
Definition comes_from (t : transform) (w h x y : Z) : Z * Z :=
  match t with
  | Normal => (x, y)
  | R90 => (y, h - 1 - x)
  | R180 => (w - 1 - x, h - 1 - y)
  | R270 => (w - 1 - y, x)
  | Flipped => (w - 1 - x, y)
  | Flipped_90 => (y, x)
  | Flipped_180 => (x, h - 1 - y)
  | Flipped_270 => (w - 1 - y, h - 1 - x)
  end.

(** Formats of 32 bits with an alpha channel, by their DRM names. *)
Definition alpha32 (name : string) (a : field) : Prop :=
  exists layout, In (name, layout) drm_formats /\ drm_field A layout = Some a /\ drm_bits layout = 32.

(** More than half opaque. *)
Definition opaque (a : field) (p : list Z) : bool := 2 * channel a (unle p) >? 2 ^ f_bits a - 1.

(** The bytes a message with a cursor takes, and those there are. *)
Definition needed (w h n : Z) : Z := 16 + w * h * n + h * ((w + 7) / 8).
Definition reserved (w h n : Z) : Z := Z.max 4096 (16 + w * h * n + (w * h + 7) / 8).

(** Formats a client may ask for that the conversion takes. *)
Definition client_format (f : pixfmt) : Prop :=
  shifts_below_32 f /\ true_colour_flag f <> 0 /\ depth f <= 32 /\ 8 <= bits_per_pixel f <= 32.

(** Images apply_transform takes. *)
Definition drawable (i : image) : Prop :=
  im_transform i = Normal \/
  (pixman_format (im_fourcc i) = Ok true /\ im_w i <= 32767 /\ im_h i <= 32767).

(** ** Ownership *)

(** Framebuffers of the application, each with a reference. *)
Definition owned (f : fb) : Prop := fb_freed f = false /\ 1 <= fb_ref f.

(** One if framebuffer k is the cursor. *)
Definition mine (cur : option nat) (k : nat) : Z :=
  match cur with Some j => if Nat.eqb j k then 1 else 0 | None => 0 end.

(** Which is the cursor after these calls, and how often framebuffer k ceased to
    be it. *)
Fixpoint cursor_after (cur : option nat) (es : list cursor_event) : option nat :=
  match es with
  | [] => cur
  | SetCursor new :: es => cursor_after new es
  | _ :: es => cursor_after cur es
  end.
Fixpoint let_go (cur : option nat) (es : list cursor_event) (k : nat) : Z :=
  match es with
  | [] => 0
  | SetCursor new :: es => mine cur k + let_go new es k
  | _ :: es => let_go cur es k
  end.

(** The application passes framebuffers it has, and mapping works. *)
Definition usual (n : nat) (e : cursor_event) : Prop :=
  match e with
  | SetCursor (Some j) => (j < n)%nat
  | SetCursor None => True
  | SendCursor map_ok _ _ _ _ _ _ => map_ok = true
  end.
