(** The raw encoding as a client reads it: RFC 6143 7.6.1 and 7.7.1. *)
From Verif Require Import Common Pixels_Model Zrle_Model Zrle_Spec.

Record rrect := mk_rrect { rr_x : Z; rr_y : Z; rr_w : Z; rr_h : Z; rr_px : list (list Z) }.

(** A header, then width times height pixels of [size] bytes, left to right and
    top to bottom. *)
Definition read_raw (size : nat) (l : list Z) : option (rrect * list Z) :=
  match take 12 l with
  | None => None
  | Some (head, l) =>
      let x := u16 head in let y := u16 (skipn 2 head) in
      let w := u16 (skipn 4 head) in let h := u16 (skipn 6 head) in
      if unbe (skipn 8 head) =? 0 then
        match read_cpixels size (Z.to_nat (w * h)) l with
        | Some (px, l) => Some (mk_rrect x y w h px, l)
        | None => None
        end
      else None
  end.

(** [count] rectangles and nothing after them. *)
Fixpoint read_raws (size count : nat) (l : list Z) : option (list rrect) :=
  match count with
  | O => match l with [] => Some [] | _ => None end
  | S count =>
      match read_raw size l with
      | Some (r, l) =>
          match read_raws size count l with Some rs => Some (r :: rs) | None => None end
      | None => None
      end
  end.

(** The client has rectangle [r] for the box [b]: at column i of row j is the
    conversion of the framebuffer's pixel there. *)
Definition raw_shows (fb : list Z) (stride xp yp : Z) (dst src : pixfmt) (b : box) (r : rrect) : Prop :=
  rr_x r = xp + x1 b /\ rr_y r = yp + y1 b /\ rr_w r = x2 b - x1 b /\ rr_h r = y2 b - y1 b /\
  forall i j, 0 <= i < rr_w r -> 0 <= j < rr_h r ->
  exists p c, get fb (((y1 b + j) * stride + (x1 b + i)) * (bits_per_pixel src / 8)) (bits_per_pixel src / 8) = Ok p /\
    pixel_to_cpixel (bits_per_pixel dst / 8) dst src p 0 1 = Ok c /\
    nth_error (rr_px r) (Z.to_nat (j * rr_w r + i)) = Some c.

Definition shifts_below_32 (f : pixfmt) : Prop :=
  0 <= red_shift f < 32 /\ 0 <= green_shift f < 32 /\ 0 <= blue_shift f < 32.

(** Formats the conversion takes. *)
Definition raw_formats (dst src : pixfmt) : Prop :=
  shifts_below_32 src /\ shifts_below_32 dst /\
  true_colour_flag src <> 0 /\ true_colour_flag dst <> 0 /\ depth src <= 32 /\ depth dst <= 32 /\
  1 <= bits_per_pixel src / 8 <= 4 /\ 8 <= bits_per_pixel dst <= 32.
