(** What a viewer draws from the messages it gets, for the Raw encoding: RFC 6143 7.6.1
    and 7.7.1.  Rectangles of other kinds change nothing on its screen. *)
From Verif Require Import Common Pixels_Model Zrle_Model Zrle_Spec Raw_Model Msg_Model Upd_Spec Wire_Spec Mirror_Spec.

(** A screen: the bytes of each pixel in the client's format, None where nothing has been
    drawn yet. *)
Definition display := Z -> Z -> option (list Z).
Definition dark : display := fun _ _ => None.

(** [w] times [h] pixels of [size] bytes, left to right and top to bottom. *)
Definition put_raw (size : nat) (x y w h : Z) (l : list Z) (s : display) : display :=
  fun a b =>
    if (x <=? a) && (a <? x + w) && (y <=? b) && (b <? y + h)
    then Some (firstn size (skipn (Z.to_nat ((b - y) * w + (a - x)) * size) l))
    else s a b.

Section Viewer.
Variable pic : Wire_Spec.picture.
Variable St : Type. (* what the viewer keeps: its screen, and its decompressors if any *)
Variable paint : list Z -> St -> St. (* what a rectangle, header and all, does to it *)

Fixpoint draw_rects (n : nat) (l : list Z) (s : St) : St :=
  match n with
  | O => s
  | S n =>
      match rect_len pic l with
      | None => s
      | Some k => draw_rects n (skipn k l) (paint (firstn k l) s)
      end
  end.

Definition draw (s : St) (m : list Z) : St :=
  match m with
  | [] => s
  | t :: _ => if t =? 0 then draw_rects (Z.to_nat (field 2 2 m)) (skipn 4 m) s else s
  end.
End Viewer.
Arguments draw_rects _ {St}. Arguments draw _ {St}.

(** Rectangles of other encodings than Raw, Tight, ZRLE and H.264 have no pixels of the
    screen. *)
Definition pixelless (r : list Z) : Prop := ~ In (to_signed 32 (field 4 8 r)) [0; 7; 16; 50].

Definition raw_paint (size : nat) (r : list Z) (s : display) : display :=
  if to_signed 32 (field 4 8 r) =? 0
  then put_raw size (field 2 0 r) (field 2 2 r) (field 2 4 r) (field 2 6 r) (skipn 12 r) s
  else s.

(** What is on the screen after the messages [ms]. *)
Definition shown (size tsize : nat) (ms : list (list Z)) : display :=
  fold_left (draw (viewer size tsize) (raw_paint size)) ms dark.

(** Cursor images are sent as such. *)
Definition cursor_shapes (E : env) : Prop :=
  forall l f d, e_cursor E l f = Some d -> to_signed 32 (field 4 8 d) = -239.

(** The frame [f] is what the Raw encoder makes of a buffer that shows the picture [Q]
    (pixels in the format [src]) for a client with the format [dst], given the region [r];
    [rects], [extents]: how pixman has it. *)
Definition raw_frame (dst src : pixfmt) (r : region) (Q : Mirror_Spec.picture (list Z)) (f : frame) : Prop :=
  exists fb stride rects extents,
    raw_do_work fb 0 0 dst src stride rects extents = Ok (f_data f, f_rects f) /\
    Forall (fits_header 0 0) rects /\ Z.of_nat (length rects) <= 65533 /\
    (forall x y, covers r x y <-> exists b, In b rects /\ x1 b <= x < x2 b /\ y1 b <= y < y2 b) /\
    (forall x y, covers r x y ->
       get fb ((y * stride + x) * (bits_per_pixel src / 8)) (bits_per_pixel src / 8) = Ok (Q x y)).

(** All frames along the run are. *)
Fixpoint raw_frames (E : env) (fuel : nat) (dst src : pixfmt) (l : scene (list Z)) (c : client)
    (v : sight (list Z)) : Prop :=
  match l with
  | [] => True
  | (i, P) :: l =>
      match i, coming _ v with IEncoded f, Some (r, Q) => raw_frame dst src r Q f | _, _ => True end /\
      forall c', step E fuel c i = Ok c' ->
        raw_frames E fuel dst src l c' (fold_left (see _ no_more P) (since c c') v)
  end.

(** The same for any encoder: [made x r Q f x'] when it makes [f] of the region [r] of a
    buffer that shows [Q], going from its state [x] to [x']. *)
Section Run.
Variable wide : list Z -> Z -> Z -> bool.
Variable X : Type.
Variable made : X -> region -> Mirror_Spec.picture (list Z) -> frame -> X -> Prop.

Fixpoint made_run (E : env) (fuel : nat) (l : scene (list Z)) (c : client) (v : sight (list Z)) (x x' : X) : Prop :=
  match l with
  | [] => x = x'
  | (i, P) :: l =>
      exists x1,
      match i, coming _ v with IEncoded f, Some (r, Q) => made x r Q f x1 | _, _ => x1 = x end /\
      forall c', step E fuel c i = Ok c' ->
        made_run E fuel l c' (fold_left (see _ wide P) (since c c') v) x1 x'
  end.
End Run.
