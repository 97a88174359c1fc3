(** From the application's call to what the clients' code is told: the display of
    src/display.c in front of the message loop of src/server.c.

    Simplifications: those of Turn_Model (each frame is done before anything else happens)
    and of Msg_Model. *)
From Verif Require Import Common Msg_Model Mirror_Spec Zrle_Model Transform_Model Refinery_Model Turn_Model Turn_Spec.

(** What happens: the application feeds a buffer to the display, or anything else. *)
(* src/display.c:112-146, and the inputs of Msg_Model: src/server.c:1938-1995 *)
Inductive happening : Type := Fed (f : Turn_Model.frame) | Else (i : input).

(* pixman_box16, as the region of src/display.c:31-51 has it and as Msg_Model does *)
Definition corners (b : Zrle_Model.box) : Msg_Model.box := (x1 b, y1 b, x2 b, y2 b).

(* is the place in the buffer given to the clients, src/display.c:31-51 *)
Definition insideb (f : Turn_Model.frame) (x y : Z) : bool :=
  (0 <=? x) && (x <? fst (size f)) && (0 <=? y) && (y <? snd (size f)).

(* what the display's buffer (src/display.c:31-51) shows; where it has no pixels nothing is
   said to change *)
Definition now_shown (f : Turn_Model.frame) (c : canvas) (P : Mirror_Spec.picture (list Z)) : Mirror_Spec.picture (list Z) :=
  fun x y => if insideb f x y then match c x y with Ok p => p | Fault _ => [] end else P x y.

Section Feed.
Variable xxh : list Z -> Z.
Variable rects_of : list Zrle_Model.box -> list Zrle_Model.box.
Variable dst : nat -> canvas. (* what is in the buffers of the pool *)

(* The inputs the client's code gets, each with what the display's buffer shows from then
   on: src/display.c:112-146 for the frames, with the new buffer (in ordinary memory) and
   the transformed damage passed to src/display.c:31-51; other inputs go through. *)
Fixpoint staged (r : refinery) (n : nat) (P : Mirror_Spec.picture (list Z)) (hs : list happening) : res (scene (list Z)) :=
  match hs with
  | [] => Ok []
  | Else i :: hs => let* l := staged r n P hs in Ok ((i, P) :: l)
  | Fed f :: hs =>
      let* (p, damage) := display_feed xxh rects_of r (dst n) f in
      let (r, shown) := p in
      let* l := staged r (S n) (now_shown f shown P) hs in
      Ok ((IDamage (mk_fb (fst (size f)) (snd (size f)) false) (map corners damage), now_shown f shown P) :: l)
  end.
End Feed.
