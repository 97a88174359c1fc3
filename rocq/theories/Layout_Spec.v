(** What the accessors of a layout are to say, given the screens in the client's message. *)
From Coq Require Import ZArith List.
From Verif Require Import Common Msg_Model Msg2_Spec Layout_Model.
Import ListNotations.
Open Scope Z_scope.

(** The five accessors with an index, at [i]. *)
Definition says (d : desk) (i x y w h : Z) (display : option Z) : Prop :=
  get_display_x_pos d i = Ok x /\ get_display_y_pos d i = Ok y /\
  get_display_width d i = Ok w /\ get_display_height d i = Ok h /\ get_display d i = Ok display.

(** The whole of a layout reads as the screens [ls] on a desktop of w times h; the
    server's display is that of the screens with number 0; past the last there are zeros. *)
Definition reads_as (d : desk) (display : option Z) (w h : Z) (ls : list screen) : Prop :=
  get_width d = w /\ get_height d = h /\ get_display_count d = Z.of_nat (length ls) /\
  forall i, match nth_error ls i with
            | Some s => says d (Z.of_nat i) (s_x s) (s_y s) (s_w s) (s_h s) (if s_id s =? 0 then display else None)
            | None => says d (Z.of_nat i) 0 0 0 0 None
            end.
