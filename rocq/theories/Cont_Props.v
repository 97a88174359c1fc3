(** C114: what touches the client's area is sent while continuous updates are on. *)
From Verif Require Import Common CommonProofs Pixels_Model Msg_Model Msg_Spec Msg2_Spec Upd_Spec Upd_Props Ev_Spec Ev_Props Cont_Spec Cont_Proofs.

(** When no update is being made, changes that touch the area are given to the encoder at
    once, without a request. *)
Theorem C114_changes_in_the_area_are_sent :
  forall (E : env) (fuel : nat) (f : fb) (rg : region) (c : client) (x y w h : Z),
    obliging E -> cu_on c = true -> cu_rect c = (x, y, w, h) -> updating c = false -> closed c = false ->
    0 <= x -> 0 <= y -> x + w <= 32767 -> y + h <= 32767 -> touches rg x y w h ->
    exists c' l, step E fuel c (IDamage f rg) = Ok c' /\ log c' = log c ++ l /\ updating c' = true /\
      forall px py, covers rg px py -> holds px py f -> encoded l px py.
Proof. exact damage_sent. Qed.
Print Assumptions C114_changes_in_the_area_are_sent.

(** A full request is answered at once, with all that it asks for, if it overlaps the area
    (it need not lie inside).  Missing: requests that do not; see
    [C114_full_request_refuted]. *)
Theorem C114_full_request_partial :
  forall (E : env) (r : client -> res client) (f : fb) (c : client) (x y w h ax ay aw ah : Z),
    obliging E -> cu_on c = true -> cu_rect c = (ax, ay, aw, ah) -> updating c = false -> closed c = false ->
    disp c = Some f ->
    0 <= ax -> 0 <= ay -> ax + aw <= 32767 -> ay + ah <= 32767 ->
    0 <= x -> 0 <= y -> 0 <= w -> 0 <= h -> x + w <= 32767 -> y + h <= 32767 ->
    (exists px py, (x <= px < x + w /\ y <= py < y + h) /\ ax <= px < ax + aw /\ ay <= py < ay + ah) ->
    exists c' l, on_message E r c (update_request_msg 0 x y w h) = Ok (c', 10) /\ log c' = log c ++ l /\
      updating c' = true /\
      forall px py, x <= px < x + w -> y <= py < y + h -> holds px py f -> encoded l px py.
Proof. exact full_request. Qed.
Print Assumptions C114_full_request_partial.

(* a client with the area 0, 0, 5, 5 of a buffer of 10 by 10 *)
Example C114_area_case : obliging (calm true none) /\
  exists c, watching = Ok c /\ cu_on c = true /\ cu_rect c = (0, 0, 5, 5) /\ updating c = false /\ closed c = false /\
    disp c = Some small /\ touches [(4, 4, 9, 9)] 0 0 5 5 /\
    exists c', on_message (calm true none) (fun c => Ok c) c (update_request_msg 0 4 2 6 3) = Ok (c', 10) /\
      encoded (log c') 9 4.
Proof.
  split; [repeat split|]. eexists. split; [vm_compute; reflexivity|]. repeat (split; [reflexivity|]).
  split; [exists 4, 4; split; [constructor; lia|lia]|]. eexists. split; [vm_compute; reflexivity|].
  unfold encoded. eexists _, _, _, _. split; [cbn; repeat (first [left; reflexivity | right])|]. constructor. lia.
Qed.
