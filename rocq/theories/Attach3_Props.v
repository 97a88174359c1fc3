(** C136: nvnc_display_get_server, and whom a feed concerns. *)
From Verif Require Import Common CommonProofs Attach_Model Attach_Spec Attach_Proofs Attach_Props Attach3_Spec Attach3_Proofs.

(* nvnc_display_get_server returns the server that the display was added to last, whatever
   happened to the display or the server since; NULL if it was never added. *)
Theorem C136_get_server_is_the_last : forall d l w r,
  run l world0 = Ok w -> display_get_server d w = Ok r -> r = last_added d l.
Proof. exact get_server_last. Qed.
Print Assumptions C136_get_server_is_the_last.

(* As long as it has not been added elsewhere or removed since, and the server was not
   deleted, this is the server that shows the display. *)
Theorem C136_get_server_partial : forall l s d m w,
  obeys (l ++ Add s d :: m) world0 -> run (l ++ Add s d :: m) world0 = Ok w -> Forall (stays s d) m ->
  display_get_server d w = Ok (Some s) /\ displayed_by s d w.
Proof. exact stays_get_server. Qed.
Print Assumptions C136_get_server_partial.

(* Feeding a display makes no difference to the clients of other servers. *)
Theorem C136_feeding_concerns_one_server : forall l w d n w' s,
  run l world0 = Ok w -> step (Feed d n) w = Ok w' -> last_added d l <> Some s ->
  forall i, client_at s i w' = client_at s i w.
Proof. exact feed_elsewhere. Qed.
Print Assumptions C136_feeding_concerns_one_server.

(* two servers that exchange their displays; one display is removed at the end *)
Definition moved : list op :=
  [NewServer; NewServer; NewDisplay; NewDisplay; Add 0 0; Add 1 1; Remove 0 0; Remove 1 1; Add 0 1; Add 1 0; Feed 0 4; Connect 1; Remove 0 1].
Example C136_moved_displays : obeys moved world0 /\ Forall (stays 1 0) [Feed 0 4; Connect 1; Remove 0 1] /\
  exists w, run moved world0 = Ok w /\ display_get_server 0 w = Ok (Some 1%nat) /\ displayed_by 1 0 w /\
    display_get_server 1 w = Ok (Some 0%nat) /\ ~ displayed_by 0 1 w.
Proof.
  split; [|split].
  - unfold moved. cbn [obeys]. repeat (split; [cbn [allowed]; first [exact I | ex_server | has_disp |
      (split; [ex_server|split; [has_disp|intros ? (? & E & F & D); cbn in E; injection E as <-; discriminate]])]|next]). exact I.
  - repeat constructor; intros; discriminate.
  - eexists. split; [reflexivity|]. split; [reflexivity|]. split; [eexists; split; [reflexivity|split; reflexivity]|]. split; [reflexivity|].
    intros (v & E & F & D). cbn in E. injection E as <-. discriminate.
Qed.
