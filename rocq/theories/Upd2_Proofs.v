(** Damage and counting, for all runs. *)
From Verif Require Import Common CommonProofs Pixels_Model Msg_Model Msg_Proofs Upd_Spec Upd_Proofs.

(** Part 1: damage. *)
Lemma covers_app r s x y : covers (r ++ s) x y <-> covers r x y \/ covers s x y.
Proof. unfold covers. rewrite Exists_app. tauto. Qed.

Lemma signed16 n : 0 <= n < 32768 -> to_signed 16 n = n.
Proof.
  intros. unfold to_signed. cbv zeta. change (2 ^ (16 - 1)) with 32768. change (2 ^ 16) with 65536.
  rewrite Z.mod_small by lia. rewrite (proj2 (Z.ltb_lt _ _)) by lia. reflexivity.
Qed.

Lemma rect_box_small x y w h : 0 <= x -> 0 <= y -> 0 <= w -> 0 <= h -> x + w <= 32767 ->
  y + h <= 32767 -> rect_box x y w h = (x, y, x + w, y + h).
Proof. intros. unfold rect_box. rewrite !(Z.mod_small _ (2 ^ 16)) by lia. rewrite !signed16 by lia. reflexivity. Qed.

Lemma covers_inter r w h x y : covers r x y -> 0 <= x < w -> 0 <= y < h -> w <= 32767 ->
  h <= 32767 -> covers (intersect_rect r 0 0 w h) x y.
Proof.
  intros C X Y W H. unfold intersect_rect. rewrite rect_box_small by lia.
  apply Exists_exists in C as ([[[x1 y1] x2] y2] & I & B). apply Exists_exists.
  exists (box_inter (x1, y1, x2, y2) (0, 0, 0 + w, 0 + h)). split.
  - apply filter_In. split; [apply in_map_iff; eauto|]. cbn. lia.
  - cbn. lia.
Qed.

Lemma covers_union r a b w h x y : covers (union_rect r a b w h) x y <->
  covers r x y \/ (good_box (rect_box a b w h) = true /\ covers [rect_box a b w h] x y).
Proof.
  unfold union_rect. destruct (good_box _) eqn:G; [rewrite covers_app; tauto|].
  split; [tauto|]. intros [?|[? _]]; [assumption|discriminate].
Qed.

Lemma encoded_app l1 l2 x y : encoded (l1 ++ l2) x y <-> encoded l1 x y \/ encoded l2 x y.
Proof.
  unfold encoded. split.
  - intros (r & w & h & ok & I & C). apply in_app_iff in I as [I|I]; [left|right]; eauto 8.
  - intros [(r & w & h & ok & I & C)|(r & w & h & ok & I & C)]; exists r, w, h, ok;
      rewrite in_app_iff; eauto.
Qed.

(* a pixel of the display is either still marked or was given to the encoder *)
Lemma moves_keep c c' x y : moves (holds x y) c c' -> covers (damage c) x y ->
  covers (damage c') x y \/ exists l, log c' = log c ++ l /\ encoded l x y.
Proof.
  induction 1 as [c|a b c M MM IH]; [auto|]. intros C.
  destruct (moves_log _ _ _ MM) as [l2 L2].
  destruct M as [a b l D L _|a b r D L|a b f ok P D L].
  - destruct IH as [K|(l3 & L3 & K)]; [congruence|auto|]. right. exists (l ++ l3).
    rewrite L3, L, app_assoc. split; [reflexivity|]. apply encoded_app. auto.
  - destruct IH as [K|(l3 & L3 & K)]; [rewrite D; apply covers_app; auto|auto|].
    right. exists l3. rewrite L3, L. auto.
  - right. exists (Encode (intersect_rect (damage a) 0 0 (fb_w f) (fb_h f)) (fb_w f) (fb_h f) ok :: l2).
    rewrite L2, L, <- app_assoc. split; [reflexivity|].
    eexists _, _, _, _. split; [left; reflexivity|]. destruct P as (P1 & P2 & P3 & P4).
    apply covers_inter; assumption.
Qed.

Lemma run_keep E fuel c l c' x y : run E fuel c l = Ok c' ->
  (forall f, disp c = Some f -> holds x y f) -> Forall (input_holds x y) l ->
  covers (damage c) x y ->
  covers (damage c') x y \/ exists l, log c' = log c ++ l /\ encoded l x y.
Proof.
  intros H G F. apply moves_keep. eapply run_moves; eauto.
  eapply Forall_impl; [|exact F]. intros i I f r ->. exact I.
Qed.

Lemma damage_kept E fuel c f r l c' x y : closed c = false ->
  run E fuel c (IDamage f r :: l) = Ok c' -> Forall (input_holds x y) (IDamage f r :: l) ->
  covers r x y ->
  covers (damage c') x y \/ exists l, log c' = log c ++ l /\ encoded l x y.
Proof.
  intros O H F C. inversion F as [|? ? F1 F2]; subst. cbn [run] in H.
  apply bind_ok in H as (c1 & H & H2). unfold step in H. cbn in F1.
  set (c0 := if closed (set_disp (Some f) c) then _ else _) in H.
  assert (C0 : covers (damage c0) x y /\ log c0 = log c /\ disp c0 = Some f).
  { subst c0. change (closed (set_disp (Some f) c)) with (closed c). rewrite O.
    split; [|split; reflexivity]. cbn. apply covers_app. auto. }
  destruct C0 as (C0 & L0 & D0). rewrite <- L0.
  assert (M : mv c0 c1).
  { apply (process_mv E (fun c => receive E fuel c (e_more E (log c)))) in H; [exact H|].
    intros. eapply receive_mv; eauto. }
  apply moves_keep; [|exact C0]. eapply moves_trans.
  - apply M. intros f' F'. rewrite D0 in F'. injection F' as <-. exact F1.
  - eapply run_moves; [exact H2| |].
    + intros f' F'. destruct M as [_ D]. rewrite D, D0 in F'. injection F' as <-. exact F1.
    + eapply Forall_impl; [|exact F2]. intros i I f0 r0 ->. exact I.
Qed.
