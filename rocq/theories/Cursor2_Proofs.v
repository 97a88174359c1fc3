From Verif Require Import Common CommonProofs Pixels_Model Zrle_Model Fb_Model Fb_Proofs Transform_Model Cursor_Model Cursor_Spec.

Definition kept (fbs : list fb) (s : holder) (rel : nat -> Z) : Prop :=
  (forall j, h_cursor s = Some j -> (j < length fbs)%nat) /\ length (h_fbs s) = length fbs /\
  forall k f0, nth_error fbs k = Some f0 -> exists f, nth_error (h_fbs s) k = Some f /\ fb_freed f = false /\
    fb_ref f = fb_ref f0 + mine (h_cursor s) k /\ fb_hold f = fb_hold f0 + mine (h_cursor s) k /\
    fb_geo f = fb_geo f0 /\ (fb_hold f0 = 0 -> fb_released f = fb_released f0 + rel k).

(* the first two calls of nvnc_set_cursor *)
Lemma dropped : forall fbs s rel, Forall owned fbs -> kept fbs s rel ->
  exists l, (let* s := on_image s (h_cursor s) (fun f => let* r := nvnc_fb_release f in Ok (fst r)) in
             on_image s (h_cursor s) nvnc_fb_unref) = Ok (mk_holder l (h_cursor s)) /\
    kept fbs (mk_holder l None) (fun k => rel k + mine (h_cursor s) k).
Proof.
  intros fbs [hs cur] rel O [V [L K]]. cbn [h_fbs h_cursor] in *. destruct cur as [j|].
  - pose proof (V j eq_refl) as Hj. destruct (nth_error fbs j) as [f0|] eqn:N0; [|apply nth_error_None in N0; lia].
    destruct (K j f0 N0) as [f [N [Fr [R [H [G Rl]]]]]]. cbn [mine] in R, H. rewrite Nat.eqb_refl in R, H.
    assert (Ow : owned f0) by (rewrite Forall_forall in O; apply O; eapply nth_error_In; exact N0).
    destruct Ow as [Of Or].
    unfold on_image at 1. cbn [h_fbs h_cursor]. rewrite N. unfold nvnc_fb_release. rewrite Fr.
    set (g := mk_fb (fb_ref f) (fb_hold f - 1) false
      (if fb_hold f - 1 =? 0 then fb_released f + 1 else fb_released f) (fb_geo f)).
    replace (let* r := (if fb_hold f - 1 =? 0 then _ else _) in Ok (fst r)) with (Ok g)
      by (unfold g; destruct (fb_hold f - 1 =? 0); reflexivity).
    cbn [bind]. unfold on_image. cbn [h_fbs h_cursor]. rewrite set_fb_nth, Nat.eqb_refl, N.
    unfold nvnc_fb_unref, g. cbn [fb_freed fb_ref fb_hold fb_released fb_geo].
    replace (fb_ref f - 1 =? 0) with false by lia. cbn [bind].
    eexists. split; [reflexivity|]. split; [intros q; discriminate|].
    cbn [h_fbs h_cursor]. rewrite !set_fb_length. split; [exact L|].
    intros k f1 N1. rewrite !set_fb_nth. cbn [mine].
    destruct (Nat.eqb k j) eqn:Q.
    + apply Nat.eqb_eq in Q. subst k. rewrite N. eexists. split; [reflexivity|].
      assert (f1 = f0) by congruence. subst f1. cbn [fb_freed fb_ref fb_hold fb_released fb_geo].
      rewrite Nat.eqb_refl. repeat split; try lia; [exact G|]. intros Z0. specialize (Rl Z0).
      replace (fb_hold f - 1 =? 0) with true by lia. lia.
    + destruct (K k f1 N1) as [f2 [N2 [Fr2 [R2 [H2 [G2 Rl2]]]]]]. cbn [mine] in R2, H2.
      assert (Q' : Nat.eqb j k = false) by (rewrite Nat.eqb_sym; exact Q); rewrite ?Q' in *. exists f2. repeat split; try assumption; try lia.
  - cbn [on_image bind h_cursor]. exists hs. split; [reflexivity|].
    split; [intros q; discriminate|]. split; [exact L|]. cbn [h_fbs h_cursor mine] in *.
    intros k f0 N0. destruct (K k f0 N0) as [f H]. exists f. intuition lia.
Qed.

Lemma taken : forall fbs l rel new, Forall owned fbs -> kept fbs (mk_holder l None) rel ->
  (forall j, new = Some j -> (j < length fbs)%nat) ->
  exists s, (let* s := on_image (mk_holder l new) new nvnc_fb_ref in on_image s new nvnc_fb_hold) = Ok s /\
    h_cursor s = new /\ kept fbs s rel.
Proof.
  intros fbs l rel [j|] O [V [L K]] Hn; cbn [h_fbs h_cursor] in *.
  - pose proof (Hn j eq_refl) as Hj. destruct (nth_error fbs j) as [f0|] eqn:N0; [|apply nth_error_None in N0; lia].
    destruct (K j f0 N0) as [f [N [Fr [R [H [G Rl]]]]]]. cbn [mine] in R, H.
    unfold on_image at 1. cbn [h_fbs h_cursor]. rewrite N. unfold nvnc_fb_ref. rewrite Fr. cbn [bind].
    unfold on_image. cbn [h_fbs h_cursor]. rewrite set_fb_nth, Nat.eqb_refl, N.
    unfold nvnc_fb_hold. cbn [fb_freed fb_ref fb_hold fb_released fb_geo bind].
    eexists. split; [reflexivity|]. split; [reflexivity|].
    split; [exact Hn|]. cbn [h_fbs h_cursor]. rewrite !set_fb_length. split; [exact L|].
    intros k f1 N1. rewrite !set_fb_nth. cbn [mine].
    destruct (Nat.eqb k j) eqn:Q.
    + apply Nat.eqb_eq in Q. subst k. rewrite N. eexists. split; [reflexivity|].
      assert (f1 = f0) by congruence. subst f1. cbn [fb_freed fb_ref fb_hold fb_released fb_geo].
      rewrite Nat.eqb_refl. repeat split; try lia; assumption.
    + destruct (K k f1 N1) as [f2 [N2 [Fr2 [R2 [H2 [G2 Rl2]]]]]]. cbn [mine] in R2, H2.
      assert (Q' : Nat.eqb j k = false) by (rewrite Nat.eqb_sym; exact Q); rewrite ?Q' in *. exists f2. repeat split; try assumption; try lia.
  - cbn [on_image bind]. eexists. split; [reflexivity|]. split; [reflexivity|].
    split; [exact V|]. split; [exact L|exact K].
Qed.

Lemma set_cursor_ok : forall fbs s rel new, Forall owned fbs -> kept fbs s rel ->
  (forall j, new = Some j -> (j < length fbs)%nat) ->
  exists s', set_cursor s new = Ok s' /\ h_cursor s' = new /\ kept fbs s' (fun k => rel k + mine (h_cursor s) k).
Proof.
  intros fbs s rel new O K Hn. destruct (dropped fbs s rel O K) as [l [E K']].
  destruct (taken fbs l _ new O K' Hn) as [s' [E' [C' K'']]].
  exists s'. split; [|auto]. unfold set_cursor.
  destruct (on_image s (h_cursor s) _) as [s1|]; cbn [bind] in *; [|discriminate].
  destruct (on_image s1 (h_cursor s1) nvnc_fb_unref) as [s2|]; cbn [bind] in *; [|discriminate].
  injection E as ->. cbn [h_fbs]. exact E'.
Qed.

(* a successful encoding or a format error leaves the count alone *)
Lemma send_refs : forall fmt img w h x y r, send_cursor_update true fmt img w h x y = Ok r -> snd r = 0.
Proof.
  intros fmt img w h x y r E. unfold send_cursor_update in E.
  destruct (cursor_encode _ _ _ _ _ _ _ _) as [[[rc v] refs]|] eqn:C; cbn [bind] in E; [|discriminate].
  injection E as <-. cbn [snd]. unfold cursor_encode in C. destruct img as [i|]; [|congruence].
  destruct (transform_dimensions _ w h). destruct (transform_dimensions _ x y). cbn [negb] in C.
  destruct (apply_transform i); cbn [bind] in C; [|discriminate].
  destruct (negb _); [discriminate|]. destruct (pixfmt_from_fourcc _); [|congruence]. cbv zeta in C.
  destruct (if _ =? _ then _ else _); cbn [bind] in C; [|discriminate].
  destruct (mask_rows _ _ _ _ _ _ _); cbn [bind] in C; [|discriminate]. congruence.
Qed.

Lemma run_kept : forall fbs, Forall owned fbs -> forall es s rel, kept fbs s rel -> Forall (usual (length fbs)) es ->
  match cursor_run s es with
  | Ok s' => h_cursor s' = cursor_after (h_cursor s) es /\ kept fbs s' (fun k => rel k + let_go (h_cursor s) es k)
  | Fault e => exists fmt img w h x y, send_cursor_update true fmt img w h x y = Fault e
  end.
Proof.
  intros fbs O. induction es as [|e es IH]; intros s rel K U; cbn [cursor_run cursor_after let_go].
  - split; [reflexivity|]. destruct K as [V [L K]]. split; [exact V|]. split; [exact L|].
    intros k f0 N. destruct (K k f0 N) as [f H]. exists f. intuition lia.
  - inversion U as [|? ? U1 U2]; subst. destruct e as [new|map_ok fmt img w h x y]; cbn [cursor_step].
    + destruct (set_cursor_ok fbs s rel new O K) as [s' [E [C K']]].
      { intros j ->. exact U1. }
      rewrite E. cbn [bind]. specialize (IH s' _ K' U2). rewrite C in IH.
      destruct (cursor_run s' es); [|exact IH]. destruct IH as [I1 [I2 [I3 I4]]]. split; [exact I1|].
      split; [exact I2|]. split; [exact I3|]. intros k f0 N. destruct (I4 k f0 N) as [f H]. exists f. intuition lia.
    + cbn [usual] in U1. subst map_ok.
      destruct (send_cursor_update true fmt _ w h x y) as [r|e] eqn:E; cbn [bind]; [|do 6 eexists; exact E].
      rewrite (send_refs _ _ _ _ _ _ _ E). cbn [Z.ltb Z.compare]. apply IH; assumption.
Qed.
