(** Proofs for Hue_Props.v: the colours drawn. *)
From Verif Require Import Common CommonProofs Pixels_Model Zrle_Model Zrle_Spec Zrle2_Proofs Raw_Model Raw_Spec Tight_Model Tight_Spec
  Msg_Model Msg_Spec Msg_Proofs Upd_Spec Upd_Proofs Upd2_Proofs Upd3_Proofs Mirror_Spec Mirror_Proofs
  Wire_Spec Wire_Proofs Eye_Spec Eye2_Spec Eye3_Spec Wire2_Proofs Wire3_Proofs Eye_Proofs Eye2_Proofs Eye3_Proofs Hue_Spec.

Section D.
Variable istate : Type.
Variable inflate : istate -> list Z -> istate * list Z.
Variable dst : pixfmt.
Variable csize : nat.
Notation size := (Z.to_nat (bits_per_pixel dst / 8)).
Notation tsize := (Z.to_nat (tpixel_size dst)).
Notation vw := (viewer size tsize).
Notation VP := (viewer_prefix size tsize).
Notation pnt := (full_paint istate inflate size csize tsize).
Notation hp := (hue_paint istate inflate dst csize).
Notation scr := (scr istate).

Inductive all_kind (k : Z) : nat -> list Z -> Prop :=
| ak_none l : all_kind k 0 l
| ak_more n p l : rects_len vw 1 p = Some (length p) -> to_signed 32 (field 4 8 p) = k -> all_kind k n l -> all_kind k (S n) (p ++ l).

Lemma raws_kind : forall n l rs, read_raws size n l = Some rs -> all_kind 0 n l.
Proof.
  induction n as [|n IH]; intros l rs; cbn [read_raws]; [constructor|].
  destruct (read_raw size l) as [[r l']|] eqn:R; [|discriminate]. destruct (read_raws size n l') as [rs'|] eqn:RS; [|discriminate].
  intros _. apply raw_local in R as (p & -> & R & E0 & _).
  constructor; [|exact E0|eapply IH; exact RS].
  apply (readable_raw size tsize 1 p [r]). cbn [read_raws]. rewrite R. reflexivity.
Qed.
Lemma zrles_kind : forall n l st rs st', read_rects istate inflate csize n st l = Some (rs, st') -> all_kind 16 n l.
Proof.
  induction n as [|n IH]; intros l st rs st'; cbn [read_rects]; [constructor|].
  destruct (read_rect _ _ _ _ l) as [[[r st1] l']|] eqn:R; [|discriminate].
  destruct (read_rects _ _ _ _ _ l') as [[rs0 st2]|] eqn:RS; [|discriminate]. intros _.
  apply zrle_local in R as (p & -> & R & E0 & _). constructor; [|exact E0|eapply IH; exact RS].
  apply (readable_zrle istate inflate csize size tsize 1 st p [r] st1). cbn [read_rects]. rewrite R. reflexivity.
Qed.
Lemma tights_kind : forall n l sts rs sts', read_trects istate inflate tsize n sts l = Some (rs, sts') -> all_kind 7 n l.
Proof.
  induction n as [|n IH]; intros l sts rs st'; cbn [read_trects]; [constructor|].
  destruct (read_trect _ _ _ _ l) as [[[r st1] l']|] eqn:R; [|discriminate].
  destruct (read_trects _ _ _ _ _ l') as [[rs0 st2]|] eqn:RS; [|discriminate]. intros _.
  apply tight_local in R as (p & -> & R & E0 & _). constructor; [|exact E0|eapply IH; exact RS].
  apply (readable_tight istate inflate size tsize 1 sts p [r] st1). cbn [read_trects]. rewrite R. reflexivity.
Qed.

Lemma hue_still r s : pixelless r -> hp r s = s.
Proof.
  intros P. unfold hue_paint. rewrite (full_still istate inflate size csize tsize) by exact P. unfold pixelless in P. cbn [In] in P.
  generalize dependent (to_signed 32 (field 4 8 r)). intros e P. cbn [existsb].
  destruct (e =? 0) eqn:A; [lia|]. destruct (e =? 7) eqn:B; [lia|]. destruct (e =? 16) eqn:C; [lia|]. destruct s; reflexivity.
Qed.

Lemma hue_fst n : forall l s, fst (draw_rects vw hp n l s) = draw_rects vw pnt n l (fst s).
Proof.
  induction n as [|n IH]; intros l s; cbn [draw_rects]; [reflexivity|].
  destruct (rect_len vw l) as [k|]; [|reflexivity]. rewrite IH. reflexivity.
Qed.

Lemma outside r v a b : inside r a b = false -> scr (pnt r v) a b = scr v a b.
Proof.
  intros H. unfold full_paint. cbv zeta. destruct (_ =? 0) eqn:E0.
  { cbn [Eye2_Spec.scr]. unfold raw_paint. rewrite E0. unfold put_raw. unfold inside in H. rewrite H. reflexivity. }
  destruct (_ =? 16).
  { destruct (read_rect _ _ _ _ _) as [[[z st] l]|]; [|reflexivity]. cbn [Eye2_Spec.scr]. rewrite H. reflexivity. }
  destruct (_ =? 7); [|reflexivity].
  destruct (read_trect _ _ _ _ _) as [[[t st] l]|]; [|reflexivity]. cbn [Eye2_Spec.scr]. destruct (t_data t); [rewrite H|]; reflexivity.
Qed.

Definition drawable k := k = 0 \/ k = 7 \/ k = 16.
Lemma mark_in k r m x y : drawable k -> to_signed 32 (field 4 8 r) = k -> mark r m x y = inside r x y || m x y.
Proof. intros [->|[->| ->]] E; unfold mark; rewrite E; reflexivity. Qed.
Lemma hue_in k r s x y : drawable k -> to_signed 32 (field 4 8 r) = k ->
  snd (hp r s) x y = if inside r x y then option_map (tint_of dst k) (scr (fst (hp r s)) x y) else snd s x y.
Proof. intros [->|[->| ->]] E; unfold hue_paint; cbn [fst snd]; rewrite E; reflexivity. Qed.

Lemma mark_keeps k n l x y : drawable k -> all_kind k n l -> forall m, m x y = true -> draw_rects vw mark n l m x y = true.
Proof.
  intros D. induction 1 as [l|n p l RL K A IH]; intros m M; [exact M|].
  rewrite (draw_one vw VP _ _ p l _ _ RL). apply IH. rewrite (mark_in k) by assumption. rewrite M. apply orb_true_r.
Qed.

Lemma hues_drawn k n l x y : drawable k -> all_kind k n l -> forall (s : view istate * display) (m : Z -> Z -> bool),
  (m x y = true -> snd s x y = option_map (tint_of dst k) (scr (fst s) x y)) ->
  let s' := draw_rects vw hp n l s in
  if draw_rects vw mark n l m x y then snd s' x y = option_map (tint_of dst k) (scr (fst s') x y) else
    snd s' x y = snd s x y /\ scr (fst s') x y = scr (fst s) x y.
Proof.
  intros D A0. induction A0 as [l|n p l RL K A IH]; intros s m M s'; subst s'.
  - cbn [draw_rects]. destruct (m x y); auto.
  - rewrite !(draw_one vw VP _ _ p l _ _ RL). specialize (IH (hp p s) (mark p m)). cbv zeta in IH.
    assert (MI := mark_in k p m x y D K). assert (HI := hue_in k p s x y D K).
    destruct (inside p x y) eqn:I0.
    + rewrite (mark_keeps k) in * by (assumption || (rewrite MI; reflexivity)). apply IH. intros _. exact HI.
    + cbn [orb] in MI. assert (FS : scr (fst (hp p s)) x y = scr (fst s) x y) by (apply outside; exact I0).
      rewrite HI, FS in IH. apply IH. rewrite MI. exact M.
Qed.
End D.

Section W.
Variables zstate istate : Type.
Variable deflate : zstate -> list Z -> bool -> zstate * list Z.
Variable inflate : istate -> list Z -> istate * list Z.
Variable synced : zstate -> istate -> Prop.
Hypothesis ZW : zlib_works zstate istate deflate inflate synced.
Variables dst src : pixfmt.
Notation size := (Z.to_nat (bits_per_pixel dst / 8)).
Notation csize := (Z.to_nat (calc_bytes_per_cpixel dst)).
Notation tsize := (Z.to_nat (tpixel_size dst)).
Notation vw := (viewer size tsize).
Notation pnt := (full_paint istate inflate size csize tsize).
Notation hp := (hue_paint istate inflate dst csize).
Notation scr := (scr istate). Notation zr := (zr istate). Notation ti := (ti istate).
Notation more := (fun f : frame => draw_rects vw mark (Z.to_nat (f_rects f)) (f_data f) (fun _ _ => false)).

(* the form of a pixel by the encoding *)
Definition form (k : Z) (q c : list Z) : Prop :=
  k = 0 /\ pixel_to_cpixel (bits_per_pixel dst / 8) dst src q 0 1 = Ok c \/
  k = 16 /\ pixel_to_cpixel (calc_bytes_per_cpixel dst) dst src q 0 1 = Ok c \/
  k = 7 /\ tpixel dst src q = Ok c.
Definition shade (q c : list Z) : Prop := exists k b, form k q b /\ c = tint_of dst k b.

Lemma kind_made (B : 0 <= bits_per_pixel src) e rg Q f e' s : any_frame zstate deflate dst src e rg Q f e' -> both_sync zstate istate synced e s ->
  exists k, drawable k /\ all_kind dst k (Z.to_nat (f_rects f)) (f_data f) /\
  forall x y, in_region rg x y || more f x y = true ->
    exists c, form k (Q x y) c /\ scr (draw_rects vw pnt (Z.to_nat (f_rects f)) (f_data f) s) x y = Some c.
Proof.
  assert (B8 : 0 <= bits_per_pixel src / 8) by (apply Z.div_pos; lia).
  intros [[RF ->]|[[ZF T]|[TF Z0]]] (SZ & WF & ST).
  - exists 0. split; [left; reflexivity|].
    destruct (raw_made dst src tsize tt rg Q f tt (scr s) RF I) as (N & RD & _ & K).
    destruct RF as (fb & stride & rects & extents & W & F & L & CV & PX).
    destruct (raw_work_reads _ _ _ _ _ _ _ _ F L W) as (N' & rs & F2 & RR).
    assert (NN : Z.to_nat (f_rects f) = length rects) by lia. rewrite NN in *.
    split; [eapply raws_kind; exact RR|]. intros x y.
    rewrite (full_raws istate inflate size csize tsize _ _ _ RR s).
    rewrite (mark_raws istate inflate size tsize x y rects rs) by (exact RR || (eapply F2_impl; [|exact F2]; intros b r (A1 & A2 & A3 & A4 & _); auto)).
    rewrite (in_rects rg rects x y (CV x y)), orb_false_r, orb_diag. specialize (K x y). rewrite orb_false_r in K. cbn [Eye2_Spec.scr].
    intros IR. rewrite IR in K. destruct K as (c & K1 & K2). exists c. split; [left; split; [reflexivity|exact K1]|exact K2].
  - exists 16. split; [right; right; reflexivity|].
    pose proof ZF as ZF'. destruct (zrle_made zstate istate deflate inflate synced ZW dst src B8 _ rg Q f _ s ZF SZ) as (N & RD & SZ' & K).
    destruct ZF' as (fb & stride & rects & extents & W & F & L & LD & CV & PX).
    unfold encode_frame in W. cbv zeta in W. assert (X : (Z.of_nat (length rects) >? 65535) = false) by lia. rewrite X in W.
    destruct (box_loop _ _ _ _ _ _ _ _ _ _) as [[z1 out]|] eqn:BL; cbn [bind fst snd] in W; [|discriminate].
    apply ok_inj in W. assert (W3 : z1 = fst e' /\ out = f_data f /\ Z.of_nat (length rects) = f_rects f) by (repeat split; congruence).
    destruct W3 as (-> & -> & N'). clear W.
    destruct (box_loop_reads zstate istate deflate inflate synced ZW rects _ (zr s) fb 0 0 dst src stride _ (f_data f) B8 F LD SZ BL)
      as (rs & st' & R & _ & F2).
    assert (NN : Z.to_nat (f_rects f) = length rects) by lia. rewrite NN in *.
    split; [eapply zrles_kind; exact R|].
    intros x y. specialize (K x y). rewrite orb_false_r in K.
    rewrite (mark_zrles istate inflate size csize tsize x y rects rs) with (st := zr s) (st' := st')
      by (exact R || (eapply F2_impl; [|exact F2]; intros b r (A1 & A2 & A3 & A4 & _); auto)).
    rewrite (in_rects rg rects x y (CV x y)), orb_false_r, orb_diag. intros IR. rewrite IR in K.
    destruct K as (c & K1 & K2). exists c. split; [right; left; split; [reflexivity|exact K1]|exact K2].
  - exists 7. split; [right; left; reflexivity|].
    pose proof TF as TF'. destruct (tight_made zstate istate deflate inflate synced ZW dst src B _ rg Q f _ s TF (conj WF ST)) as (N & RD & [WF' ST'] & K).
    split.
    + destruct TF' as (tf & tj & hj & w & h & rects & sched & W & <- & <- & BM & TA & TL & HW & HH & FW & NR & CV & PX).
      destruct (Tight_Props.C70_basic_tight_reads_back_partial zstate istate deflate inflate synced ZW tj hj _ tf 0 0 w h rects sched _
        (f_data f) (f_rects f) (ti s) BM TA TL WF ltac:(lia) ltac:(lia) ltac:(lia) ltac:(lia) ltac:(lia) ltac:(lia) B FW ST W)
        as (rs2 & sts2 & R2 & _ & _ & SH).
      eapply tights_kind. exact R2.
    + intros x y IR. specialize (K x y). rewrite IR in K.
      destruct K as (c & K1 & K2). exists c. split; [right; right; split; [reflexivity|exact K1]|exact K2].
Qed.

Definition hue_sync (e : zstate * tenc zstate) (s : view istate * display) : Prop := both_sync zstate istate synced e (fst s).

Lemma hue_made (B : 0 <= bits_per_pixel src) e rg Q f e' s : any_frame zstate deflate dst src e rg Q f e' -> hue_sync e s ->
  let s' := draw_rects vw hp (Z.to_nat (f_rects f)) (f_data f) s in
  0 <= f_rects f <= 65533 /\ readable vw (f_rects f) (f_data f) /\ hue_sync e' s' /\
  forall x y, if in_region rg x y || more f x y
    then exists c, shade (Q x y) c /\ snd s' x y = Some c
    else snd s' x y = snd s x y.
Proof.
  intros AF SY s'. destruct (any_made zstate istate deflate inflate synced ZW dst src B e rg Q f e' (fst s) AF SY) as (N & RD & SY' & K).
  split; [exact N|]. split; [exact RD|]. split; [unfold hue_sync, s'; rewrite hue_fst; exact SY'|].
  intros x y.
  destruct (kind_made B e rg Q f e' (fst s) AF SY) as (k & D & A & M). specialize (M x y).
  pose proof (hues_drawn istate inflate dst csize k _ _ x y D A s (fun _ _ => false)) as H. cbv zeta in H. fold s' in H.
  specialize (H ltac:(discriminate)).
  assert (FS : scr (fst s') x y = scr (draw_rects vw pnt (Z.to_nat (f_rects f)) (f_data f) (fst s)) x y) by (unfold s'; rewrite hue_fst; reflexivity).
  destruct (in_region rg x y || _) eqn:IR.
  - destruct (M eq_refl) as (c & M1 & M2). destruct (draw_rects vw mark _ _ _ x y) eqn:MK.
    + rewrite FS, M2 in H. exists (tint_of dst k c). split; [exists k, c; auto|exact H].
    + (* a pixel no rectangle has would have to be drawn on an empty screen too *)
      exfalso. set (e0 := (mk_view istate dark (zr (fst s)) (ti (fst s)), dark)).
      assert (SY0 : hue_sync e e0) by exact SY.
      destruct (kind_made B e rg Q f e' (fst e0) AF SY0) as (k0 & D0 & A0 & M0). specialize (M0 x y).
      rewrite MK, orb_false_r in M0. rewrite orb_false_r in IR. destruct (M0 IR) as (c0 & _ & M2').
      pose proof (hues_drawn istate inflate dst csize k0 _ _ x y D0 A0 e0 (fun _ _ => false)) as H0. cbv zeta in H0.
      specialize (H0 ltac:(discriminate)). rewrite MK in H0. destruct H0 as [_ H0]. rewrite hue_fst, M2' in H0. discriminate H0.
  - apply orb_false_iff in IR as [_ IR]. rewrite IR in H. apply H.
Qed.
End W.
