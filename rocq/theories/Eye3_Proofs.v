(** Raw, ZRLE and Tight frames one after the other. *)
From Verif Require Import Common CommonProofs Pixels_Model Zrle_Model Zrle_Spec Zrle2_Proofs Raw_Model Raw_Spec Tight_Model Tight_Spec
  Msg_Model Msg_Spec Msg_Proofs Upd_Spec Upd_Proofs Upd2_Proofs Upd3_Proofs Mirror_Spec Mirror_Proofs
  Wire_Spec Wire_Proofs Eye_Spec Eye2_Spec Eye3_Spec Wire2_Proofs Wire3_Proofs Eye_Proofs Eye2_Proofs.

Lemma raw_local size l r l' : read_raw size l = Some (r, l') ->
  exists p, l = p ++ l' /\ read_raw size p = Some (r, []) /\ to_signed 32 (field 4 8 p) = 0 /\
    field 2 0 p = rr_x r /\ field 2 2 p = rr_y r /\ field 2 4 p = rr_w r /\ field 2 6 p = rr_h r.
Proof.
  unfold read_raw. destruct (take 12 l) as [[hd l1]|] eqn:T; [|discriminate]. apply take_local in T as (-> & LH & T). cbv zeta.
  destruct (_ =? 0) eqn:E; [|discriminate]. pose proof E as E'. apply Z.eqb_eq in E'.
  destruct (read_cpixels _ _ l1) as [[px l2]|] eqn:C; [|discriminate]. intros H.
  assert (mk_rrect (Zrle_Spec.u16 hd) (Zrle_Spec.u16 (skipn 2 hd)) (Zrle_Spec.u16 (skipn 4 hd)) (Zrle_Spec.u16 (skipn 6 hd)) px = r /\ l2 = l')
    as [<- ->] by (split; congruence). clear H.
  apply cpixels_local in C as (p & -> & C). exists (hd ++ p). split; [apply app_assoc|].
  rewrite T. cbv zeta. rewrite E. rewrite <- (app_nil_r p) at 1. rewrite C. split; [reflexivity|].
  rewrite !(head_fields unit (fun s q => (s, q)) 12 hd p LH) by lia. unfold Zrle_Spec.u16. change (skipn 0 hd) with hd.
  assert (S8 : firstn 4 (skipn 8 hd) = skipn 8 hd) by (apply firstn_all2; rewrite skipn_length; lia).
  rewrite S8, E'. cbn [rr_x rr_y rr_w rr_h]. auto 6.
Qed.

Lemma F2_impl A B (P R : A -> B -> Prop) l m : (forall a b, P a b -> R a b) -> Forall2 P l m -> Forall2 R l m.
Proof. intros H. induction 1; constructor; auto. Qed.

Section D.
Variable istate : Type.
Variable inflate : istate -> list Z -> istate * list Z.
Variables size csize tsize : nat.
Notation vw := (viewer size tsize).
Notation VP := (viewer_prefix size tsize).
Notation pnt := (full_paint istate inflate size csize tsize).

Lemma full_raws : forall n l rs, read_raws size n l = Some rs -> forall s,
  draw_rects vw pnt n l s = mk_view istate (draw_rects vw (raw_paint size) n l (scr istate s)) (zr istate s) (ti istate s).
Proof.
  induction n as [|n IH]; intros l rs; cbn [read_raws]; [intros _ []; reflexivity|].
  destruct (read_raw size l) as [[r l']|] eqn:R; [|discriminate]. destruct (read_raws size n l') as [rs'|] eqn:RS; [|discriminate].
  intros _ s. apply raw_local in R as (p & -> & R & E0 & _).
  assert (RL : rects_len vw 1 p = Some (length p)).
  { apply (readable_raw size tsize 1 p [r]). cbn [read_raws]. rewrite R. reflexivity. }
  rewrite !(draw_one vw VP _ _ p l' _ _ RL), (IH _ _ RS). unfold full_paint. rewrite E0. reflexivity.
Qed.

Lemma mark_raws x y : forall boxes rs, Forall2 (fun b r => rr_x r = 0 + x1 b /\ rr_y r = 0 + y1 b /\ rr_w r = x2 b - x1 b /\ rr_h r = y2 b - y1 b) boxes rs ->
  forall l m, read_raws size (length boxes) l = Some rs ->
  draw_rects vw mark (length boxes) l m x y = existsb (inb x y) boxes || m x y.
Proof.
  induction 1 as [|b r boxes rs (X & Y & W & H) F IH]; intros l m; cbn [length read_raws existsb]; [reflexivity|].
  destruct (read_raw size l) as [[r0 l']|] eqn:R; [|discriminate]. destruct (read_raws size _ l') as [rs0|] eqn:RS; [|discriminate].
  intros [= -> ->]. apply raw_local in R as (p & -> & R & E0 & FX & FY & FW & FH).
  assert (RL : rects_len vw 1 p = Some (length p)).
  { apply (readable_raw size tsize 1 p [r]). cbn [read_raws]. rewrite R. reflexivity. }
  rewrite (draw_one vw VP _ _ p l' _ _ RL), (IH _ _ RS). unfold mark. rewrite E0. cbn [existsb Z.eqb orb].
  replace (inside p x y) with (inb x y b) by (unfold inside, inb; rewrite FX, FY, FW, FH; f_equal; [f_equal; [f_equal|]|]; lia).
  destruct (inb x y b), (existsb _ boxes); reflexivity.
Qed.

Lemma mark_zrles x y : forall boxes rs, Forall2 (fun b r => r_x r = 0 + x1 b /\ r_y r = 0 + y1 b /\ r_w r = x2 b - x1 b /\ r_h r = y2 b - y1 b) boxes rs ->
  forall l st st' m, read_rects istate inflate csize (length boxes) st l = Some (rs, st') ->
  draw_rects vw mark (length boxes) l m x y = existsb (inb x y) boxes || m x y.
Proof.
  induction 1 as [|b r boxes rs (X & Y & W & H) F IH]; intros l st st' m; cbn [length read_rects existsb]; [reflexivity|].
  destruct (read_rect _ _ _ _ l) as [[[r0 st1] l']|] eqn:R; [|discriminate].
  destruct (read_rects _ _ _ _ _ l') as [[rs0 st2]|] eqn:RS; [|discriminate].
  intros K. assert (r0 = r /\ rs0 = rs) as (-> & ->) by (split; congruence). clear K.
  apply zrle_local in R as (p & -> & R & E0 & FX & FY & FW & FH).
  assert (RL : rects_len vw 1 p = Some (length p)).
  { apply (readable_zrle istate inflate csize size tsize 1 st p [r] st1). cbn [read_rects]. rewrite R. reflexivity. }
  rewrite (draw_one vw VP _ _ p l' _ _ RL), (IH _ _ _ _ RS). unfold mark. rewrite E0. cbn [existsb Z.eqb Pos.eqb orb].
  replace (inside p x y) with (inb x y b) by (unfold inside, inb; rewrite FX, FY, FW, FH; f_equal; [f_equal; [f_equal|]|]; lia).
  destruct (inb x y b), (existsb _ boxes); reflexivity.
Qed.

Lemma zrle_ti : forall n l rs st' s, read_rects istate inflate csize n (zr istate s) l = Some (rs, st') ->
  ti istate (draw_rects vw pnt n l s) = ti istate s.
Proof.
  induction n as [|n IH]; intros l rs st' s; cbn [read_rects]; [reflexivity|].
  destruct (read_rect _ _ _ _ l) as [[[r st1] l']|] eqn:R; [|discriminate].
  destruct (read_rects _ _ _ _ _ l') as [[rs0 st2]|] eqn:RS; [|discriminate]. intros _.
  apply zrle_local in R as (p & -> & R & E0 & _).
  assert (RL : rects_len vw 1 p = Some (length p)).
  { apply (readable_zrle istate inflate csize size tsize 1 (zr istate s) p [r] st1). cbn [read_rects]. rewrite R. reflexivity. }
  rewrite (draw_one vw VP _ _ p l' _ _ RL).
  assert (K : zr istate (pnt p s) = st1 /\ ti istate (pnt p s) = ti istate s).
  { unfold full_paint. cbv zeta. rewrite E0. change (16 =? 0) with false. change (16 =? 16) with true. cbv iota. rewrite R. split; reflexivity. }
  destruct K as [K1 K2]. rewrite <- K1 in RS. rewrite (IH _ _ _ _ RS). exact K2.
Qed.

Lemma tight_zr : forall n l rs sts' s, read_trects istate inflate tsize n (ti istate s) l = Some (rs, sts') ->
  zr istate (draw_rects vw pnt n l s) = zr istate s.
Proof.
  induction n as [|n IH]; intros l rs st' s; cbn [read_trects]; [reflexivity|].
  destruct (read_trect _ _ _ _ l) as [[[r st1] l']|] eqn:R; [|discriminate].
  destruct (read_trects _ _ _ _ _ l') as [[rs0 st2]|] eqn:RS; [|discriminate]. intros _.
  apply tight_local in R as (p & -> & R & E0 & _).
  assert (RL : rects_len vw 1 p = Some (length p)).
  { apply (readable_tight istate inflate size tsize 1 (ti istate s) p [r] st1). cbn [read_trects]. rewrite R. reflexivity. }
  rewrite (draw_one vw VP _ _ p l' _ _ RL).
  assert (K : ti istate (pnt p s) = st1 /\ zr istate (pnt p s) = zr istate s).
  { unfold full_paint. cbv zeta. rewrite E0. change (7 =? 0) with false. change (7 =? 16) with false. change (7 =? 7) with true. cbv iota. rewrite R. split; reflexivity. }
  destruct K as [K1 K2]. rewrite <- K1 in RS. rewrite (IH _ _ _ _ RS). exact K2.
Qed.
End D.

Section W.
Variables zstate istate : Type.
Variable deflate : zstate -> list Z -> bool -> zstate * list Z.
Variable inflate : istate -> list Z -> istate * list Z.
Variable synced : zstate -> istate -> Prop.
Hypothesis ZW : zlib_works zstate istate deflate inflate synced.
Variables dst src : pixfmt.
Notation size := (Z.to_nat (bits_per_pixel dst / 8)).
Notation csize := (Z.to_nat (calc_bytes_per_cpixel dst)).
Notation tsize := (Z.to_nat (tpixel_size dst)).
Notation vw := (viewer size tsize).
Notation pnt := (full_paint istate inflate size csize tsize).
Notation scr := (scr istate). Notation zr := (zr istate). Notation ti := (ti istate).
Notation more := (fun f : frame => draw_rects vw mark (Z.to_nat (f_rects f)) (f_data f) (fun _ _ => false)).

Definition both_sync (e : zstate * tenc zstate) (s : view istate) : Prop :=
  synced (fst e) (zr s) /\ well_formed (snd e) /\ streams_synced synced (snd e) (ti s).

Lemma any_made (B : 0 <= bits_per_pixel src) e rg Q f e' s : any_frame zstate deflate dst src e rg Q f e' -> both_sync e s ->
  let s' := draw_rects vw pnt (Z.to_nat (f_rects f)) (f_data f) s in
  0 <= f_rects f <= 65533 /\ readable vw (f_rects f) (f_data f) /\ both_sync e' s' /\
  forall x y, if in_region rg x y || more f x y
    then exists c, pixel_form dst src (Q x y) c /\ scr s' x y = Some c
    else scr s' x y = scr s x y.
Proof.
  assert (B8 : 0 <= bits_per_pixel src / 8) by (apply Z.div_pos; lia).
  intros [[RF ->]|[[ZF T]|[TF Z0]]] (SZ & WF & ST) s'; subst s'.
  - destruct (raw_made dst src tsize tt rg Q f tt (scr s) RF I) as (N & RD & _ & K). split; [exact N|]. split; [exact RD|].
    destruct RF as (fb & stride & rects & extents & W & F & L & CV & PX).
    destruct (raw_work_reads _ _ _ _ _ _ _ _ F L W) as (N' & rs & F2 & RR).
    assert (NN : Z.to_nat (f_rects f) = length rects) by lia. rewrite NN in *.
    rewrite (full_raws istate inflate size csize tsize _ _ _ RR s).
    split; [split; [exact SZ|split; [exact WF|exact ST]]|].
    intros x y. rewrite (mark_raws istate inflate size tsize x y rects rs) by (exact RR || (eapply F2_impl; [|exact F2]; intros b r (A1 & A2 & A3 & A4 & _); auto)).
    rewrite (in_rects rg rects x y (CV x y)), orb_false_r, orb_diag. specialize (K x y). rewrite orb_false_r in K. cbn [Eye2_Spec.scr].
    destruct (in_region rg x y); [|exact K]. destruct K as (c & K1 & K2). exists c. split; [left; exact K1|exact K2].
  - pose proof ZF as ZF'. destruct (zrle_made zstate istate deflate inflate synced ZW dst src B8 _ rg Q f _ s ZF SZ) as (N & RD & SZ' & K).
    split; [exact N|]. split; [exact RD|].
    destruct ZF' as (fb & stride & rects & extents & W & F & L & LD & CV & PX).
    unfold encode_frame in W. cbv zeta in W. assert (X : (Z.of_nat (length rects) >? 65535) = false) by lia. rewrite X in W.
    destruct (box_loop _ _ _ _ _ _ _ _ _ _) as [[z1 out]|] eqn:BL; cbn [bind fst snd] in W; [|discriminate].
    apply ok_inj in W. assert (W3 : z1 = fst e' /\ out = f_data f /\ Z.of_nat (length rects) = f_rects f) by (repeat split; congruence).
    destruct W3 as (-> & -> & N'). clear W.
    destruct (box_loop_reads zstate istate deflate inflate synced ZW rects _ (zr s) fb 0 0 dst src stride _ (f_data f) B8 F LD SZ BL)
      as (rs & st' & R & _ & F2).
    assert (NN : Z.to_nat (f_rects f) = length rects) by lia. rewrite NN in *.
    split.
    + split; [exact SZ'|]. rewrite T. split; [exact WF|]. rewrite (zrle_ti istate inflate size csize tsize _ _ _ _ s R). exact ST.
    + intros x y. specialize (K x y). rewrite orb_false_r in K.
      rewrite (mark_zrles istate inflate size csize tsize x y rects rs) with (st := zr s) (st' := st')
        by (exact R || (eapply F2_impl; [|exact F2]; intros b r (A1 & A2 & A3 & A4 & _); auto)).
      rewrite (in_rects rg rects x y (CV x y)), orb_false_r, orb_diag.
      destruct (in_region rg x y); [|exact K]. destruct K as (c & K1 & K2). exists c. split; [right; left; exact K1|exact K2].
  - pose proof TF as TF'. destruct (tight_made zstate istate deflate inflate synced ZW dst src B _ rg Q f _ s TF (conj WF ST)) as (N & RD & [WF' ST'] & K).
    split; [exact N|]. split; [exact RD|]. split.
    + split; [|split; [exact WF'|exact ST']]. rewrite Z0.
      destruct TF' as (tf & tj & hj & w & h & rects & sched & W & <- & <- & BM & TA & TL & HW & HH & FW & NR & CV & PX).
      destruct (Tight_Props.C70_basic_tight_reads_back_partial zstate istate deflate inflate synced ZW tj hj _ tf 0 0 w h rects sched _
        (f_data f) (f_rects f) (ti s) BM TA TL WF ltac:(lia) ltac:(lia) ltac:(lia) ltac:(lia) ltac:(lia) ltac:(lia) B FW ST W)
        as (rs2 & sts2 & R2 & _ & _ & SH).
      rewrite (tight_zr istate inflate _ _ _ _ _ _ _ s R2). exact SZ.
    + intros x y. specialize (K x y). destruct (in_region rg x y || _); [|exact K].
      destruct K as (c & K1 & K2). exists c. split; [right; right; exact K1|exact K2].
Qed.
End W.
