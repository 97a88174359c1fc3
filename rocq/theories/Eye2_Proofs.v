(** ZRLE and Tight frames on the screen. *)
From Verif Require Import Common CommonProofs Pixels_Model Zrle_Model Zrle_Spec Zrle2_Proofs Raw_Model Raw_Spec Tight_Model Tight_Spec
  Msg_Model Msg_Spec Msg_Proofs Upd_Spec Upd_Proofs Upd2_Proofs Upd3_Proofs Mirror_Spec Mirror_Proofs
  Wire_Spec Wire_Proofs Eye_Spec Eye2_Spec Wire2_Proofs Wire3_Proofs Eye_Proofs Tight_Props.

(* what a reader takes does not depend on what comes after *)
Lemma take_local n l v l' : take n l = Some (v, l') -> l = v ++ l' /\ length v = n /\ forall r, take n (v ++ r) = Some (v, r).
Proof.
  intros T. apply take_some in T as (T & -> & ->). split; [symmetry; apply firstn_skipn|].
  assert (L : length (firstn n l) = n) by (rewrite firstn_length; lia). split; [exact L|].
  intros r. unfold take. rewrite app_length, L. destruct (Nat.leb_spec n (n + length r)); [|lia].
  rewrite firstn_app_eq, skipn_app_eq by exact L. reflexivity.
Qed.
Lemma cpixels_local size n : forall l v l', read_cpixels size n l = Some (v, l') ->
  exists p, l = p ++ l' /\ forall r, read_cpixels size n (p ++ r) = Some (v, r).
Proof.
  induction n as [|n IH]; intros l v l'; cbn [read_cpixels].
  - intros H. assert (v = [] /\ l' = l) as [-> ->] by (split; congruence). exists []. auto.
  - destruct (take size l) as [[a b]|] eqn:T; [|discriminate]. destruct (read_cpixels size n b) as [[ps l2]|] eqn:R; [|discriminate].
    intros H. assert (v = a :: ps /\ l2 = l') as [-> ->] by (split; congruence). clear H.
    apply take_local in T as (-> & _ & T). apply IH in R as (p & -> & R). exists (a ++ p). split; [apply app_assoc|].
    intros r. rewrite <- app_assoc, T, R. reflexivity.
Qed.
Lemma read_len_local l v l' : read_len l = Some (v, l') -> exists p, l = p ++ l' /\ forall r, read_len (p ++ r) = Some (v, r).
Proof.
  unfold read_len. destruct l as [|a l]; [discriminate|].
  destruct (a <? 128) eqn:A; [intros [= <- <-]; exists [a]; split; [reflexivity|]; intros r; cbn [app]; rewrite A; reflexivity|].
  destruct l as [|b l]; [discriminate|].
  destruct (b <? 128) eqn:B; [intros [= <- <-]; exists [a; b]; split; [reflexivity|]; intros r; cbn [app]; rewrite A, B; reflexivity|].
  destruct l as [|c l]; [discriminate|]. intros [= <- <-]. exists [a; b; c]. split; [reflexivity|].
  intros r. cbn [app]. rewrite A, B. reflexivity.
Qed.

Lemma some3 A B C (a a' : A) (b b' : B) (c c' : C) : Some (a, b, c) = Some (a', b', c') -> a = a' /\ b = b' /\ c = c'.
Proof. intros H. repeat split; congruence. Qed.

Section L.
Variable istate : Type.
Variable inflate : istate -> list Z -> istate * list Z.

Lemma head_fields n hd r : length hd = n -> forall k i, (i + k <= n)%nat -> field k i (hd ++ r) = unbe (firstn k (skipn i hd)).
Proof. intros L k i H. rewrite field_app by lia. reflexivity. Qed.

Lemma zrle_local csize st l z st' l' : read_rect istate inflate csize st l = Some (z, st', l') ->
  exists p, l = p ++ l' /\ read_rect istate inflate csize st p = Some (z, st', []) /\ to_signed 32 (field 4 8 p) = 16 /\
    field 2 0 p = r_x z /\ field 2 2 p = r_y z /\ field 2 4 p = r_w z /\ field 2 6 p = r_h z.
Proof.
  unfold read_rect. destruct (take 16 l) as [[hd l1]|] eqn:T; [|discriminate]. apply take_local in T as (-> & LH & T). cbv zeta.
  destruct (_ =? 16) eqn:E; [|discriminate]. apply Z.eqb_eq in E.
  destruct (take _ l1) as [[data l2]|] eqn:T2; [|discriminate]. apply take_local in T2 as (-> & _ & T2).
  destruct (inflate st data) as [st1 plain] eqn:IN. destruct (read_tiles _ _ _) as [[rs [|]]|] eqn:RT; [|discriminate|discriminate].
  intros H. apply some3 in H as (<- & <- & <-). exists (hd ++ data). split; [apply app_assoc|].
  rewrite T. cbv zeta. rewrite E, Z.eqb_refl. rewrite <- (app_nil_r data) at 1. rewrite T2, IN, RT.
  split; [reflexivity|]. rewrite !(head_fields 16 hd data LH) by lia. rewrite E. cbn [r_x r_y r_w r_h]. unfold Zrle_Spec.u16.
  change (skipn 0 hd) with hd. auto 6.
Qed.

Lemma zrle_still csize st st' l z : forall r, read_rect istate inflate csize st l = Some (z, st', r) -> (length r <= length l)%nat.
Proof. intros r H. apply zrle_local in H as (p & -> & _). rewrite app_length. lia. Qed.

Lemma basic_local size n w h sts l px sts' l' : read_basic istate inflate size n w h sts l = Some (px, sts', l') ->
  exists p, l = p ++ l' /\ forall r, read_basic istate inflate size n w h sts (p ++ r) = Some (px, sts', r).
Proof.
  unfold read_basic. cbv zeta. destruct (_ <? 12)%nat.
  - destruct (read_cpixels _ _ l) as [[ps l2]|] eqn:C; [|discriminate]. intros H. apply some3 in H as (<- & <- & <-).
    apply cpixels_local in C as (p & -> & C). exists p. split; [reflexivity|]. intros r. rewrite C. reflexivity.
  - destruct (read_len l) as [[v l1]|] eqn:R; [|discriminate]. destruct (nth_error sts n) as [st|]; [|discriminate].
    destruct (take _ l1) as [[data l2]|] eqn:T; [|discriminate]. destruct (inflate st data) as [st1 plain] eqn:IN.
    destruct (read_cpixels _ _ plain) as [[ps [|]]|] eqn:C; [|discriminate|discriminate].
    intros H. apply some3 in H as (<- & <- & <-). apply read_len_local in R as (p & -> & R). apply take_local in T as (-> & _ & T).
    exists (p ++ data). split; [apply app_assoc|]. intros r. rewrite <- app_assoc, R, T, IN, C. reflexivity.
Qed.

Lemma tight_local size sts l t sts' l' : read_trect istate inflate size sts l = Some (t, sts', l') ->
  exists p, l = p ++ l' /\ read_trect istate inflate size sts p = Some (t, sts', []) /\ to_signed 32 (field 4 8 p) = 7 /\
    field 2 0 p = t_x t /\ field 2 2 p = t_y t /\ field 2 4 p = t_w t /\ field 2 6 p = t_h t.
Proof.
  unfold read_trect. destruct (take 12 l) as [[hd l1]|] eqn:T; [|discriminate]. apply take_local in T as (-> & LH & T). cbv zeta.
  destruct (_ =? 7) eqn:E; [|discriminate]. pose proof E as E'. apply Z.eqb_eq in E'. destruct l1 as [|c l1]; [discriminate|].
  assert (HF : forall (q : list Z) t0, t_x t0 = Zrle_Spec.u16 hd -> t_y t0 = Zrle_Spec.u16 (skipn 2 hd) -> t_w t0 = Zrle_Spec.u16 (skipn 4 hd) -> t_h t0 = Zrle_Spec.u16 (skipn 6 hd) ->
    to_signed 32 (field 4 8 (hd ++ q)) = 7 /\
    field 2 0 (hd ++ q) = t_x t0 /\ field 2 2 (hd ++ q) = t_y t0 /\ field 2 4 (hd ++ q) = t_w t0 /\ field 2 6 (hd ++ q) = t_h t0).
  { intros q t0 -> -> -> ->. rewrite !(head_fields 12 hd q LH) by lia. unfold Zrle_Spec.u16. change (skipn 0 hd) with hd.
    assert (S8 : firstn 4 (skipn 8 hd) = skipn 8 hd) by (apply firstn_all2; rewrite skipn_length; lia).
    rewrite S8, E'. auto 6. }
  destruct (c =? 144) eqn:J.
  - destruct (read_len l1) as [[v l2]|] eqn:R; [|discriminate]. destruct (take _ l2) as [[data l3]|] eqn:T2; [|discriminate].
    intros H. apply some3 in H as (<- & <- & <-). apply read_len_local in R as (p & -> & R). apply take_local in T2 as (-> & _ & T2).
    exists (hd ++ c :: p ++ data). split; [cbn [app]; rewrite <- !app_assoc; cbn [app]; rewrite <- app_assoc; reflexivity|].
    rewrite T. cbv zeta. rewrite E, J, R. rewrite <- (app_nil_r data) at 1. rewrite T2. split; [reflexivity|]. apply HF; reflexivity.
  - destruct (existsb _ _) eqn:X; [|discriminate]. destruct (read_basic _ _ _ _ _ _ _ _) as [[[px s1] l2]|] eqn:R; [|discriminate].
    intros H. apply some3 in H as (<- & <- & <-). apply basic_local in R as (p & -> & R).
    exists (hd ++ c :: p). split; [rewrite <- app_assoc; reflexivity|].
    rewrite T. cbv zeta. rewrite E, J, X. rewrite <- (app_nil_r p) at 1. rewrite R. split; [reflexivity|]. apply HF; reflexivity.
Qed.
End L.

(* one rectangle before others *)
Lemma draw_one vw (VP : prefix_wise (fun _ => vw)) St (pnt : list Z -> St -> St) p l n s : rects_len vw 1 p = Some (length p) ->
  draw_rects vw pnt (S n) (p ++ l) s = draw_rects vw pnt n l (pnt p s).
Proof.
  intros H. change (S n) with (1 + n)%nat. rewrite (draw_cat vw VP) by exact H. f_equal.
  cbn [draw_rects rects_len] in *. destruct (rect_len vw p) as [k|] eqn:R; [|discriminate].
  injection H as H. f_equal. apply firstn_all2. lia.
Qed.

Lemma mark_still r s : pixelless r -> mark r s = s.
Proof.
  unfold pixelless, mark. cbn [In existsb]. intros H. generalize dependent (to_signed 32 (field 4 8 r)). intros e H.
  destruct (e =? 0) eqn:A; [lia|]. destruct (e =? 7) eqn:B; [lia|]. destruct (e =? 16) eqn:C; [lia|]. reflexivity.
Qed.

Section D.
Variable istate : Type.
Variable inflate : istate -> list Z -> istate * list Z.
Variables size csize tsize : nat.
Notation vw := (viewer size tsize).
Notation VP := (viewer_prefix size tsize).
Notation pnt := (full_paint istate inflate size csize tsize).
Notation scr := (scr istate). Notation zr := (zr istate). Notation ti := (ti istate).

Lemma full_still r s : pixelless r -> pnt r s = s.
Proof.
  unfold pixelless, full_paint. cbn [In]. intros H. generalize dependent (to_signed 32 (field 4 8 r)). intros e H. cbv zeta.
  destruct (e =? 0) eqn:A; [lia|]. destruct (e =? 16) eqn:B; [lia|]. destruct (e =? 7) eqn:C; [lia|]. reflexivity.
Qed.

Lemma draw_zrles fb stride dst src x y (CS : csize = Z.to_nat (calc_bytes_per_cpixel dst)) : forall boxes rs,
  Forall2 (shows fb stride 0 0 dst src) boxes rs ->
  forall l s st', read_rects istate inflate csize (length boxes) (zr s) l = Some (rs, st') ->
  let s' := draw_rects vw pnt (length boxes) l s in
  zr s' = st' /\
  if existsb (inb x y) boxes
  then exists p c, get fb ((y * stride + x) * (bits_per_pixel src / 8)) (bits_per_pixel src / 8) = Ok p /\
    pixel_to_cpixel (calc_bytes_per_cpixel dst) dst src p 0 1 = Ok c /\ scr s' x y = Some c
  else scr s' x y = scr s x y.
Proof.
  induction 1 as [|b r boxes rs SH F IH]; intros l s st'; cbn [length read_rects existsb].
  { destruct l; [|discriminate]. intros [= <-]. split; reflexivity. }
  destruct (read_rect _ _ _ _ l) as [[[r0 st1] l']|] eqn:R; [|discriminate].
  destruct (read_rects _ _ _ _ _ l') as [[rs0 st2]|] eqn:RS; [|discriminate].
  intros H. assert (r0 = r /\ rs0 = rs /\ st2 = st') as (-> & -> & ->) by (repeat split; congruence). clear H.
  apply zrle_local in R as (p & -> & R & E16 & FX & FY & FW & FH).
  assert (RL : rects_len vw 1 p = Some (length p)).
  { apply (readable_zrle istate inflate csize size tsize 1 (zr s) p [r] st1). cbn [read_rects]. rewrite R. reflexivity. }
  rewrite (draw_one vw VP _ pnt p l' _ s RL).
  set (s1 := pnt p s).
  assert (S1 : zr s1 = st1 /\ scr s1 x y = if inside p x y then Zrle_Spec.shown r (x - r_x r) (y - r_y r) else scr s x y).
  { subst s1. unfold full_paint. cbv zeta. rewrite E16. change (16 =? 0) with false. change (16 =? 16) with true. cbv iota. rewrite R. split; reflexivity. }
  destruct S1 as [Z1 C1]. rewrite <- Z1 in RS. destruct (IH l' s1 st' RS) as [Z2 C2]. split; [exact Z2|].
  destruct (existsb (inb x y) boxes); [rewrite orb_true_r; exact C2|]. rewrite orb_false_r.
  destruct SH as (X & Y & W & HH & SH).
  replace (inside p x y) with (inb x y b) in C1 by (unfold inside, inb; rewrite FX, FY, FW, FH; f_equal; [f_equal; [f_equal|]|]; lia).
  destruct (inb x y b) eqn:IN; [|rewrite C2; exact C1]. unfold inb in IN.
  destruct (SH (x - r_x r) (y - r_y r)) as (q & c & G & C & N); [lia|lia|].
  exists q, c. split; [|split; [exact C|]].
  - rewrite <- G. f_equal. f_equal. f_equal; [f_equal|]; lia.
  - rewrite C2, C1. exact N.
Qed.

Lemma draw_tights tf x y (TS : tsize = Z.to_nat (tpixel_size (tf_dst tf))) : forall rs,
  Forall (trect_shows tf 0 0) rs ->
  forall n l s sts', read_trects istate inflate tsize n (ti s) l = Some (rs, sts') ->
  let s' := draw_rects vw pnt n l s in
  ti s' = sts' /\ (forall m, draw_rects vw mark n l m x y = existsb (coversb 0 0 x y) rs || m x y) /\
  if existsb (coversb 0 0 x y) rs
  then exists p c, get (tf_fb tf) ((y * tf_stride tf + x) * (bits_per_pixel (tf_src tf) / 8)) (bits_per_pixel (tf_src tf) / 8) = Ok p /\
    tpixel (tf_dst tf) (tf_src tf) p = Ok c /\ scr s' x y = Some c
  else scr s' x y = scr s x y.
Proof.
  induction 1 as [|r rs SH F IH]; intros n l s sts'; destruct n as [|n]; cbn [read_trects existsb].
  { destruct l; [|discriminate]. intros [= <-]. repeat split. }
  { destruct (read_trect _ _ _ _ l) as [[[r0 st1] l']|]; [|discriminate]. destruct (read_trects _ _ _ _ _ l') as [[]|]; discriminate. }
  { destruct l; discriminate. }
  destruct (read_trect _ _ _ _ l) as [[[r0 st1] l']|] eqn:R; [|discriminate].
  destruct (read_trects _ _ _ _ _ l') as [[rs0 st2]|] eqn:RS; [|discriminate].
  intros H. assert (r0 = r /\ rs0 = rs /\ st2 = sts') as (-> & -> & ->) by (repeat split; congruence). clear H.
  apply tight_local in R as (p & -> & R & E7 & FX & FY & FW & FH).
  assert (RL : rects_len vw 1 p = Some (length p)).
  { apply (readable_tight istate inflate size tsize 1 (ti s) p [r] st1). cbn [read_trects]. rewrite R. reflexivity. }
  rewrite (draw_one vw VP _ pnt p l' _ s RL).
  destruct SH as (px & D & LP & SH).
  assert (IN0 : inside p x y = coversb 0 0 x y r) by (unfold inside, coversb; rewrite FX, FY, FW, FH; reflexivity).
  set (s1 := pnt p s).
  assert (S1 : ti s1 = st1 /\ scr s1 x y = if coversb 0 0 x y r then nth_error px (Z.to_nat ((y - t_y r) * t_w r + (x - t_x r))) else scr s x y).
  { subst s1. unfold full_paint. cbv zeta. rewrite E7. change (7 =? 0) with false. change (7 =? 16) with false. change (7 =? 7) with true. cbv iota.
    rewrite R, D. cbn [Eye2_Spec.ti Eye2_Spec.scr]. rewrite IN0. split; reflexivity. }
  destruct S1 as [Z1 C1]. rewrite <- Z1 in RS. destruct (IH n l' s1 sts' RS) as (Z2 & MK & C2). split; [exact Z2|].
  split.
  { intros m. rewrite (draw_one vw VP _ mark p l' _ m RL), MK. unfold mark. rewrite E7. cbn [existsb Z.eqb Pos.eqb orb].
    rewrite IN0. destruct (coversb 0 0 x y r), (existsb _ rs); reflexivity. }
  destruct (existsb (coversb 0 0 x y) rs); [rewrite orb_true_r; exact C2|]. rewrite orb_false_r.
  destruct (coversb 0 0 x y r) eqn:IN; [|rewrite C2; exact C1]. unfold coversb in IN.
  destruct (SH (x - t_x r) (y - t_y r)) as (q & c & G & C & N); [lia|lia|].
  exists q, c. split; [|split; [exact C|]].
  - rewrite <- G. f_equal. f_equal. f_equal; [f_equal|]; lia.
  - rewrite C2, C1. exact N.
Qed.
End D.

Section W.
Variables zstate istate : Type.
Variable deflate : zstate -> list Z -> bool -> zstate * list Z.
Variable inflate : istate -> list Z -> istate * list Z.
Variable synced : zstate -> istate -> Prop.
Hypothesis ZW : zlib_works zstate istate deflate inflate synced.
Variables dst src : pixfmt.
Notation size := (Z.to_nat (bits_per_pixel dst / 8)).
Notation csize := (Z.to_nat (calc_bytes_per_cpixel dst)).
Notation tsize := (Z.to_nat (tpixel_size dst)).
Notation vw := (viewer size tsize).
Notation pnt := (full_paint istate inflate size csize tsize).
Notation scr := (scr istate). Notation zr := (zr istate). Notation ti := (ti istate).

Lemma zrle_made (B : 0 <= bits_per_pixel src / 8) z rg Q f z' s : zrle_frame zstate deflate dst src z rg Q f z' -> synced z (zr s) ->
  let s' := draw_rects vw pnt (Z.to_nat (f_rects f)) (f_data f) s in
  0 <= f_rects f <= 65533 /\ readable vw (f_rects f) (f_data f) /\ synced z' (zr s') /\
  forall x y, if in_region rg x y || false
    then exists c, pixel_to_cpixel (calc_bytes_per_cpixel dst) dst src (Q x y) 0 1 = Ok c /\ scr s' x y = Some c
    else scr s' x y = scr s x y.
Proof.
  intros (fb & stride & rects & extents & W & F & L & LD & CV & PX) SY s'. subst s'.
  unfold encode_frame in W. cbv zeta in W. assert (X : (Z.of_nat (length rects) >? 65535) = false) by lia. rewrite X in W.
  destruct (box_loop _ _ _ _ _ _ _ _ _ _) as [[z1 out]|] eqn:BL; cbn [bind fst snd] in W; [|discriminate].
  apply ok_inj in W. assert (W3 : z1 = z' /\ out = f_data f /\ Z.of_nat (length rects) = f_rects f) by (repeat split; congruence).
  destruct W3 as (-> & -> & N). clear W.
  destruct (box_loop_reads zstate istate deflate inflate synced ZW rects z (zr s) fb 0 0 dst src stride z' (f_data f) B F LD SY BL)
    as (rs & st' & R & SY' & F2).
  split; [lia|]. rewrite <- N, Nat2Z.id. split; [unfold readable; rewrite Nat2Z.id; apply (readable_zrle _ _ _ _ _ _ _ _ _ _ R)|].
  split.
  - destruct (draw_zrles istate inflate size csize tsize fb stride dst src 0 0 eq_refl rects rs F2 (f_data f) s st' R) as [K _]. rewrite K. exact SY'.
  - intros x y. destruct (draw_zrles istate inflate size csize tsize fb stride dst src x y eq_refl rects rs F2 (f_data f) s st' R) as [_ K].
    rewrite orb_false_r. rewrite (in_rects rg rects x y (CV x y)) in K. destruct (in_region rg x y) eqn:I0; [|exact K].
    destruct K as (p & c & K1 & K2 & K3). apply in_region_covers, PX in I0. rewrite I0 in K1. injection K1 as <-. eauto.
Qed.

Definition tight_sync (te : tenc zstate) (s : view istate) : Prop := well_formed te /\ streams_synced synced te (ti s).
Notation tight_more := (fun f : frame => draw_rects vw mark (Z.to_nat (f_rects f)) (f_data f) (fun _ _ => false)).

Lemma tight_wide f b :
  (forall St (pnt : list Z -> St -> St), (forall r s, pixelless r -> pnt r s = s) ->
     forall s, draw vw pnt s b = draw_rects vw pnt (Z.to_nat (f_rects f)) (f_data f) s) ->
  forall x y, touched dst b x y = tight_more f x y.
Proof. intros H x y. unfold touched, viewer_of. rewrite (H _ mark mark_still). reflexivity. Qed.

Lemma times_exists A (t : A -> bool) l : times t l = 1%nat -> existsb t l = true.
Proof.
  unfold times. induction l as [|a l IH]; cbn [filter existsb length]; [discriminate|].
  destruct (t a); cbn [length orb]; [reflexivity|exact IH].
Qed.

Lemma tight_made (B : 0 <= bits_per_pixel src) z rg Q f z' s : tight_frame zstate deflate dst src z rg Q f z' -> tight_sync z s ->
  let s' := draw_rects vw pnt (Z.to_nat (f_rects f)) (f_data f) s in
  0 <= f_rects f <= 65533 /\ readable vw (f_rects f) (f_data f) /\ tight_sync z' s' /\
  forall x y, if in_region rg x y || tight_more f x y
    then exists c, tpixel dst src (Q x y) = Ok c /\ scr s' x y = Some c
    else scr s' x y = scr s x y.
Proof.
  intros (tf & tj & hj & w & h & rects & sched & W & <- & <- & BM & TA & TL & HW & HH & FW & NR & CV & PX) [WF SY] s'. subst s'.
  destruct (C21_every_damaged_pixel_is_sent_partial zstate istate deflate inflate synced ZW tj hj z tf 0 0 w h rects sched z'
    (f_data f) (f_rects f) (ti s) WF HW HH ltac:(lia) ltac:(lia) ltac:(lia) ltac:(lia) B (fun _ => conj TA TL) FW SY W)
    as (rs & sts' & R & N & _ & WF' & SY' & INS & ONE).
  destruct (C70_basic_tight_reads_back_partial zstate istate deflate inflate synced ZW tj hj z tf 0 0 w h rects sched z'
    (f_data f) (f_rects f) (ti s) BM TA TL WF ltac:(lia) ltac:(lia) ltac:(lia) ltac:(lia) ltac:(lia) ltac:(lia) B FW SY W)
    as (rs2 & sts2 & R2 & _ & _ & SH).
  rewrite R in R2. assert (rs2 = rs) by congruence. subst rs2. clear R2 sts2.
  set (sz := Z.to_nat (bits_per_pixel (tf_dst tf) / 8)). set (cz := Z.to_nat (calc_bytes_per_cpixel (tf_dst tf))).
  split; [lia|]. split; [unfold readable; apply (readable_tight _ _ _ _ _ _ _ _ _ R)|].
  split.
  - destruct (draw_tights istate inflate sz cz _ tf 0 0 eq_refl rs SH _ (f_data f) s sts' R) as [K _]. split; [exact WF'|].
    rewrite K. exact SY'.
  - intros x y. destruct (draw_tights istate inflate sz cz _ tf x y eq_refl rs SH _ (f_data f) s sts' R) as (_ & MK & K).
    fold sz. rewrite MK, orb_false_r.
    assert (IR : in_region rg x y || existsb (coversb 0 0 x y) rs = existsb (coversb 0 0 x y) rs).
    { destruct (in_region rg x y) eqn:I0; [|reflexivity]. apply in_region_covers, CV in I0 as (X & Y & D).
      symmetry. cbn [orb]. apply times_exists, ONE; assumption. }
    rewrite IR. destruct (existsb (coversb 0 0 x y) rs) eqn:EX; [|exact K].
    destruct K as (p & c & K1 & K2 & K3). exists c. split; [|exact K3].
    apply existsb_exists in EX as (r & IN & CB). rewrite Forall_forall in INS. specialize (INS r IN). unfold coversb in CB.
    rewrite (PX x y) in K1 by lia. injection K1 as ->. exact K2.
Qed.
End W.
