(** From the messages to the screen. *)
From Verif Require Import Common CommonProofs Pixels_Model Zrle_Model Zrle_Spec Raw_Model Raw_Spec Raw_Proofs
  Msg_Model Msg_Spec Msg_Proofs Upd_Spec Upd_Proofs Upd2_Proofs Upd3_Proofs Mirror_Spec Mirror_Proofs
  Wire_Spec Wire_Proofs Eye_Spec Wire2_Proofs Wire3_Proofs.

Section Q.
Variable vw : Wire_Spec.picture.
Notation pc := (fun _ : list Z => vw).
Hypothesis VP : prefix_wise pc.
Variable St : Type.
Variable pnt : list Z -> St -> St.
Hypothesis still : forall r s, pixelless r -> pnt r s = s.
Variable start : St.

(* what the frames in the log draw *)
Definition drawn (l : list out) (s : St) : St :=
  fold_left (fun s o => match o with Update KFrame b => draw vw pnt s b | _ => s end) l s.

Lemma drawn_app l m s : drawn (l ++ m) s = drawn m (drawn l s).
Proof. apply fold_left_app. Qed.
Lemma drawn_none l : forall s, Forall (fun o => match o with Update KFrame _ => False | _ => True end) l -> drawn l s = s.
Proof.
  induction l as [|o l IH]; intros s H; [reflexivity|]. inversion H as [|? ? O F]; subst. unfold drawn in *. cbn [fold_left].
  destruct o as [|k b| | | | | | | | | | | | | |]; try (apply IH; exact F). destruct k; try (apply IH; exact F); destruct O.
Qed.
Lemma sent_none l : sent l = [] -> Forall (fun o => match o with Update KFrame _ => False | _ => True end) l.
Proof.
  induction l as [|o l IH]; intros H; [constructor|]. cbn [sent flat_map] in H. apply app_eq_nil in H as [H1 H2].
  constructor; [|apply IH; exact H2]. destruct o; try exact I. discriminate H1.
Qed.

Lemma flow_shown L L' : flow pc St pnt True L L' -> one_byte_leds L' ->
  (exists ms, splits pc [] (traffic L) ms /\ fold_left (draw vw pnt) ms start = drawn L start) ->
  exists ms, splits pc [] (traffic L') ms /\ fold_left (draw vw pnt) ms start = drawn L' start.
Proof.
  induction 1 as [L|L l L' F G IH]; intros O1 (ms & S0 & S1); [exists ms; auto|].
  apply IH; [exact O1|]. rewrite traffic_app, drawn_app, <- S1. destruct F as [F|[F D]].
  - exists ms. unfold traffic at 2. rewrite F, app_nil_r, drawn_none by (apply sent_none; exact F). auto.
  - exists (ms ++ [traffic l]). split.
    + apply splits_snoc; [exact VP|exact S0|]. apply F.
      apply flow_ext in G as [x G]. intros b B. apply O1. rewrite G. apply in_or_app. left. apply in_or_app. right. exact B.
    + rewrite fold_left_app. cbn [fold_left]. destruct D as [[b ->]|[D C]].
      * unfold traffic. cbn [sent flat_map app concat]. rewrite app_nil_r. reflexivity.
      * rewrite (C I), (drawn_none l) by exact D. reflexivity.
Qed.

(* rectangles before others *)
Lemma draw_cat n m : forall l r s, rects_len vw n l = Some (length l) ->
  draw_rects vw pnt (n + m) (l ++ r) s = draw_rects vw pnt m r (draw_rects vw pnt n l s).
Proof.
  clear still start. induction n as [|n IH]; intros l r s H.
  - cbn [rects_len] in H. injection H as H. destruct l; [reflexivity|discriminate].
  - cbn [Nat.add rects_len draw_rects] in *. destruct (rect_len vw l) as [i|] eqn:R; [|discriminate].
    destruct (rects_len vw n (skipn i l)) as [j|] eqn:J; [|discriminate]. injection H as H.
    pose proof R as R'. apply rect_app in R' as [R1 R2]; [|intros e x y q k; apply (VP [])].
    rewrite R2, !skipn_app_le by lia.
    rewrite IH by (rewrite J, skipn_length; f_equal; lia). do 3 f_equal.
    rewrite firstn_app. replace (i - length l)%nat with 0%nat by lia. cbn [firstn]. rewrite app_nil_r. reflexivity.
Qed.

(* rectangles without pixels *)
Lemma draw_ext_size w h i j s : draw_rects vw pnt 1 (ext_size_rect w h i j) s = s.
Proof. apply (calm_rect St pnt still). unfold pixelless, ext_size_rect. rewrite head_encoding; unfold ENC_EXTDESKTOPSIZE; cbn; lia. Qed.
Lemma draw_resize c w h s : draw_rects vw pnt 1 (resize_rect c w h) s = s.
Proof.
  unfold resize_rect. destruct (has_encoding _ _); [apply draw_ext_size|]. apply (calm_rect St pnt still). unfold pixelless.
  rewrite <- (app_nil_r (rect_head 0 0 w h ENC_DESKTOPSIZE)). rewrite head_encoding; unfold ENC_DESKTOPSIZE; cbn; lia.
Qed.
Lemma draw_pts c f s : draw_rects vw pnt 1 (pts_rect c f) s = s.
Proof.
  assert (N : draw_rects vw pnt 1 [] s = s) by reflexivity.
  unfold pts_rect. destruct (f_pts f) as [t|]; [|exact N]. destruct (has_encoding c ENC_PTS); [|exact N].
  apply (calm_rect St pnt still). unfold pixelless. rewrite head_encoding; unfold ENC_PTS; cbn; lia.
Qed.
End Q.

Section Raw.
Variables size tsize : nat.
Notation vw := (viewer size tsize).
Notation pnt := (raw_paint size).

Lemma raw_still r s : pixelless r -> pnt r s = s.
Proof. unfold pixelless, raw_paint. cbn [In]. intros H. destruct (Z.eqb_spec (to_signed 32 (field 4 8 r)) 0); [exfalso; apply H; auto|reflexivity]. Qed.

(* reading and drawing a raw rectangle *)
Lemma cpixels_nth n : forall l px r k q, read_cpixels size n l = Some (px, r) -> nth_error px k = Some q ->
  q = firstn size (skipn (k * size) l).
Proof.
  induction n as [|n IH]; intros l px r k q; cbn [read_cpixels]; [intros [= <- <-]; destruct k; discriminate|].
  destruct (take size l) as [[p l']|] eqn:T; [|discriminate]. apply take_some in T as (T1 & -> & ->).
  destruct (read_cpixels size n (skipn size l)) as [[ps l'']|] eqn:R; [|discriminate].
  intros H. assert (PX : px = firstn size l :: ps) by congruence. subst px. clear H.
  destruct k as [|k]; cbn [nth_error]; [intros H; cbn [Nat.mul skipn]; congruence|].
  intros H. rewrite (IH _ _ _ _ _ R H), skipn_skipn. do 2 f_equal. cbn [Nat.mul]. lia.
Qed.

Lemma cpixels_count n : forall l px r, read_cpixels size n l = Some (px, r) -> length px = n.
Proof.
  induction n as [|n IH]; intros l px r; cbn [read_cpixels]; [intros [= <- <-]; reflexivity|].
  destruct (take size l) as [[p l']|]; [|discriminate].
  destruct (read_cpixels size n l') as [[ps l'']|] eqn:R; [|discriminate]. intros [= <- <-]. cbn [length]. f_equal. eauto.
Qed.

Lemma draw_raw l r l' s : read_raw size l = Some (r, l') ->
  exists k s', draw_rects vw pnt 1 l s = s' /\ rect_len vw l = Some k /\ skipn k l = l' /\
    (forall n, draw_rects vw pnt (S n) l s = draw_rects vw pnt n l' s') /\
    forall x y,
      if (rr_x r <=? x) && (x <? rr_x r + rr_w r) && (rr_y r <=? y) && (y <? rr_y r + rr_h r)
      then (exists q, s' x y = Some q /\
            forall c, nth_error (rr_px r) (Z.to_nat ((y - rr_y r) * rr_w r + (x - rr_x r))) = Some c -> c = q)
      else s' x y = s x y.
Proof.
  intros R. unfold read_raw in R. destruct (take 12 l) as [[hd l1]|] eqn:T; [|discriminate].
  apply take_some in T as (T1 & -> & ->). cbv zeta in R. unfold Zrle_Spec.u16 in R.
  rewrite !(head_part 12) in R by lia. rewrite head_tail in R. change (12 - 8)%nat with 4%nat in R.
  destruct (_ =? 0) eqn:Z0; [|discriminate]. apply Z.eqb_eq in Z0.
  destruct (read_cpixels _ _ _) as [[px l2]|] eqn:C; [|discriminate].
  assert (RX : r = mk_rrect (field 2 0 l) (field 2 2 l) (field 2 4 l) (field 2 6 l) px /\ l2 = l').
  { unfold field. split; [|congruence]. rewrite (firstn_firstn l 2 12) in R. change (Nat.min 2 12) with 2%nat in R. change (skipn 0 l) with l. congruence. }
  destruct RX as [-> ->]. clear R.
  pose proof C as C'. apply cpixels_some in C as [C1 ->]. rewrite skipn_length in C1.
  fold (field 2 4 l) in *. fold (field 2 6 l) in *.
  set (k := (12 + Z.to_nat (field 2 4 l * field 2 6 l) * size)%nat).
  assert (E : rect_len vw l = Some k).
  { apply (picture_rect _ _ 0); [exact T1| |cbn; auto|].
    - unfold field. rewrite Z0. reflexivity.
    - cbn [viewer Z.eqb]. apply need_ok. rewrite skipn_length. exact C1. }
  assert (F0 : (to_signed 32 (field 4 8 l) =? 0) = true) by (unfold field; rewrite Z0; reflexivity).
  exists k, (put_raw size (field 2 0 l) (field 2 2 l) (field 2 4 l) (field 2 6 l) (firstn (k - 12) (skipn 12 l)) s).
  assert (PT : pnt (firstn k l) s = put_raw size (field 2 0 l) (field 2 2 l) (field 2 4 l) (field 2 6 l) (firstn (k - 12) (skipn 12 l)) s).
  { unfold raw_paint. rewrite !field_firstn by (subst k; lia). rewrite F0, skipn_firstn_comm. reflexivity. }
  split; [cbn [draw_rects]; rewrite E; exact PT|]. split; [exact E|].
  split; [rewrite skipn_skipn; f_equal; subst k; lia|].
  split; [intros n; cbn [draw_rects]; rewrite E, PT; f_equal; rewrite skipn_skipn; f_equal; subst k; lia|].
  intros x y. unfold put_raw. cbn [rr_x rr_y rr_w rr_h rr_px].
  destruct (_ && _ && _ && _) eqn:IN; [|reflexivity]. eexists. split; [reflexivity|].
  intros c N. pose proof (cpixels_nth _ _ _ _ _ _ C' N) as ->.
  set (j := Z.to_nat ((y - field 2 2 l) * field 2 4 l + (x - field 2 0 l))) in *.
  assert (J : (j < Z.to_nat (field 2 4 l * field 2 6 l))%nat).
  { rewrite <- (cpixels_count _ _ _ _ C'). apply nth_error_Some. intros X. unfold cpixel in *. congruence. }
  rewrite skipn_firstn_comm, firstn_firstn. f_equal. subst k. nia.
Qed.

Definition inb (x y : Z) (b : Zrle_Model.box) : bool := (x1 b <=? x) && (x <? x2 b) && (y1 b <=? y) && (y <? y2 b).

Lemma draw_raws fb stride dst src x y : forall boxes rs, Forall2 (raw_shows fb stride 0 0 dst src) boxes rs ->
  forall l s, read_raws size (length boxes) l = Some rs ->
  if existsb (inb x y) boxes
  then exists p c, get fb ((y * stride + x) * (bits_per_pixel src / 8)) (bits_per_pixel src / 8) = Ok p /\
    pixel_to_cpixel (bits_per_pixel dst / 8) dst src p 0 1 = Ok c /\ draw_rects vw pnt (length boxes) l s x y = Some c
  else draw_rects vw pnt (length boxes) l s x y = s x y.
Proof.
  induction 1 as [|b r boxes rs SH F IH]; intros l s; cbn [length read_raws existsb]; [reflexivity|].
  destruct (read_raw size l) as [[r0 l']|] eqn:R; [|discriminate]. destruct (read_raws size _ l') as [rs0|] eqn:RS; [|discriminate].
  intros [= -> ->]. destruct (draw_raw l r l' s R) as (k & s1 & _ & _ & _ & D & P). rewrite D.
  specialize (IH l' s1 RS). destruct (existsb (inb x y) boxes); [rewrite orb_true_r; exact IH|]. rewrite orb_false_r.
  specialize (P x y). destruct SH as (X & Y & W & H & SH).
  replace ((rr_x r <=? x) && (x <? rr_x r + rr_w r) && (rr_y r <=? y) && (y <? rr_y r + rr_h r)) with (inb x y b) in P
    by (unfold inb; f_equal; [f_equal; [f_equal|]|]; lia).
  destruct (inb x y b) eqn:IN; [|congruence]. destruct P as (q & Q & P). unfold inb in IN.
  destruct (SH (x - rr_x r) (y - rr_y r)) as (p & c & G & C & N); [lia|lia|].
  exists p, c. split; [|split; [exact C|]].
  - rewrite <- G. f_equal. f_equal. f_equal; [f_equal|]; lia.
  - rewrite IH, Q. f_equal. symmetry. apply P. exact N.
Qed.
End Raw.

Lemma raw_work_reads fb dst src stride rects extents out n : Forall (fits_header 0 0) rects ->
  Z.of_nat (length rects) <= 65533 -> raw_do_work fb 0 0 dst src stride rects extents = Ok (out, n) ->
  n = Z.of_nat (length rects) /\ exists rs, Forall2 (raw_shows fb stride 0 0 dst src) rects rs /\
  read_raws (Z.to_nat (bits_per_pixel dst / 8)) (length rects) out = Some rs.
Proof.
  intros F L H. unfold raw_do_work, raw_encode_frame in H. cbv zeta in H.
  assert (X : (Z.of_nat (length rects) >? 65535) = false) by lia. rewrite X in H.
  destruct (raw_boxes _ _ _ _ _ _ _ _) as [v|] eqn:E; cbn [bind fst snd] in H; [|discriminate].
  apply ok_inj, pair_equal_spec in H as [<- <-].
  destruct (raw_boxes_read _ _ _ _ _ _ _ _ _ F E) as [bytes [rs [T [FF R]]]].
  cbn [tdata app] in T. rewrite T. split; [reflexivity|]. exists rs. auto.
Qed.

Definition noK (l : list out) : Prop := Forall (fun o => match o with Update KFrame _ => False | _ => True end) l.
Definition nok (c c' : client) : Prop := exists new, log c' = log c ++ new /\ noK new.

Lemma nok_refl c c' : log c' = log c -> nok c c'.
Proof. intros L. exists []. rewrite app_nil_r. split; [exact L|constructor]. Qed.
Lemma nok_trans a b c : nok a b -> nok b c -> nok a c.
Proof.
  intros (l & L & F) (m & M & G). exists (l ++ m). split; [rewrite M, L, app_assoc; reflexivity|]. apply Forall_app. auto.
Qed.
Lemma nok_say o c c' : log c' = log c ++ [o] -> match o with Update KFrame _ => False | _ => True end -> nok c c'.
Proof. intros L H. exists [o]. split; [exact L|]. apply Forall_cons; [exact H|constructor]. Qed.
Lemma moves_nok P c c' : movesg plain P c c' -> nok c c'.
Proof.
  induction 1 as [c|a b c M _ IH]; [apply nok_refl; reflexivity|]. eapply nok_trans; [|exact IH].
  destruct M as [a b l _ L F|a b r0 _ L|a b f ok _ _ L].
  - exists l. split; [exact L|]. eapply Forall_impl; [|exact F]. intros o. destruct o as [|k d| | | | | | | | | | | | | |]; auto.
  - apply nok_refl. exact L.
  - eapply nok_say; [exact L|exact I].
Qed.
Lemma mvg_nok c c' : mvg plain c c' -> nok c c'.
Proof. intros [M _]. apply (moves_nok (fun _ => True)). apply M. intros f _. exact I. Qed.

Section R.
Variable E : env.
Variable r : client -> res client.
Hypothesis R : forall c c', r c = Ok c' -> mvg plain c c'.

Lemma complete_nok c c' : complete_update E r c = Ok c' -> nok c c'.
Proof.
  unfold complete_update. destruct (negb _); [intros [= <-]; apply nok_refl; reflexivity|].
  intros H. apply (process_mvg plain (fun _ H => H) E r R) in H. apply mvg_nok in H. eapply nok_trans; [|exact H].
  apply (nok_say Completed); [reflexivity|exact I].
Qed.

(* one frame, and what is drawn of it *)
Lemma finish_frame f c c' : closed c = false -> finish_update E r f c = Ok c' ->
  (exists new, log c' = log c ++ new /\ In Dropped new) \/
  exists n rs k ps rest, log c' = log c ++ Update KFrame (update_head n ++ rs ++ ps ++ f_data f) :: rest /\ noK rest /\
    n = f_rects f + Z.of_nat (length k) /\ (length k <= 2)%nat /\
    (k = [] /\ rs = [] /\ ps = [] \/
     k = [rs] /\ ps = [] /\ (exists w h, rs = resize_rect c w h) \/
     k = [ps] /\ rs = [] /\ ps <> [] /\ ps = pts_rect c f \/
     k = [rs; ps] /\ (exists w h, rs = resize_rect c w h) /\ ps <> [] /\ ps = pts_rect c f).
Proof.
  intros O. unfold finish_update. rewrite O. destruct (_ && _).
  { intros H. left. apply complete_nok in H as (new & L & _). exists (Dropped :: new). split; [|left; reflexivity].
    rewrite L. cbn [log say set_log set_pending]. rewrite <- app_assoc. reflexivity. }
  set (rz := negb (_ && _)). cbv zeta. destruct (rz && negb (supports_resizing c)); [discriminate|].
  set (c1 := if rz then set_damage _ _ else c).
  assert (L1 : log c1 = log c) by (subst c1; destruct rz; reflexivity). clearbody c1.
  intros H. apply bind_ok in H as (c3 & H & H2). right.
  match type of H with context [say ?u c1] => set (o := u) in H end.
  assert (X : nok (say o c1) c3).
  { revert H. destruct (e_sync _ _); [apply complete_nok|intros [= <-]; apply nok_refl; reflexivity]. }
  assert (M : nok c3 c').
  { apply mvg_nok. eapply mv_trans; [apply (ping_mvg plain (fun _ H => H))|]. apply (ppf_mvg plain (fun _ H => H) r R). exact H2. }
  destruct (nok_trans _ _ _ X M) as (rest & LR & FR).
  destruct (pts_rect c f) as [|b0 ps] eqn:PT; destruct rz.
  - exists (f_rects f + 0 + 1), (resize_rect c (f_w f) (f_h f)), [resize_rect c (f_w f) (f_h f)], [], rest.
    split; [rewrite LR; cbn [log say set_log]; rewrite L1, <- app_assoc; reflexivity|].
    split; [exact FR|]. split; [cbn [length]; lia|]. split; [cbn; lia|]. right. left. eauto.
  - exists (f_rects f + 0), [], [], [], rest.
    split; [rewrite LR; cbn [log say set_log]; rewrite L1, <- app_assoc; reflexivity|].
    split; [exact FR|]. split; [cbn [length]; lia|]. split; [cbn; lia|]. left. auto.
  - exists (f_rects f + 1 + 1), (resize_rect c (f_w f) (f_h f)), [resize_rect c (f_w f) (f_h f); b0 :: ps], (b0 :: ps), rest.
    split; [rewrite LR; cbn [log say set_log]; rewrite L1, <- app_assoc; reflexivity|].
    split; [exact FR|]. split; [cbn [length]; lia|]. split; [cbn; lia|]. right. right. right. split; [reflexivity|]. split; [eauto|]. split; [discriminate|reflexivity].
  - exists (f_rects f + 1), [], [b0 :: ps], (b0 :: ps), rest.
    split; [rewrite LR; cbn [log say set_log]; rewrite L1, <- app_assoc; reflexivity|].
    split; [exact FR|]. split; [cbn [length]; lia|]. split; [cbn; lia|]. right. right. left. split; [reflexivity|]. split; [reflexivity|]. split; [discriminate|reflexivity].
Qed.
End R.

(* a frame, whatever goes with it *)
Lemma draw_frame vw (VP : prefix_wise (fun _ => vw)) c f n rs k ps : 0 <= f_rects f <= 65533 -> n = f_rects f + Z.of_nat (length k) ->
  (length k <= 2)%nat ->
  (k = [] /\ rs = [] /\ ps = [] \/
   k = [rs] /\ ps = [] /\ (exists w h, rs = resize_rect c w h) \/
   k = [ps] /\ rs = [] /\ ps <> [] /\ ps = pts_rect c f \/
   k = [rs; ps] /\ (exists w h, rs = resize_rect c w h) /\ ps <> [] /\ ps = pts_rect c f) ->
  forall St (pnt : list Z -> St -> St), (forall r s, pixelless r -> pnt r s = s) -> forall s,
  draw vw pnt s (update_head n ++ rs ++ ps ++ f_data f) = draw_rects vw pnt (Z.to_nat (f_rects f)) (f_data f) s.
Proof.
  intros RG N LK K St pnt still s0. rewrite (calm_update St pnt still) by (clear K; subst n; lia).
  assert (PX : forall x, x <> [] -> x = pts_rect c f -> rects_len vw 1 x = Some (length x)).
  { intros x X0 ->. destruct (pts_one vw c f) as [X|[_ X]]; [congruence|exact X]. }
  destruct K as [(-> & -> & ->)|[(-> & -> & w & h & ->)|[(-> & -> & PN & ->)|(-> & (w & h & ->) & PN & ->)]]]; cbn [length app] in *; rewrite N.
  + f_equal. lia.
  + replace (Z.to_nat (f_rects f + Z.of_nat 1)) with (1 + Z.to_nat (f_rects f))%nat by lia.
    rewrite (draw_cat vw VP) by apply resize_one. rewrite draw_resize by exact still. reflexivity.
  + replace (Z.to_nat (f_rects f + Z.of_nat 1)) with (1 + Z.to_nat (f_rects f))%nat by lia.
    rewrite (draw_cat vw VP) by (apply PX; auto). rewrite draw_pts by exact still. reflexivity.
  + replace (Z.to_nat (f_rects f + Z.of_nat 2)) with (1 + (1 + Z.to_nat (f_rects f)))%nat by lia.
    rewrite (draw_cat vw VP) by apply resize_one. rewrite draw_resize by exact still.
    rewrite (draw_cat vw VP) by (apply PX; auto). rewrite draw_pts by exact still. reflexivity.
Qed.

Section G.
Variable vw : Wire_Spec.picture.
Hypothesis VP : prefix_wise (fun _ => vw).
Variable St : Type.
Variable pnt : list Z -> St -> St.
Hypothesis still : forall r s, pixelless r -> pnt r s = s.
Variable cell : St -> display.
Variable conv : list Z -> list Z -> Prop.
Variable wide : list Z -> Z -> Z -> bool.
Variable more : frame -> Z -> Z -> bool.
Hypothesis WD : forall f b,
  (forall St (pnt : list Z -> St -> St), (forall r s, pixelless r -> pnt r s = s) ->
     forall s, draw vw pnt s b = draw_rects vw pnt (Z.to_nat (f_rects f)) (f_data f) s) ->
  forall x y, wide b x y = more f x y.
Variable X : Type.
Variable made : X -> region -> Mirror_Spec.picture (list Z) -> frame -> X -> Prop.
Variable sync : X -> St -> Prop.
Hypothesis MD : forall z rg Q f z' s, made z rg Q f z' -> sync z s ->
  let s' := draw_rects vw pnt (Z.to_nat (f_rects f)) (f_data f) s in
  0 <= f_rects f <= 65533 /\ readable vw (f_rects f) (f_data f) /\ sync z' s' /\
  forall x y, if in_region rg x y || more f x y then exists c, conv (Q x y) c /\ cell s' x y = Some c
              else cell s' x y = cell s x y.
Variable u : Prop. (* whether it is known where nothing was drawn *)
Notation drawn := (drawn vw St pnt).

(* the viewer shows, in its own format, what Mirror_Spec says it shows *)
Definition agree (s : St) (v : sight (list Z)) : Prop :=
  forall x y, match screen _ v x y with
  | None => u -> cell s x y = None
  | Some q => exists c, conv q c /\ cell s x y = Some c
  end.

Lemma see_noK P l : forall v, noK l -> screen _ (fold_left (see (list Z) wide P) l v) = screen _ v.
Proof.
  induction l as [|o l IH]; intros v H; [reflexivity|]. inversion H as [|? ? O F]; subst. cbn [fold_left]. rewrite (IH _ F).
  destruct o as [|k b| | | | | | | | | | |rg w h ok| | |]; try reflexivity; [destruct k; first [reflexivity|destruct O]|destruct ok; reflexivity].
Qed.
Lemma agree_noK P l s v : noK l -> agree s v -> agree (drawn l s) (fold_left (see (list Z) wide P) l v).
Proof. intros H G x y. rewrite (see_noK P l v H), (drawn_none vw St pnt l s H). apply G. Qed.

Lemma step_agree E fuel P c i c' v s z z' : closed c = false -> step E fuel c i = Ok c' -> none_lost (log c') ->
  match i, coming _ v with IEncoded f, Some (r, Q) => made z r Q f z' | IEncoded f, None => False | _, _ => z' = z end ->
  sync z s -> agree s v ->
  exists new, log c' = log c ++ new /\ sync z' (drawn new s) /\ agree (drawn new s) (fold_left (see (list Z) wide P) new v).
Proof.
  intros O H NL RF SY G.
  assert (R : forall c c', receive E fuel c (e_more E (log c)) = Ok c' -> mvg plain c c').
  { intros. eapply receive_mvg; eauto. }
  assert (NK : z' = z -> nok c c' -> exists new, log c' = log c ++ new /\ sync z' (drawn new s) /\
    agree (drawn new s) (fold_left (see (list Z) wide P) new v)).
  { intros -> (new & L & F). exists new. split; [exact L|]. split; [rewrite (drawn_none vw St pnt) by exact F; exact SY|].
    apply agree_noK; assumption. }
  unfold step in H. destruct i as [d|f r|f| |st| |].
  - apply NK; [exact RF|]. rewrite O in H. apply (receive_mvg plain (fun _ H => H)) in H. apply mvg_nok, H.
  - apply NK; [exact RF|]. apply (process_mvg plain (fun _ H => H) E _ R), mvg_nok in H. eapply nok_trans; [|exact H].
    destruct (closed _); apply nok_refl; reflexivity.
  - destruct (coming _ v) as [[rg Q]|] eqn:CM; [|destruct RF].
    apply (finish_frame E _ R f c c' O) in H as [(new & L & D)|(n & rs & k & ps & rest & L & FR & N & LK & K)].
    { exfalso. rewrite L in NL. apply Forall_app in NL as [_ NL]. rewrite Forall_forall in NL. apply (NL _ D). }
    destruct (MD _ _ _ _ _ _ RF SY) as (RG & _ & SY' & PX). cbv zeta in *.
    pose proof (draw_frame vw VP c f n rs k ps RG N LK K) as DF.
    eexists. split; [exact L|]. change (Update KFrame ?b :: rest) with ([Update KFrame b] ++ rest).
    rewrite (drawn_app vw St pnt [_] rest), fold_left_app.
    assert (DD : drawn [Update KFrame (update_head n ++ rs ++ ps ++ f_data f)] s = draw_rects vw pnt (Z.to_nat (f_rects f)) (f_data f) s).
    { unfold drawn. cbn [fold_left]. apply DF. exact still. }
    rewrite DD. split; [rewrite (drawn_none vw St pnt) by exact FR; exact SY'|].
    apply agree_noK; [exact FR|]. intros x y. cbn [fold_left see screen]. rewrite CM. unfold paint. cbn [fst snd].
    rewrite (WD f _ DF). specialize (PX x y). destruct (in_region rg x y || more f x y); [exact PX|].
    rewrite PX. apply G.
  - apply NK; [exact RF|]. apply (complete_nok E _ R), H.
  - apply NK; [exact RF|]. apply (process_mvg plain (fun _ H => H) E _ R), mvg_nok in H. eapply nok_trans; [|exact H]. apply nok_refl. reflexivity.
  - apply NK; [exact RF|]. apply (process_mvg plain (fun _ H => H) E _ R), mvg_nok in H. eapply nok_trans; [|exact H]. apply nok_refl. reflexivity.
  - apply NK; [exact RF|]. apply ok_inj in H. subst c'. apply nok_refl. reflexivity.
Qed.

Lemma watch_agree E fuel : forall l c v s c' v' z z', watch (list Z) wide E fuel l c v = Ok (c', v') ->
  orderly (list Z) wide E fuel l c v = true -> none_lost (log c') -> made_run wide X made E fuel l c v z z' -> sync z s -> agree s v ->
  proper (fun _ => vw) E fuel (fun _ => None) c (map (fun z => Inp (fst z)) l) /\
  act_run E fuel (fun _ => None) c (map (fun z => Inp (fst z)) l) = Ok c' /\
  exists new, log c' = log c ++ new /\ sync z' (drawn new s) /\ agree (drawn new s) v'.
Proof.
  induction l as [|[i P] l IH]; intros c v s c' v' z z'; cbn [watch orderly made_run map proper act_run act_step fst].
  - intros [= <- <-] _ _ <- SY G. split; [exact I|]. split; [reflexivity|]. exists []. rewrite app_nil_r. auto.
  - intros H OR NL (z1 & RF & RS) SY G. apply bind_ok in H as (c1 & H & H2). rewrite H in *. cbn [bind].
    apply andb_prop in OR as [OR PL]. apply andb_prop in OR as [O W]. apply negb_true_iff in O.
    assert (RF' : match i, coming _ v with IEncoded f, Some (r, Q) => made z r Q f z1 | IEncoded f, None => False | _, _ => z1 = z end)
      by (destruct i, (coming _ v); auto; discriminate).
    assert (NL1 : none_lost (log c1)).
    { destruct (watch_log _ _ _ _ _ _ _ _ _ H2) as [n2 E2]. rewrite E2 in NL. eapply none_lost_prefix. exact NL. }
    destruct (step_agree E fuel P c i c1 v s z z1 O H NL1 RF' SY G) as (new & L & SY1 & G1).
    specialize (RS c1 eq_refl). rewrite (since_new _ _ _ L) in *.
    destruct (IH c1 _ _ c' v' _ _ H2 PL NL RS SY1 G1) as (PR & AR & n2 & L2 & SY2 & G2).
    split; [split|split].
    + destruct i; try exact I. destruct (coming _ v) as [[rg Q]|]; [|destruct RF']. destruct (MD _ _ _ _ _ _ RF' SY) as (A & B & _). auto.
    + intros c2 [= <-]. exact PR.
    + exact AR.
    + exists (new ++ n2). split; [rewrite L2, L, app_assoc; reflexivity|]. rewrite (drawn_app vw St pnt). auto.
Qed.

Lemma act_run_inputs E fuel : forall l0 a c0, run E fuel a l0 = Ok c0 -> act_run E fuel (fun _ => None) a (map Inp l0) = Ok c0.
Proof.
  induction l0 as [|i l0 IH]; intros a c0; cbn [run map act_run act_step]; [auto|].
  intros H. apply bind_ok in H as (b & -> & H). cbn [bind]. auto.
Qed.

Lemma watch_shown E fuel f0 d seq l0 c0 l c v start z z' : cursors (fun _ => vw) E -> cursor_shapes E ->
  proper (fun _ => vw) E fuel (fun _ => None) (ready f0 d seq) (map Inp l0) ->
  run E fuel (ready f0 d seq) l0 = Ok c0 -> (u -> l0 = [] /\ forall x y, cell start x y = None) ->
  watch (list Z) wide E fuel l c0 (nothing_yet _) = Ok (c, v) ->
  orderly (list Z) wide E fuel l c0 (nothing_yet _) = true -> none_lost (log c) ->
  made_run wide X made E fuel l c0 (nothing_yet _) z z' -> sync z (drawn (log c0) start) -> one_byte_leds (log c) ->
  exists ms, splits (fun _ => vw) [] (traffic (log c)) ms /\ agree (fold_left (draw vw pnt) ms start) v.
Proof.
  intros CU SH P0 R0 U W OR NL RF SY O1.
  pose proof (act_run_inputs E fuel _ _ _ R0) as A0.
  set (s0 := drawn (log c0) start) in *.
  destruct (watch_agree E fuel l _ _ s0 c v z z' W OR NL RF SY) as (PR & AR & new & L & _ & G).
  { intros x y. cbn [screen nothing_yet]. intros K. apply U in K as [K1 K2]. subst l0. injection R0 as <-. apply K2. }
  assert (B : bounded (fun _ => None)) by (intros a q [=]).
  destruct (run_fl (fun _ => vw) VP St pnt still True E fuel _ CU (fun _ => SH) B _ _ _ P0 A0) as [I0 F0]; [split; [cbn; lia|exact I]|].
  destruct (run_fl (fun _ => vw) VP St pnt still True E fuel _ CU (fun _ => SH) B _ _ _ PR AR I0) as [_ FL].
  destruct (flow_shown vw VP St pnt start _ _ (flow_trans _ _ _ _ _ _ _ F0 FL) O1) as (ms & S0 & S1); [exists []; split; [constructor|reflexivity]|].
  exists ms. split; [exact S0|]. rewrite S1, L, (drawn_app vw St pnt). exact G.
Qed.

Lemma watch_run E fuel : forall l c v c' v', watch (list Z) wide E fuel l c v = Ok (c', v') -> run E fuel c (map fst l) = Ok c'.
Proof.
  induction l as [|[i P] l IH]; intros c v c' v'; cbn [watch map fst run]; [congruence|].
  intros H. apply bind_ok in H as (c1 & -> & H). cbn [bind]. eauto.
Qed.

(* the same after another scene *)
Lemma watch_shown2 E fuel f0 d seq l0 c0 v0 l c v start z z1 z2 : cursors (fun _ => vw) E -> cursor_shapes E ->
  (u -> False) -> sync z start ->
  watch (list Z) wide E fuel l0 (ready f0 d seq) (nothing_yet _) = Ok (c0, v0) ->
  orderly (list Z) wide E fuel l0 (ready f0 d seq) (nothing_yet _) = true ->
  made_run wide X made E fuel l0 (ready f0 d seq) (nothing_yet _) z z1 ->
  watch (list Z) wide E fuel l c0 (nothing_yet _) = Ok (c, v) ->
  orderly (list Z) wide E fuel l c0 (nothing_yet _) = true -> none_lost (log c) ->
  made_run wide X made E fuel l c0 (nothing_yet _) z1 z2 -> one_byte_leds (log c) ->
  exists ms, splits (fun _ => vw) [] (traffic (log c)) ms /\ agree (fold_left (draw vw pnt) ms start) v.
Proof.
  intros CU SH U SY W0 OR0 M0 W OR NL M O1.
  assert (NL0 : none_lost (log c0)).
  { destruct (watch_log _ _ _ _ _ _ _ _ _ W) as [n2 E2]. rewrite E2 in NL. eapply none_lost_prefix. exact NL. }
  destruct (watch_agree E fuel l0 _ _ start c0 v0 z z1 W0 OR0 NL0 M0 SY) as (PR & AR & new & L & SY1 & _).
  { intros x y. cbn [screen nothing_yet]. intros K. destruct (U K). }
  apply (watch_shown E fuel f0 d seq (map fst l0) c0 l c v start z1 z2); auto.
  - rewrite map_map. exact PR.
  - eapply watch_run. exact W0.
  - intros K. destruct (U K).
  - rewrite L. exact SY1.
Qed.
End G.

Lemma in_rects rg (rects : list Zrle_Model.box) x y :
  (covers rg x y <-> exists b, In b rects /\ x1 b <= x < x2 b /\ y1 b <= y < y2 b) ->
  existsb (inb x y) rects = in_region rg x y.
Proof.
  intros H. destruct (in_region rg x y) eqn:I0.
  - apply in_region_covers, H in I0 as (b & B & X & Y). apply existsb_exists. exists b. split; [exact B|]. unfold inb. lia.
  - destruct (existsb (inb x y) rects) eqn:X; [|reflexivity]. apply existsb_exists in X as (b & B & X). unfold inb in X.
    rewrite <- I0. symmetry. apply in_region_covers, H. exists b. split; [exact B|]. lia.
Qed.

(* the Raw encoder, which has no state *)
Section RawRun.
Variables dst src : pixfmt.
Variable tsize : nat.
Notation size := (Z.to_nat (bits_per_pixel dst / 8)).
Notation vw := (viewer size tsize).
Notation made := (fun (_ : unit) rg Q f (_ : unit) => raw_frame dst src rg Q f).
Notation conv := (fun q c => pixel_to_cpixel (bits_per_pixel dst / 8) dst src q 0 1 = Ok c).

Lemma raw_made z rg Q f z' s : made z rg Q f z' -> True ->
  let s' := draw_rects vw (raw_paint size) (Z.to_nat (f_rects f)) (f_data f) s in
  0 <= f_rects f <= 65533 /\ readable vw (f_rects f) (f_data f) /\ True /\
  forall x y, if in_region rg x y || false then exists c, conv (Q x y) c /\ s' x y = Some c else s' x y = s x y.
Proof.
  intros (fb & stride & rects & extents & W & F & L & CV & PX) _ s'. subst s'.
  destruct (raw_work_reads _ _ _ _ _ _ _ _ F L W) as (N & rs & F2 & RR). split; [lia|].
  split; [unfold readable; rewrite N, Nat2Z.id; apply (readable_raw size tsize _ _ _ RR)|]. split; [exact I|].
  intros x y. rewrite N, Nat2Z.id, orb_false_r.
  pose proof (draw_raws size tsize fb stride dst src x y rects rs F2 (f_data f) s RR) as K.
  rewrite (in_rects rg rects x y (CV x y)) in K. destruct (in_region rg x y) eqn:I0; [|exact K].
  destruct K as (p & c & K1 & K2 & K3). apply in_region_covers, PX in I0. rewrite I0 in K1. injection K1 as <-. eauto.
Qed.

Lemma raw_run E fuel : forall l c v, raw_frames E fuel dst src l c v -> made_run no_more unit made E fuel l c v tt tt.
Proof.
  induction l as [|[i P] l IH]; intros c v; cbn [raw_frames made_run]; [reflexivity|].
  intros [A B]. exists tt. split; [destruct i; auto; destruct (coming _ v) as [[]|]; auto|]. intros c' H. apply IH, B, H.
Qed.

Lemma raw_shown (u : Prop) E fuel f0 d seq l0 c0 l c v : cursors (fun _ => vw) E -> cursor_shapes E ->
  proper (fun _ => vw) E fuel (fun _ => None) (ready f0 d seq) (map Inp l0) ->
  run E fuel (ready f0 d seq) l0 = Ok c0 -> (u -> l0 = []) ->
  watch (list Z) no_more E fuel l c0 (nothing_yet _) = Ok (c, v) ->
  orderly (list Z) no_more E fuel l c0 (nothing_yet _) = true -> none_lost (log c) ->
  raw_frames E fuel dst src l c0 (nothing_yet _) -> one_byte_leds (log c) ->
  exists ms, splits (fun _ => vw) [] (traffic (log c)) ms /\ agree display (fun s => s) conv u (Eye_Spec.shown size tsize ms) v.
Proof.
  intros CU SH P0 R0 U W OR NL RF O1.
  apply (watch_shown vw (viewer_prefix size tsize) display (raw_paint size) (raw_still size) (fun s => s) conv no_more (fun _ _ _ => false)
    (fun _ _ _ _ _ => eq_refl) unit made (fun _ _ => True) (fun z rg Q f z' s => raw_made z rg Q f z' s) u E fuel f0 d seq l0 c0 l c v dark tt tt); auto.
  apply raw_run, RF.
Qed.
End RawRun.
