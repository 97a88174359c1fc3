From Verif Require Import Common CommonProofs Ws_Proofs WsStream_Proofs.
From Verif Require Import Pixels_Model Pixels_Proofs Zrle_Model Zrle_Spec Zrle_Proofs Zrle2_Proofs Raw_Spec Raw_Proofs.
From Verif Require Import Tight_Model Tight_Spec Tight_Proofs Tight2_Proofs Tight3_Proofs.

(** Every damaged pixel in exactly one rectangle. *)
Lemma in_length : forall A (a : A) l, In a l -> 0 < Z.of_nat (length l).
Proof. intros A a [|b l] I; [destruct I|cbn [length]; lia]. Qed.

Lemma times_Forall2 : forall A B (R : A -> B -> Prop) f g l l', Forall2 R l l' ->
  (forall a b, In a l -> R a b -> f a = g b) -> times f l = times g l'.
Proof.
  intros A B R f g l l' F. unfold times. induction F as [|a b l l' H F IH]; intros E; cbn [filter]; [reflexivity|].
  rewrite (E a b (or_introl eq_refl) H). destruct (g b); cbn [length]; rewrite IH;
    auto; intros c d I; apply E; right; exact I.
Qed.

Lemma times_one : forall A (f : A -> bool) l a, NoDup l -> In a l -> (forall b, In b l -> f b = true <-> b = a) ->
  times f l = 1%nat.
Proof.
  intros A f l a N I E. unfold times. revert I E. induction N as [|b l Nb N IH]; intros I E; [destruct I|].
  cbn [filter]. destruct (f b) eqn:Fb.
  - apply E in Fb; [|left; reflexivity]. subst b. cbn [length]. f_equal.
    replace (filter f l) with (@nil A); [reflexivity|]. symmetry.
    destruct (filter f l) as [|c r] eqn:Q; [reflexivity|]. exfalso.
    assert (Ic : In c (filter f l)) by (rewrite Q; left; reflexivity).
    apply filter_In in Ic as [Ic Fc]. apply E in Fc; [|right; exact Ic]. subst. auto.
  - destruct I as [->|I].
    + assert (f a = true) by (apply E; [left; reflexivity|reflexivity]). congruence.
    + apply IH; [exact I|]. intros c Ic. apply E. right. exact Ic.
Qed.

Lemma overlap_pixel : forall damage w h x y, w <= 32704 -> h <= 32704 -> 0 <= x < w -> 0 <= y < h ->
  damaged damage x y -> overlaps damage (tile_box (x / 64, y / 64)) = true.
Proof.
  intros damage w h x y Hw Hh Hx Hy [d [I [D1 D2]]]. unfold overlaps. apply existsb_exists. exists d. split; [exact I|].
  unfold tile_box, TSL. cbn [fst snd x1 x2 y1 y2].
  assert (0 <= x / 64) by (apply Z.div_pos; lia). assert (0 <= y / 64) by (apply Z.div_pos; lia).
  assert (x / 64 < 511) by (apply Z.div_lt_upper_bound; lia).
  assert (y / 64 < 511) by (apply Z.div_lt_upper_bound; lia).
  pose proof (Z.div_mod x 64 ltac:(lia)). pose proof (Z.mod_pos_bound x 64 ltac:(lia)).
  pose proof (Z.div_mod y 64 ltac:(lia)). pose proof (Z.mod_pos_bound y 64 ltac:(lia)).
  rewrite !int16_id by lia. lia.
Qed.

Lemma rects_cover : forall xp yp w h damage rs, 0 <= w <= 32704 -> 0 <= h <= 32704 ->
  Forall2 (rect_at xp yp w h)
    (filter (fun j => overlaps damage (tile_box j)) (grid_jobs (UDIV_UP w 64) (UDIV_UP h 64))) rs ->
  forall x y, 0 <= x < w -> 0 <= y < h -> damaged damage x y -> times (coversb xp yp x y) rs = 1%nat.
Proof.
  intros xp yp w h damage rs Hw Hh F x y Hx Hy D.
  rewrite <- (times_Forall2 _ _ _ (fun j => (fst j =? x / 64) && (snd j =? y / 64)) _ _ _ F).
  - apply times_one with (x / 64, y / 64).
    + apply NoDup_filter. apply grid_jobs_nodup.
    + apply filter_In. split; [|apply (overlap_pixel damage w h); try assumption; lia].
      apply grid_jobs_in. cbn [fst snd].
      pose proof (udiv_up w ltac:(lia)) as [U1 _]. pose proof (udiv_up h ltac:(lia)) as [U2 _].
      repeat split; try (apply Z.div_pos; lia); apply Z.div_lt_upper_bound; lia.
    + intros [a b] _. cbn [fst snd]. split; [intros E; f_equal; lia|intros E; injection E as -> ->; lia].
  - intros [a b] r I [Q1 [Q2 [Q3 Q4]]]. cbn [fst snd] in *. apply filter_In in I as [I _]. apply grid_jobs_in in I.
    cbn [fst snd] in I. unfold coversb. rewrite Q1, Q2, Q3, Q4. unfold tile_dim.
    pose proof (Z.div_mod x 64 ltac:(lia)). pose proof (Z.mod_pos_bound x 64 ltac:(lia)).
    pose proof (Z.div_mod y 64 ltac:(lia)). pose proof (Z.mod_pos_bound y 64 ltac:(lia)). lia.
Qed.

Lemma rects_inside : forall xp yp w h damage rs, 0 <= w -> 0 <= h ->
  Forall2 (rect_at xp yp w h)
    (filter (fun j => overlaps damage (tile_box j)) (grid_jobs (UDIV_UP w 64) (UDIV_UP h 64))) rs ->
  Forall (fun r => xp <= t_x r /\ 0 < t_w r <= 64 /\ t_x r + t_w r <= xp + w /\
                   yp <= t_y r /\ 0 < t_h r <= 64 /\ t_y r + t_h r <= yp + h) rs.
Proof.
  intros xp yp w h damage rs Hw Hh F. apply Forall_forall. intros r I.
  destruct (Forall2_in_r _ _ _ _ _ _ F I) as [j [J [Q1 [Q2 [Q3 Q4]]]]].
  apply filter_In in J as [J _]. apply grid_jobs_in in J.
  destruct (Z.eq_dec w 0) as [->|]; [cbn in J; lia|]. destruct (Z.eq_dec h 0) as [->|]; [cbn in J; lia|].
  pose proof (udiv_up w ltac:(lia)) as [U1 _]. pose proof (udiv_up h ltac:(lia)) as [U2 _].
  unfold tile_dim in *. lia.
Qed.

(** No rectangle without a damaged pixel. *)
Lemma rects_needed : forall xp yp w h damage rs, 0 <= w <= 32704 -> 0 <= h <= 32704 ->
  Forall (fun d => 0 <= x1 d /\ x1 d < x2 d /\ x2 d <= w /\ 0 <= y1 d /\ y1 d < y2 d /\ y2 d <= h) damage ->
  Forall2 (rect_at xp yp w h)
    (filter (fun j => overlaps damage (tile_box j)) (grid_jobs (UDIV_UP w 64) (UDIV_UP h 64))) rs ->
  Forall (fun r => exists x y, damaged damage x y /\ coversb xp yp x y r = true) rs.
Proof.
  intros xp yp w h damage rs Hw Hh D F. apply Forall_forall. intros r I.
  destruct (Forall2_in_r _ _ _ _ _ _ F I) as [j [J [Q1 [Q2 [Q3 Q4]]]]].
  apply filter_In in J as [J O]. apply grid_jobs_in in J.
  destruct (Z.eq_dec w 0) as [->|]; [cbn in J; lia|]. destruct (Z.eq_dec h 0) as [->|]; [cbn in J; lia|].
  pose proof (udiv_up w ltac:(lia)) as [U1 _]. pose proof (udiv_up h ltac:(lia)) as [U2 _].
  unfold overlaps in O. apply existsb_exists in O as [d [Id O]]. rewrite Forall_forall in D. specialize (D d Id).
  unfold tile_box, TSL in O. cbn [x1 x2 y1 y2] in O. rewrite !int16_id in O by lia.
  exists (Z.max (x1 d) (64 * fst j)), (Z.max (y1 d) (64 * snd j)). split; [exists d; split; [exact Id|lia]|].
  unfold coversb. rewrite Q1, Q2, Q3, Q4. unfold tile_dim. lia.
Qed.

(** The areas of the tiles. *)
Definition zsum (l : list Z) : Z := fold_right Z.add 0 l.

Lemma zsum_app : forall l l', zsum (l ++ l') = zsum l + zsum l'.
Proof. induction l; intros; cbn [zsum fold_right app] in *; [reflexivity|]. unfold zsum in *. cbn. rewrite IHl. lia. Qed.

Lemma zsum_scale : forall A (f : A -> Z) k l, zsum (map (fun x => f x * k) l) = zsum (map f l) * k.
Proof. induction l; cbn; [reflexivity|]. unfold zsum in *. rewrite IHl. lia. Qed.

Lemma dims_sum : forall fuel from w, 0 <= from -> UDIV_UP w 64 - from <= Z.of_nat fuel -> 0 <= w ->
  zsum (map (tile_dim w) (count_up fuel from 1 (UDIV_UP w 64))) = Z.max 0 (w - 64 * from).
Proof.
  intros fuel from w Hf Hb Hw.
  assert (U : w <= 64 * UDIV_UP w 64 /\ 64 * (UDIV_UP w 64 - 1) < w \/ w = 0 /\ UDIV_UP w 64 = 0).
  { destruct (Z.eq_dec w 0) as [->|]; [right; split; reflexivity|]. pose proof (udiv_up w ltac:(lia)). left; lia. }
  revert from Hf Hb. generalize dependent (UDIV_UP w 64). intros u U.
  induction fuel as [|fuel IH]; intros from Hf Hb; cbn [count_up].
  - cbn [map zsum fold_right]. lia.
  - destruct (Z.ltb_spec from u) as [L|L]; cbn [map zsum fold_right]; [|lia].
    fold (zsum (map (tile_dim w) (count_up fuel (from + 1) 1 u))).
    rewrite IH by lia. unfold tile_dim. lia.
Qed.

Definition tile_area (w h : Z) (j : job) : Z := tile_dim w (fst j) * tile_dim h (snd j).

Lemma areas_rows : forall w h cols l,
  zsum (map (tile_area w h) (flat_map (fun y => map (fun x => (x, y)) cols) l)) =
  zsum (map (tile_dim w) cols) * zsum (map (tile_dim h) l).
Proof.
  intros w h cols. induction l as [|y l IH]; [cbn; lia|].
  change (flat_map (fun y => map (fun x => (x, y)) cols) (y :: l)) with
    (map (fun x => (x, y)) cols ++ flat_map (fun y => map (fun x => (x, y)) cols) l).
  rewrite map_app, zsum_app. etransitivity; [apply f_equal, IH|].
  rewrite map_map. unfold tile_area. cbn [fst snd]. rewrite (zsum_scale _ (tile_dim w) (tile_dim h y)).
  cbn [map zsum fold_right]. fold (zsum (map (tile_dim h) l)). lia.
Qed.

Lemma areas_sum : forall w h, 0 <= w -> 0 <= h ->
  zsum (map (tile_area w h) (grid_jobs (UDIV_UP w 64) (UDIV_UP h 64))) = w * h.
Proof.
  intros w h Hw Hh. unfold grid_jobs. etransitivity; [apply areas_rows|].
  assert (0 <= UDIV_UP w 64 /\ 0 <= UDIV_UP h 64) by (split; unfold UDIV_UP; apply Z.div_pos; lia).
  rewrite !dims_sum by lia. f_equal; lia.
Qed.

Lemma grid_jobs_length : forall gw gh, 0 <= gw -> 0 <= gh -> Z.of_nat (length (grid_jobs gw gh)) = gw * gh.
Proof.
  intros gw gh Hw Hh. unfold grid_jobs.
  assert (L : forall fuel from b, b - from <= Z.of_nat fuel ->
     Z.of_nat (length (count_up fuel from 1 b)) = Z.max 0 (b - from)).
  { induction fuel as [|fuel IH]; intros from b Hb; cbn [count_up]; [cbn; lia|].
    destruct (Z.ltb_spec from b); cbn [length]; [|lia]. specialize (IH (from + 1) b ltac:(lia)). lia. }
  assert (G : forall l, Z.of_nat (length (flat_map (fun y : Z => map (fun x : Z => (x, y)) (count_up (Z.to_nat gw) 0 1 gw)) l)) =
     gw * Z.of_nat (length l)).
  { induction l as [|y l IH]; cbn [flat_map length]; [lia|]. rewrite app_length, map_length.
    rewrite Nat2Z.inj_add, IH, L by lia. lia. }
  etransitivity; [apply G|]. rewrite L by lia. lia.
Qed.

Lemma zsum_filter : forall A (f : A -> Z) p l, (forall x, In x l -> 0 <= f x) ->
  zsum (map f (filter p l)) <= zsum (map f l).
Proof.
  induction l as [|x l IH]; intros H; [cbn; lia|]. cbn [filter map].
  change (zsum (f x :: map f l)) with (f x + zsum (map f l)). assert (IH' := IH (fun y I => H y (or_intror I))). specialize (H x (or_introl eq_refl)).
  destruct (p x); cbn [map]; [change (zsum (f x :: map f (filter p l))) with (f x + zsum (map f (filter p l)))|]; lia.
Qed.

Lemma zsum_le : forall A (f g : A -> Z) l, (forall x, In x l -> f x <= g x) -> zsum (map f l) <= zsum (map g l).
Proof.
  induction l as [|x l IH]; intros H; [cbn; lia|]. cbn [map].
  change (zsum (f x :: map f l)) with (f x + zsum (map f l)).
  change (zsum (g x :: map g l)) with (g x + zsum (map g l)). assert (IH' := IH (fun y I => H y (or_intror I))).
  specialize (H x (or_introl eq_refl)). lia.
Qed.

Lemma zlen_concat_sum : forall A (f : A -> list Z) l, zlen (concat (map f l)) = zsum (map (fun x => zlen (f x)) l).
Proof.
  induction l as [|x l IH]; cbn [map concat zsum fold_right]; [reflexivity|]. rewrite zlen_app, IH. reflexivity.
Qed.

Lemma len_bytes_le3 : forall s, zlen (len_bytes s) <= 3.
Proof. intros s. unfold len_bytes. destruct (_ <? _); [cbn; lia|]. destruct (_ <? _); cbn; lia. Qed.

(** No fault. *)
Fixpoint conv_rows (h : nat) (f : tframe) (off bs : Z) (w : nat) : res (list (list Z)) :=
  match h with
  | O => Ok []
  | S h =>
      let* row := pixel_to_cpixel (calc_bytes_per_cpixel (tf_dst f)) (cfmt f) (tf_src f) (tf_fb f) off w in
      let* rows := conv_rows h f (off + bs) bs w in
      Ok (row :: rows)
  end.

Lemma conv_rows_total : forall h f off bs w, raw_formats (tf_dst f) (tf_src f) -> tpixel_agrees (tf_dst f) ->
  0 <= off -> 0 <= bs ->
  (h = O \/ off + (Z.of_nat h - 1) * bs + Z.of_nat w * (bits_per_pixel (tf_src f) / 8) <= zlen (tf_fb f)) ->
  exists rows, conv_rows h f off bs w = Ok rows /\ length rows = h /\
    Forall (fun r => zlen r = Z.of_nat w * tpixel_size (tf_dst f)) rows.
Proof.
  induction h as [|h IH]; intros f off bs w F Ag Ho Hs L; cbn [conv_rows].
  - exists []. auto.
  - destruct L as [|L]; [lia|]. pose proof F as [S1 [S2 [T1 [T2 [D1 [D2 [B1 B2]]]]]]].
    destruct (agrees_fmt f Ag) as [A1 [A2 A3]]. rewrite A1.
    assert (0 <= Z.of_nat h * bs) by (apply Z.mul_nonneg_nonneg; lia).
    assert (Fc : shifts_ok (cfmt f) /\ asserts (tpixel_size (tf_dst f)) (cfmt f) (tf_src f) = true).
    { rewrite A3. destruct (is_tpixel3 (tf_dst f)).
      - split; [vm_compute; repeat split; congruence|]. apply asserts_ok; try assumption; try (cbn; lia).
      - split; [exact S2|]. apply asserts_ok; try assumption; lia. }
    destruct Fc as [Fc1 Fc2]. rewrite pixel_to_cpixel_loop by exact Fc2. rewrite src_bytes_eq.
    destruct (emit_pixels_total w (tpixel_size (tf_dst f)) (bits_per_pixel (tf_src f) / 8) (cfmt f) (tf_src f) (tf_fb f) off
      S1 Fc1 A2) as [o [E Lo]]; [lia|lia|lia|].
    rewrite E. cbn [bind].
    destruct (IH f (off + bs) bs w F Ag) as [rows [E2 [L2 F2]]]; [lia|lia|destruct h; [left; reflexivity|right; lia]|].
    rewrite E2. cbn [bind]. exists (o :: rows). cbn [length]. split; [reflexivity|]. split; [lia|].
    constructor; [exact Lo|exact F2].
Qed.

Section T.
Variable zstate : Type.
Variable deflate : zstate -> list Z -> bool -> zstate * list Z.
Variable tj : string -> Z -> Z -> Z -> list Z -> option (list Z).
Variable have_jpeg : bool.
Notation tenc := (tenc zstate).
Notation work_on := (work_on deflate tj have_jpeg).
Notation work := (work deflate tj have_jpeg).
Notation tight_encode := (tight_encode deflate tj have_jpeg).
Notation deflate_all := (deflate_all zstate deflate).

Lemma basic_rows_conv : forall h f off bs w zs buf rows, conv_rows h f off bs w = Ok rows ->
  Forall (fun r => zlen r <= TSL * 4) rows -> zlen buf + zlen (snd (deflate_all zs rows)) < MAX_TILE_SIZE ->
  basic_rows zstate deflate h f off bs w zs buf = Ok (fst (deflate_all zs rows), buf ++ snd (deflate_all zs rows)).
Proof.
  clear tj. induction h as [|h IH]; intros f off bs w zs buf rows H F L; cbn [basic_rows conv_rows] in *.
  - apply ok_inj in H as <-. cbn. rewrite app_nil_r. reflexivity.
  - destruct (pixel_to_cpixel _ _ _ _ _ _) as [row|] eqn:E; cbn [bind] in *; [|discriminate].
    destruct (conv_rows h f (off + bs) bs w) as [rest|] eqn:E2; cbn [bind] in H; [|discriminate].
    apply ok_inj in H as <-. inversion F as [|? ? F1 F2]; subst.
    rewrite put_ok; [|lia|unfold zlen at 2; rewrite repeat_length; unfold TSL in *; cbn; cbn in F1; lia].
    cbn [bind]. unfold tight_deflate.
    assert (Lr : length rest = h).
    { clear - E2. revert off rest E2. induction h as [|h IH]; intros off rest E2; cbn [conv_rows] in E2.
      - apply ok_inj in E2 as <-. reflexivity.
      - destruct (pixel_to_cpixel _ _ _ _ _ _); cbn [bind] in E2; [|discriminate].
        destruct (conv_rows h f (off + bs + bs) bs w) as [r|] eqn:Q; cbn [bind] in E2; [|discriminate].
        apply ok_inj in E2 as <-. cbn [length]. f_equal. apply (IH (off + bs)). exact Q. }
    cbn [Zrle_Spec.deflate_all] in *.
    replace (match rest with [] => true | _ :: _ => false end) with (match h with O => true | S _ => false end) in *
      by (rewrite <- Lr; destruct rest; reflexivity).
    destruct (deflate zs row _) as [zs1 out]. destruct (deflate_all zs1 rest) as [zs2 out2] eqn:Ed.
    cbn [fst snd] in *. rewrite zlen_app in L. pose proof (zlen_nonneg out2).
    replace (zlen buf + zlen out <? MAX_TILE_SIZE) with true by lia. cbn [bind fst snd].
    rewrite (IH _ _ _ _ _ _ rest); [rewrite Ed; cbn [fst snd]; rewrite app_assoc; reflexivity|exact E2|exact F2|].
    rewrite Ed. cbn [snd]. rewrite zlen_app. lia.
Qed.

Variable e : Z.
Hypothesis e_range : 0 <= e <= 16000.
Hypothesis deflate_bound : forall zs pieces, zlen (snd (deflate_all zs pieces)) <= zlen (concat pieces) + e.

Lemma work_on_total : forall f te j t, well_formed te -> valid zstate te j -> is_basic have_jpeg f = true ->
  raw_formats (tf_dst f) (tf_src f) -> tpixel_agrees (tf_dst f) -> te_w te <= tf_stride f ->
  te_h te * tf_stride f * (bits_per_pixel (tf_src f) / 8) <= zlen (tf_fb f) ->
  get_tile te j = Ok t -> exists te1, work_on f te j = Ok te1 /\
  (tt_state t = Damaged -> forall t, get_tile te1 j = Ok t ->
     zlen (tt_buf t) <= tile_area (te_w te) (te_h te) j * tpixel_size (tf_dst f) + e).
Proof.
  intros f te j t W V Bm F Ag Ws Wf G. unfold Tight_Model.work_on. rewrite G. cbn [bind].
  destruct (tt_state t) eqn:St; try (eexists; split; [reflexivity|discriminate]).
  unfold tight_encode_tile. cbv zeta. unfold is_basic in Bm. rewrite Bm.
  pose proof (Z.mod_pos_bound (fst j) 4 ltac:(lia)) as Mb. pose proof W as [_ [_ [_ [Wz _]]]].
  destruct (nth_error (te_zs te) _) as [zs|] eqn:En; [|apply nth_error_None in En; lia].
  pose proof V as [Vx Vy].
  pose proof (tile_width_range zstate te (fst j) W Vx) as [Tw1 Tw2].
  pose proof (tile_height_range zstate te (snd j) W Vy) as [Th1 Th2].
  assert (Ea : tile_area (te_w te) (te_h te) j = tight_tile_width te (fst j * TSL) * tight_tile_height te (snd j * TSL))
    by (unfold tile_area; rewrite width_dim, height_dim; reflexivity).
  rewrite Ea. set (w := tight_tile_width te (fst j * TSL)) in *. set (h := tight_tile_height te (snd j * TSL)) in *.
  pose proof F as [_ [_ [_ [_ [_ [_ [B1 _]]]]]]]. destruct (agrees_fmt f Ag) as [_ [A2 _]].
  unfold encode_tile_basic. cbv zeta. set (s := bits_per_pixel (tf_src f) / 8) in *.
  unfold TSL in Tw2, Th2.
  assert (P1 : 0 <= fst j * TSL * s) by (unfold TSL; repeat apply Z.mul_nonneg_nonneg; lia).
  assert (P2 : 0 <= tf_stride f * s) by (apply Z.mul_nonneg_nonneg; lia).
  assert (P3 : 0 <= snd j * TSL * (tf_stride f * s)) by (unfold TSL; repeat apply Z.mul_nonneg_nonneg; lia).
  assert (P4 : (fst j * TSL + w) * s <= tf_stride f * s) by (apply Z.mul_le_mono_nonneg_r; unfold TSL; lia).
  assert (P5 : (snd j * TSL + h) * (tf_stride f * s) <= te_h te * (tf_stride f * s))
    by (apply Z.mul_le_mono_nonneg_r; unfold TSL; lia).
  destruct (conv_rows_total (Z.to_nat h) f (fst j * TSL * s + snd j * TSL * (tf_stride f * s)) (tf_stride f * s)
    (Z.to_nat w) F Ag) as [rows [E [L Fr]]]; [lia|lia| |].
  { right. fold s. rewrite !Z2Nat.id by lia. lia. }
  rewrite Z2Nat.id in Fr by lia.
  assert (Lc : zlen (concat rows) = h * (w * tpixel_size (tf_dst f)))
    by (rewrite (zlen_concat _ _ Fr), L, Z2Nat.id by lia; reflexivity).
  assert (Lm : h * (w * tpixel_size (tf_dst f)) <= 64 * 256).
  { apply Z.le_trans with (64 * (w * tpixel_size (tf_dst f))).
    - apply Z.mul_le_mono_nonneg_r; [apply Z.mul_nonneg_nonneg; lia|lia].
    - assert (w * tpixel_size (tf_dst f) <= 64 * 4); [|lia]. apply Z.mul_le_mono_nonneg; lia. }
  pose proof (deflate_bound zs rows) as Db.
  rewrite (basic_rows_conv _ _ _ _ _ zs [] rows E).
  - cbn [bind fst snd app]. eexists. split; [reflexivity|]. intros _ t0 G0.
    rewrite get_set_same in G0.
    + injection G0 as <-. cbn [tt_buf]. lia.
    + unfold well_formed. cbn [te_w te_h te_gw te_gh te_grid te_zs]. rewrite set_nth_length. exact W.
    + split; assumption.
  - eapply Forall_impl; [|exact Fr]. intros r R. cbn beta in R. rewrite R. unfold TSL.
    assert (w * tpixel_size (tf_dst f) <= 64 * 4); [|lia]. apply Z.mul_le_mono_nonneg; lia.
  - unfold MAX_TILE_SIZE, TSL. cbn [zlen length]. change (zlen []) with 0. lia.
Qed.

Lemma work_total : forall f l te, well_formed te -> NoDup l -> Forall (valid zstate te) l ->
  is_basic have_jpeg f = true ->
  raw_formats (tf_dst f) (tf_src f) -> tpixel_agrees (tf_dst f) -> te_w te <= tf_stride f ->
  te_h te * tf_stride f * (bits_per_pixel (tf_src f) / 8) <= zlen (tf_fb f) ->
  exists te', work f te l = Ok te' /\
    forall j t, In j l -> is_damaged zstate te j = true -> get_tile te' j = Ok t ->
      zlen (tt_buf t) <= tile_area (te_w te) (te_h te) j * tpixel_size (tf_dst f) + e.
Proof.
  intros f. induction l as [|j l IH]; intros te W N V Bm F Ag Ws Wf; cbn [Tight_Model.work].
  - exists te. split; [reflexivity|]. intros j t [].
  - inversion N as [|? ? N1 N2]; subst. inversion V as [|? ? V1 V2]; subst.
    destruct (get_total zstate te j W V1) as [t G].
    destruct (work_on_total f te j t W V1 Bm F Ag Ws Wf G) as [te1 [E B]]. rewrite E. cbn [bind].
    pose proof (work_on_shape _ _ _ _ _ _ _ _ E) as S. pose proof S as [Sw [Sh _]].
    destruct (IH te1) as [te' [E' B']]; try assumption; try (rewrite <- ?Sw, <- ?Sh; assumption).
    + apply (shape_wf zstate te); assumption.
    + eapply Forall_impl; [|exact V2]. intros k. apply shape_valid. exact S.
    + exists te'. split; [exact E'|]. intros i t0 I D G0. destruct I as [<-|I].
      * unfold is_damaged in D. rewrite G in D. destruct (tt_state t) eqn:St; try discriminate.
        apply (B eq_refl). rewrite <- G0. symmetry.
        apply (work_keeps zstate deflate tj have_jpeg f l te1); [|apply (shape_valid zstate te); assumption|exact N1|exact E'].
        eapply Forall_impl; [|exact V2]. intros k. apply shape_valid. exact S.
      * rewrite Sw, Sh. apply (B' i); [exact I| |exact G0]. unfold is_damaged in *.
        rewrite (work_on_keeps zstate deflate tj have_jpeg f te j te1 i V1); [exact D| |intros ->; auto|exact E].
        rewrite Forall_forall in V2. apply V2. exact I.
Qed.

Lemma finish_total : forall xp yp jobs (te : tenc) dst, well_formed te -> NoDup jobs -> Forall (valid zstate te) jobs ->
  zlen (tdata dst) + zlen (concat (map (emit zstate xp yp te) (filter (is_encoded zstate te) jobs))) <= tcap dst ->
  (forall j t, In j jobs -> is_encoded zstate te j = true -> get_tile te j = Ok t -> zlen (tt_buf t) < 2 ^ 22) ->
  exists r, finish_loop xp yp jobs te dst = Ok r.
Proof.
  clear tj deflate_bound. intros xp yp. induction jobs as [|j jobs IH]; intros te dst W N V C B; cbn [finish_loop]; [eauto|].
  inversion N as [|? ? N1 N2]; subst. inversion V as [|? ? V1 V2]; subst.
  destruct (get_total zstate te j W V1) as [t G]. rewrite G. cbn [bind filter] in *.
  destruct (tt_state t) eqn:St; unfold is_encoded at 1 in C; rewrite G, St in C.
  - apply IH; try assumption. intros i t0 I. apply B. right. exact I.
  - apply IH; try assumption. intros i t0 I. apply B. right. exact I.
  - cbn [map concat] in C. rewrite zlen_app in C. unfold emit at 1 in C. rewrite G in C.
    rewrite !zlen_app, rect_head_length in C. change (zlen [tt_type t]) with 1 in C.
    assert (Bt : zlen (tt_buf t) < 2 ^ 22)
      by (apply (B j); [left; reflexivity|unfold is_encoded; rewrite G, St; reflexivity|exact G]).
    unfold finish_tile. cbv zeta.
    match goal with |- context [encode_size ?v _] => set (v2 := v) end.
    set (rest := concat (map (emit zstate xp yp te) (filter (is_encoded zstate te) jobs))) in *.
    pose proof (zlen_nonneg rest) as Zr. pose proof (zlen_nonneg (tt_buf t)) as Zb.
    assert (Cv : tcap dst <= tcap v2).
    { unfold v2. eapply Z.le_trans; [|apply append_tcap]. apply append_tcap. }
    assert (Dv : zlen (tdata v2) = zlen (tdata dst) + 13).
    { unfold v2. rewrite !append_tdata, !zlen_app, rect_head_length. change (zlen [tt_type t]) with 1. lia. }
    destruct (encode_size_total v2 (zlen (tt_buf t)) Zb) as [v3 E3]; [lia|].
    rewrite E3. cbn [bind fst snd]. apply encode_size_ok in E3 as [D3 C3]; [|lia].
    set (te1 := set_tile te j (mk_tt Ready (tt_type t) (tt_buf t))).
    assert (S : shape zstate te te1) by apply shape_set.
    assert (K : forall i, In i jobs -> get_tile te1 i = get_tile te i).
    { intros i I. apply get_set_other; [exact V1| |intros ->; auto]. rewrite Forall_forall in V2. apply V2. exact I. }
    apply IH.
    + apply (shape_wf zstate te); assumption.
    + exact N2.
    + eapply Forall_impl; [|exact V2]. intros k. apply shape_valid. exact S.
    + assert (Fe : filter (is_encoded zstate te1) jobs = filter (is_encoded zstate te) jobs).
      { apply filter_ext_in. intros i I. unfold is_encoded. rewrite K by exact I. reflexivity. }
      rewrite Fe. rewrite (map_ext_in (emit zstate xp yp te1) (emit zstate xp yp te)).
      2: { intros i I. apply filter_In in I as [I _]. apply emit_shape; [apply shape_sym; exact S|apply K; exact I]. }
      fold rest. rewrite append_tdata, D3, !zlen_app, Dv. pose proof (append_tcap v3 (tt_buf t)). lia.
    + intros i t0 I Ei Gi. unfold is_encoded in Ei. rewrite K in Ei, Gi by exact I.
      apply (B i); [right; exact I|exact Ei|exact Gi].
Qed.

(** States after the work: what was damaged is encoded, the rest is not. *)
Lemma work_states : forall f l te te', well_formed te -> NoDup l -> Forall (valid zstate te) l ->
  (forall j, In j l -> is_encoded zstate te j = false) -> work f te l = Ok te' ->
  forall j, In j l -> is_encoded zstate te' j = is_damaged zstate te j.
Proof.
  clear deflate_bound. intros f. induction l as [|j l IH]; intros te te' W N V Ne H i I; [destruct I|].
  cbn [Tight_Model.work] in H. destruct (work_on f te j) as [te1|] eqn:E; cbn [bind] in H; [|discriminate].
  inversion N as [|? ? N1 N2]; subst. inversion V as [|? ? V1 V2]; subst.
  pose proof (work_on_shape _ _ _ _ _ _ _ _ E) as S.
  assert (W1 : well_formed te1) by (apply (shape_wf zstate te); assumption).
  assert (V3 : Forall (valid zstate te1) l)
    by (eapply Forall_impl; [|exact V2]; intros k; apply shape_valid; exact S).
  assert (K : forall i, In i l -> get_tile te1 i = get_tile te i).
  { intros k Ik. apply (work_on_keeps zstate deflate tj have_jpeg f te j te1 k); [exact V1| |intros ->; auto|exact E].
    rewrite Forall_forall in V2. apply V2. exact Ik. }
  destruct I as [<-|I].
  - assert (Gj : get_tile te' j = get_tile te1 j).
    { apply (work_keeps zstate deflate tj have_jpeg f l te1); [exact V3|apply (shape_valid zstate te); assumption|exact N1|exact H]. }
    specialize (Ne j (or_introl eq_refl)). unfold is_encoded, is_damaged in *. rewrite Gj.
    unfold Tight_Model.work_on in E. destruct (get_tile te j) as [t|] eqn:G; cbn [bind] in E; [|discriminate].
    destruct (tt_state t) eqn:St; try discriminate.
    + apply ok_inj in E as <-. rewrite G, St. reflexivity.
    + unfold tight_encode_tile in E. cbv zeta in E. destruct (negb have_jpeg || _).
      * destruct (nth_error (te_zs te) _) as [zs|]; [|discriminate].
        destruct (encode_tile_basic _ _ _ _ _ _ _ _) as [r|]; cbn [bind] in E; [|discriminate].
        apply ok_inj in E as <-. rewrite get_set_same; [reflexivity| |exact V1].
        unfold well_formed. cbn [te_w te_h te_gw te_gh te_grid te_zs]. rewrite set_nth_length. exact W.
      * destruct (encode_tile_jpeg _ _ _ _ _ _) as [r|]; cbn [bind] in E; [|discriminate].
        apply ok_inj in E as <-. rewrite get_set_same; [reflexivity|exact W|exact V1].
  - rewrite (IH te1 te' W1 N2 V3); try assumption.
    + unfold is_damaged. rewrite K by exact I. reflexivity.
    + intros k Ik. unfold is_encoded. rewrite K by exact Ik. apply Ne. right. exact Ik.
Qed.

Lemma tight_total : forall te f xp yp w h damage sched, well_formed te -> 0 <= w -> 0 <= h ->
  is_basic have_jpeg f = true -> raw_formats (tf_dst f) (tf_src f) -> tpixel_agrees (tf_dst f) ->
  w <= tf_stride f -> h * tf_stride f * (bits_per_pixel (tf_src f) / 8) <= zlen (tf_fb f) ->
  four_workers w h sched -> w * h * 4 < 2 ^ 32 ->
  (16 + e) * (UDIV_UP w 64 * UDIV_UP h 64) + tpixel_size (tf_dst f) * (w * h) <= 4 * (w * h) ->
  existsb (fun j => overlaps damage (tile_box j)) (grid_jobs (UDIV_UP w 64) (UDIV_UP h 64)) = true ->
  exists r, tight_encode te f xp yp w h damage sched = Ok r.
Proof.
  intros te f xp yp w h damage sched W Hw Hh Bm Fm Ag Ws Wf F A32 Fit Dm.
  unfold Tight_Model.tight_encode. cbv zeta.
  destruct (resize_wf zstate te w h W Hw Hh) as [W0 [Ew [Eh Ez]]].
  set (te0 := tight_resize te w h) in *.
  destruct (damage_applied zstate te0 damage W0) as [te1 [E1 [W1 [Ew1 [Eh1 [Egw [Egh [Ez1 I1]]]]]]]].
  rewrite E1. cbn [bind fst snd]. pose proof W0 as [Wg0 [Wh0 _]].
  rewrite Ew in Wg0. rewrite Eh in Wh0.
  assert (Np : 0 < Z.of_nat (length (filter (fun j => overlaps damage (tile_box j)) (grid_jobs (te_gw te0) (te_gh te0))))).
  { rewrite Wg0, Wh0. apply existsb_exists in Dm as [j [J O]].
    assert (Q : In j (filter (fun j => overlaps damage (tile_box j)) (grid_jobs (UDIV_UP w 64) (UDIV_UP h 64))))
      by (apply filter_In; auto).
    apply (in_length _ _ _ Q). }
  replace (_ <=? 0) with false by lia.
  set (grid := grid_jobs (te_gw te0) (te_gh te0)) in *.
  assert (Vg : Forall (valid zstate te1) grid) by (apply Forall_forall; intros j J; apply (I1 j J)).
  assert (Ng : NoDup grid) by apply grid_jobs_nodup.
  destruct (work_total f grid te1 W1 Ng Vg Bm Fm Ag) as [te2 [E2 B2]];
    [rewrite Ew1, Ew; exact Ws|rewrite Eh1, Eh; exact Wf|].
  assert (E2' : work f te1 sched = Ok te2).
  { apply (order_irrelevant zstate deflate tj have_jpeg f te1 te2 w h sched W1); [congruence|congruence|exact F|].
    rewrite Egw, Egh. exact E2. }
  rewrite E2'. cbn [bind].
  pose proof (work_shape _ _ _ _ _ _ _ _ E2) as S2. pose proof S2 as [Sw [Sh [Sgw [Sgh _]]]].
  replace (te_gw te2) with (te_gw te0) by congruence. replace (te_gh te2) with (te_gh te0) by congruence.
  fold grid. assert (W2 : well_formed te2) by (apply (shape_wf zstate te1); assumption).
  assert (St : forall j, In j grid -> is_encoded zstate te2 j = is_damaged zstate te1 j).
  { apply (work_states f grid te1 te2 W1 Ng Vg); [|exact E2]. intros j J. apply (I1 j J). }
  assert (Bt : forall j t, In j grid -> is_encoded zstate te2 j = true -> get_tile te2 j = Ok t ->
    zlen (tt_buf t) <= tile_area w h j * tpixel_size (tf_dst f) + e).
  { intros j t J En G. rewrite <- Ew, <- Eh, <- Ew1, <- Eh1. apply (B2 j); [exact J| |exact G].
    rewrite <- St by exact J. exact En. }
  destruct (agrees_fmt f Ag) as [_ [A2 _]].
  assert (Dim : forall j, In j grid -> 1 <= tile_dim w (fst j) <= 64 /\ 1 <= tile_dim h (snd j) <= 64).
  { intros j J. apply grid_jobs_in in J. rewrite Wg0, Wh0 in J.
    destruct (Z.eq_dec w 0) as [->|]; [cbn in J; lia|]. destruct (Z.eq_dec h 0) as [->|]; [cbn in J; lia|].
    pose proof (udiv_up w ltac:(lia)) as [U1 _]. pose proof (udiv_up h ltac:(lia)) as [U2 _].
    unfold tile_dim. lia. }
  assert (Ar : forall j, In j grid -> 0 <= tile_area w h j <= 64 * 64).
  { intros j J. specialize (Dim j J). unfold tile_area. split; [apply Z.mul_nonneg_nonneg; lia|].
    apply Z.mul_le_mono_nonneg; lia. }
  destruct (finish_total xp yp grid te2 (mk_tv [] ((w * h * 4) mod 2 ^ 32))) as [r Er]; [exact W2|exact Ng| | | |].
  - eapply Forall_impl; [|exact Vg]. intros k. apply shape_valid. exact S2.
  - cbn [tdata tcap]. change (zlen []) with 0. assert (0 <= w * h) by (apply Z.mul_nonneg_nonneg; lia).
    rewrite Z.mod_small by lia. rewrite zlen_concat_sum.
    apply Z.le_trans with (0 + zsum (map (fun j => tile_area w h j * tpixel_size (tf_dst f) + (16 + e)) (filter (is_encoded zstate te2) grid))).
    + apply Z.add_le_mono_l. apply zsum_le. intros j J. apply filter_In in J as [J En].
      unfold emit. destruct (get_tile te2 j) as [t|] eqn:G.
      * rewrite !zlen_app, rect_head_length. change (zlen [tt_type t]) with 1.
        pose proof (len_bytes_le3 (zlen (tt_buf t))). specialize (Bt j t J En G). lia.
      * change (zlen []) with 0. specialize (Ar j J).
        assert (0 <= tile_area w h j * tpixel_size (tf_dst f)) by (apply Z.mul_nonneg_nonneg; lia). lia.
    + eapply Z.le_trans; [apply Z.add_le_mono_l, zsum_filter|].
      { intros j J. specialize (Ar j J).
        assert (0 <= tile_area w h j * tpixel_size (tf_dst f)) by (apply Z.mul_nonneg_nonneg; lia). lia. }
      assert (Sm : forall l, zsum (map (fun j => tile_area w h j * tpixel_size (tf_dst f) + (16 + e)) l) =
        zsum (map (tile_area w h) l) * tpixel_size (tf_dst f) + (16 + e) * Z.of_nat (length l)).
      { induction l as [|j l IHl]; [cbn; lia|]. cbn [map length]. unfold zsum in *. cbn [fold_right]. rewrite IHl. lia. }
      rewrite Sm. unfold grid. rewrite Wg0, Wh0, areas_sum by lia.
      rewrite grid_jobs_length by (unfold UDIV_UP; apply Z.div_pos; lia). lia.
  - intros j t J En G. specialize (Bt j t J En G). specialize (Ar j J).
    assert (tile_area w h j * tpixel_size (tf_dst f) <= 64 * 64 * 4) by (apply Z.mul_le_mono_nonneg; lia). lia.
  - rewrite Er. cbn [bind]. eauto.
Qed.
End T.
