From Verif Require Import Common CommonProofs Ws_Proofs WsStream_Proofs.
From Verif Require Import Pixels_Model Pixels_Proofs Zrle_Model Zrle_Spec Zrle_Proofs Zrle2_Proofs Raw_Spec Raw_Proofs.
From Verif Require Import Tight_Model Tight_Spec Tight_Proofs Tight2_Proofs.

Lemma int16_id : forall v, - 2 ^ 15 <= v < 2 ^ 15 -> int16 v = v.
Proof.
  intros v H. unfold int16, to_signed. cbv zeta. rewrite Z.mod_mod by lia. destruct (Z_lt_le_dec v 0).
  - replace (v mod 2 ^ 16) with (v + 2 ^ 16) by (apply Z.mod_unique with (-1); lia).
    replace (v + 2 ^ 16 <? 2 ^ (16 - 1)) with false by lia. lia.
  - rewrite Z.mod_small by lia. replace (v <? 2 ^ (16 - 1)) with true by lia. reflexivity.
Qed.

Lemma sched_valid : forall w h sched, four_workers w h sched ->
  Forall (fun j => In j (grid_jobs (UDIV_UP w 64) (UDIV_UP h 64))) sched.
Proof.
  intros w h sched H. apply Forall_forall. intros j J.
  destruct (interleaved_in _ _ H j J) as [l [L I]]. apply in_map_iff in L as [i [<- L]].
  rewrite <- worker_jobs_filter in I; [apply filter_In in I; apply I|]. cbn [In] in L. lia.
Qed.

Lemma resize_wf : forall zstate (te : tenc zstate) w h, well_formed te -> 0 <= w -> 0 <= h ->
  well_formed (tight_resize te w h) /\ te_w (tight_resize te w h) = w /\ te_h (tight_resize te w h) = h /\
  te_zs (tight_resize te w h) = te_zs te.
Proof.
  intros zstate te w h W Hw Hh. unfold tight_resize. destruct (_ && _) eqn:E.
  - split; [exact W|]. repeat split; lia.
  - split; [|repeat split]. destruct W as [_ [_ [_ [Wz _]]]]. unfold well_formed.
    cbn [te_w te_h te_gw te_gh te_grid te_zs]. repeat split; try assumption.
    rewrite repeat_length. assert (0 <= UDIV_UP w 64) by (unfold UDIV_UP; apply Z.div_pos; lia).
    assert (0 <= UDIV_UP h 64) by (unfold UDIV_UP; apply Z.div_pos; lia).
    rewrite Z2Nat.id; [reflexivity|]. apply Z.mul_nonneg_nonneg; assumption.
Qed.

Section T.
Variable zstate : Type.
Variable deflate : zstate -> list Z -> bool -> zstate * list Z.
Variable tj : string -> Z -> Z -> Z -> list Z -> option (list Z).
Variable have_jpeg : bool.
Notation tenc := (tenc zstate).
Notation work_on := (work_on deflate tj have_jpeg).
Notation work := (work deflate tj have_jpeg).
Notation tight_encode := (tight_encode deflate tj have_jpeg).
Notation deflate_all := (deflate_all zstate deflate).

Lemma width_dim : forall (te : tenc) x, tight_tile_width te (x * TSL) = tile_dim (te_w te) x.
Proof. clear tj. intros. unfold tight_tile_width, tile_dim, TSL. destruct (_ >? _) eqn:E; lia. Qed.
Lemma height_dim : forall (te : tenc) x, tight_tile_height te (x * TSL) = tile_dim (te_h te) x.
Proof. clear tj. intros. unfold tight_tile_height, tile_dim, TSL. destruct (_ >? _) eqn:E; lia. Qed.

(** After the damage has been applied. *)
Lemma damage_applied : forall (te : tenc) damage, well_formed te ->
  exists te1, apply_damage te damage =
      Ok (te1, Z.of_nat (length (filter (fun j => overlaps damage (tile_box j)) (grid_jobs (te_gw te) (te_gh te))))) /\
    well_formed te1 /\ te_w te1 = te_w te /\ te_h te1 = te_h te /\ te_gw te1 = te_gw te /\ te_gh te1 = te_gh te /\
    te_zs te1 = te_zs te /\
    (forall j, In j (grid_jobs (te_gw te) (te_gh te)) ->
       valid zstate te1 j /\ is_encoded zstate te1 j = false /\ is_damaged zstate te1 j = overlaps damage (tile_box j)).
Proof.
  intros te damage W. unfold apply_damage.
  destruct (damage_loop_ok zstate damage (grid_jobs (te_gw te) (te_gh te)) te 0 W) as [te1 [E [S [Z [_ I]]]]].
  - apply grid_jobs_nodup.
  - apply Forall_forall. intros j J. apply grid_jobs_in in J. exact J.
  - exists te1. rewrite E. split; [reflexivity|]. pose proof S as [Sw [Sh [Sgw [Sgh _]]]].
    split; [apply (shape_wf zstate te); assumption|]. repeat (split; [congruence|]).
    intros j J. destruct (I j J) as [t [G St]]. split.
    + apply (shape_valid zstate te); [exact S|]. apply grid_jobs_in in J. exact J.
    + unfold is_encoded, is_damaged. rewrite G, St. destruct (overlaps _ _); auto.
Qed.

Lemma order_irrelevant : forall f (te te2 : tenc) w h sched, well_formed te -> te_w te = w -> te_h te = h ->
  four_workers w h sched -> work f te sched = Ok te2 <-> work f te (grid_jobs (te_gw te) (te_gh te)) = Ok te2.
Proof.
  intros f te te2 w h sched W Ew Eh F. pose proof W as [Wg [Wh _]].
  assert (V1 : Forall (valid zstate te) sched).
  { eapply Forall_impl; [|apply sched_valid; exact F]. intros j J. cbn beta in J. apply grid_jobs_in in J.
    unfold valid. rewrite Wg, Wh, Ew, Eh. exact J. }
  assert (V2 : Forall (valid zstate te) (grid_jobs (te_gw te) (te_gh te))).
  { apply Forall_forall. intros j J. apply grid_jobs_in in J. exact J. }
  assert (Q : forall i, 0 <= i < 4 -> filter (colmod i) sched = filter (colmod i) (grid_jobs (te_gw te) (te_gh te))).
  { intros i Hi. rewrite Wg, Wh, Ew, Eh. apply workers_filter; assumption. }
  split; apply work_order; try assumption. intros i Hi. symmetry. apply Q. exact Hi.
Qed.

Variable istate : Type.
Variable inflate : istate -> list Z -> istate * list Z.
Variable synced : zstate -> istate -> Prop.
Hypothesis zlib : zlib_works zstate istate deflate inflate synced.

Definition rect_at (xp yp w h : Z) (j : job) (r : trect) : Prop :=
  t_x r = xp + 64 * fst j /\ t_y r = yp + 64 * snd j /\ t_w r = tile_dim w (fst j) /\ t_h r = tile_dim h (snd j).

Lemma tight_frame : forall te f xp yp w h damage sched te' out n sts, well_formed te ->
  0 <= w -> 0 <= h -> 0 <= xp -> xp + w <= 2 ^ 16 -> 0 <= yp -> yp + h <= 2 ^ 16 ->
  0 <= bits_per_pixel (tf_src f) ->
  (is_basic have_jpeg f = true -> tpixel_agrees (tf_dst f) /\
     forall gx gy, 0 <= 64 * gx < w -> 0 <= 64 * gy < h ->
       12 <= tile_dim w gx * tile_dim h gy * tpixel_size (tf_dst f)) ->
  four_workers w h sched -> streams_synced synced te sts ->
  tight_encode te f xp yp w h damage sched = Ok (te', out, n) ->
  exists rs sts', read_trects istate inflate (Z.to_nat (tpixel_size (tf_dst f))) (Z.to_nat n) sts out = Some (rs, sts') /\
    0 < n /\ well_formed te' /\ streams_synced synced te' sts' /\
    Forall2 (rect_at xp yp w h)
      (filter (fun j => overlaps damage (tile_box j)) (grid_jobs (UDIV_UP w 64) (UDIV_UP h 64))) rs /\
    Forall (fun r => if is_basic have_jpeg f then trect_shows f xp yp r else jpeg_made tj f xp yp r) rs.
Proof.
  intros te f xp yp w h damage sched te' out n sts W Hw Hh X1 X2 Y1 Y2 Bs C F Sy H.
  unfold Tight_Model.tight_encode in H. cbv zeta in H.
  destruct (resize_wf zstate te w h W Hw Hh) as [W0 [Ew [Eh Ez]]].
  set (te0 := tight_resize te w h) in *.
  destruct (damage_applied te0 damage W0) as [te1 [E1 [W1 [Ew1 [Eh1 [Egw [Egh [Ez1 I1]]]]]]]].
  rewrite E1 in H. cbn [bind fst snd] in H.
  destruct (_ <=? 0) eqn:Np; [discriminate|].
  destruct (work f te1 sched) as [te2|] eqn:E2; cbn [bind] in H; [|discriminate].
  destruct (finish_loop _ _ _ _ _) as [[te3 v]|] eqn:E3; cbn [bind fst snd] in H; [|discriminate].
  apply ok_inj in H. apply pair_equal_spec in H as [H <-]. apply pair_equal_spec in H as [<- <-].
  pose proof W0 as [Wg0 [Wh0 _]].
  apply (order_irrelevant f te1 te2 w h sched W1) in E2; [|congruence|congruence|exact F].
  rewrite Egw, Egh in E2. set (grid := grid_jobs (te_gw te0) (te_gh te0)) in *.
  assert (Vg : Forall (valid zstate te1) grid) by (apply Forall_forall; intros j J; apply (I1 j J)).
  assert (Ng : NoDup grid) by apply grid_jobs_nodup.
  pose proof (work_shape _ _ _ _ _ _ _ _ E2) as S2. pose proof S2 as [Sw [Sh [Sgw [Sgh _]]]].
  assert (W2 : well_formed te2) by (apply (shape_wf zstate te1); assumption).
  assert (Sy1 : streams_synced synced te1 sts) by (unfold streams_synced in *; rewrite Ez1, Ez; exact Sy).
  destruct (frame_reads zstate deflate tj have_jpeg istate inflate synced zlib f xp yp grid te1 te2 sts W1 Ng Vg)
    as [rs [sts' [R1 [R2 [R3 [R4 [R5 R6]]]]]]]; try assumption; try (rewrite ?Ew1, ?Eh1, ?Ew, ?Eh; assumption).
  { intros B. destruct (C B) as [Ag Big]. split; [exact Ag|]. intros j J _.
    rewrite width_dim, height_dim, Ew1, Eh1, Ew, Eh.
    apply grid_jobs_in in J. rewrite Wg0, Wh0, Ew, Eh in J.
    destruct (Z.eq_dec w 0) as [->|]; [cbn in J; lia|]. destruct (Z.eq_dec h 0) as [->|]; [cbn in J; lia|].
    pose proof (udiv_up w ltac:(lia)). pose proof (udiv_up h ltac:(lia)). apply Big; lia. }
  { intros j J. apply (I1 j J). }
  replace (te_gw te2) with (te_gw te0) in E3 by congruence. replace (te_gh te2) with (te_gh te0) in E3 by congruence.
  fold grid in E3.
  assert (Fd : filter (is_damaged zstate te1) grid = filter (fun j => overlaps damage (tile_box j)) grid).
  { apply filter_ext_in. intros j J. apply (I1 j J). }
  rewrite Fd in R3, R5.
  assert (Hb : forall j t, In j grid -> is_encoded zstate te2 j = true -> get_tile te2 j = Ok t -> zlen (tt_buf t) < 2 ^ 22).
  { intros j t J En G. apply (R6 j t J); [|exact G].
    assert (Q : In j (filter (is_encoded zstate te2) grid)) by (apply filter_In; auto).
    rewrite R5 in Q. apply filter_In in Q as [_ Q]. destruct (I1 j J) as [_ [_ ->]]. exact Q. }
  assert (FO : tdata v = concat (map (emit zstate xp yp te2) (filter (is_encoded zstate te2) grid)) /\
               shape zstate te2 te3 /\ te_zs te3 = te_zs te2).
  { apply (finish_enc zstate xp yp grid te2 (mk_tv [] ((w * h * 4) mod 2 ^ 32)) te3 v W2 Ng eq_refl); try assumption.
    eapply Forall_impl; [|exact Vg]. intros k. apply shape_valid. exact S2. }
  destruct FO as [T [S3 Z3]].
  exists rs, sts'. rewrite T. rewrite Nat2Z.id.
  fold grid in Np. rewrite (Forall2_len _ _ _ _ _ R3). split; [exact R2|].
  rewrite (Forall2_len _ _ _ _ _ R3) in Np. split; [lia|].
  split; [apply (shape_wf zstate te2); assumption|]. split; [unfold streams_synced in *; rewrite Z3; exact R1|].
  split; [|exact R4]. replace (UDIV_UP w 64) with (te_gw te0) by congruence.
  replace (UDIV_UP h 64) with (te_gh te0) by congruence.
  eapply Forall2_impl; [|exact R3]. intros j r [Q1 [Q2 [Q3 Q4]]]. unfold rect_at.
  rewrite width_dim, Ew1, Ew in Q3. rewrite height_dim, Eh1, Eh in Q4. unfold TSL in *. repeat split; lia.
Qed.
End T.
