From Verif Require Import Common CommonProofs Pixels_Model Rate_Model Rate_Spec.

Lemma fmt_facts f d a : has_format f d a ->
  get_format_depth f = d /\ format_has_alpha f = a /\ (d = 12 \/ d = 24 \/ d = 30) /\
  get_format_depth (twin f) = d /\ format_has_alpha (twin f) = false /\ 0 <= f < 2 ^ 31.
Proof.
  intros (name & I & ->). cbn in I.
  repeat (destruct I as [I|I]; [injection I as <- <- <-; vm_compute; intuition congruence|]). contradiction.
Qed.

Lemma low31 f : 0 <= f < 2 ^ 32 -> Z.land f (Z.lnot BIG_ENDIAN) = f mod 2 ^ 31.
Proof.
  intros F. unfold BIG_ENDIAN. rewrite <- Z.ldiff_land. apply Z.bits_inj'. intros n N.
  rewrite Z.ldiff_spec, Z.pow2_bits_eqb by lia.
  destruct (Z.ltb_spec n 31).
  - rewrite Z.mod_pow2_bits_low by lia. replace (31 =? n) with false by lia. now rewrite andb_true_r.
  - rewrite Z.mod_pow2_bits_high by lia. destruct (31 =? n) eqn:E; [apply andb_false_r|].
    rewrite (testbit_small f n 32) by lia. reflexivity.
Qed.

Lemma depth_known f : 0 <= f < 2 ^ 32 -> get_format_depth f <> 0 ->
  exists d a, has_format f d a \/ exists g, f = twin g /\ has_format g d a.
Proof.
  intros F. unfold get_format_depth, pixfmt_from_fourcc, layout_of_fourcc. rewrite (low31 f F).
  assert (D := Z.div_mod f (2 ^ 31) ltac:(lia)). assert (B : f / 2 ^ 31 = 0 \/ f / 2 ^ 31 = 1) by lia.
  assert (K : forall name d a, In (name, (d, a)) formats -> (f mod 2 ^ 31 =? fourcc name) = true ->
    exists d a, has_format f d a \/ exists g, f = twin g /\ has_format g d a).
  { intros name d a I E. exists d, a. destruct B as [B|B]; rewrite B in D.
    - left. exists name. split; [exact I|lia].
    - right. exists (fourcc name). split; [unfold twin; lia|]. exists name. auto. }
  cbv zeta. set (g := f mod 2 ^ 31) in *. clearbody g.
  repeat match goal with
  | |- (match (match (if ?x || ?y then _ else _) with _ => _ end) with _ => _ end) <> 0 -> _ =>
      destruct x eqn:?; [intros _; eapply K; [|eassumption]; cbn; tauto|];
      destruct y eqn:?; [intros _; eapply K; [|eassumption]; cbn; tauto|]; cbn [orb]
  | |- (match (match (if ?x then _ else _) with _ => _ end) with _ => _ end) <> 0 -> _ =>
      destruct x eqn:?; [intros _; eapply K; [|eassumption]; cbn; tauto|]
  end.
  congruence.
Qed.

Lemma vendor_div m : 0 <= m < 2 ^ 64 -> vendor m = m / 2 ^ 56.
Proof.
  intros M. unfold vendor. rewrite Z.shiftr_div_pow2 by lia. change 255 with (Z.ones 8). rewrite Z.land_ones by lia.
  apply Z.mod_small. split; [apply Z.div_pos; lia|]. apply Z.div_lt_upper_bound; lia.
Qed.

Lemma allowed m : 0 <= m < 2 ^ 64 -> format_modifier_is_allowed m = true <-> layout_ok m.
Proof.
  intros M. unfold format_modifier_is_allowed, layout_ok, amd_format_modifier_is_allowed. rewrite vendor_div by exact M.
  cbn [existsb format_modifier_allow_list]. split.
  - destruct (m / 2 ^ 56 =? 2) eqn:V; [intros H; apply andb_prop in H as [H1 H2]; do 4 right; repeat split; [lia| |]; now apply negb_true_iff|].
    rewrite !orb_true_iff, !Z.eqb_eq. intuition congruence.
  - intros [->|[->|[->|[->|(V & H1 & H2)]]]]; try reflexivity. rewrite V, H1, H2. reflexivity.
Qed.

Lemma layout_range m : layout_ok m -> 0 <= m < 2 ^ 64.
Proof. intros [->|[->|[->|[->|(V & _)]]]]; lia. Qed.

(* the clients *)
Lemma popcount_bound n : forall v, 0 <= popcount_bits n v <= Z.of_nat n.
Proof. induction n as [|n IH]; intros v; cbn [popcount_bits]; [lia|]. specialize (IH (v / 2)). assert (M := Z.mod_pos_bound v 2 ltac:(lia)). lia. Qed.
Lemma client_depth_bound f : 0 <= rfb_pixfmt_depth f <= 48.
Proof.
  unfold rfb_pixfmt_depth, popcount. assert (A := popcount_bound 16 (red_max f)). assert (B := popcount_bound 16 (green_max f)).
  assert (C := popcount_bound 16 (blue_max f)). lia.
Qed.

Definition deeper (m : Z) (f : pixfmt) := if rfb_pixfmt_depth f >? m then rfb_pixfmt_depth f else m.
Lemma deeper_fold : forall l m, m <= fold_left deeper l m /\ (forall f, In f l -> rfb_pixfmt_depth f <= fold_left deeper l m) /\
  (fold_left deeper l m = m \/ exists f, In f l /\ rfb_pixfmt_depth f = fold_left deeper l m).
Proof.
  induction l as [|f l IH]; intros m; cbn [fold_left In].
  - split; [lia|]. split; [tauto|auto].
  - destruct (IH (deeper m f)) as (A & B & C).
    assert (m <= deeper m f /\ rfb_pixfmt_depth f <= deeper m f /\ (deeper m f = m \/ deeper m f = rfb_pixfmt_depth f)).
    { unfold deeper. destruct (_ >? _) eqn:E; lia. }
    split; [lia|]. split; [intros g [<-|I]; [lia|auto]|].
    destruct C as [C|(g & I & C)]; [|right; exists g; auto]. rewrite C. destruct H as (H1 & H2 & [H|H]); [auto|]. right. exists f. split; [auto|congruence].
Qed.

Lemma highest_deepest l t : find_highest_client_depth l = t <-> deepest l t.
Proof.
  unfold find_highest_client_depth. change (fold_left _ l 0) with (fold_left deeper l 0).
  destruct (deeper_fold l 0) as (A & B & C). set (m := fold_left deeper l 0) in *. clearbody m. unfold deepest.
  destruct (m =? 0) eqn:E; cbn [negb].
  - apply Z.eqb_eq in E. split.
    + intros <-. right. split; [|reflexivity]. intros f I. specialize (B f I). lia.
    + intros [((f & I & P) & _)|[_ <-]]; [specialize (B f I); lia|reflexivity].
  - destruct C as [C|(g & I & C)]; [lia|]. split.
    + intros <-. left. split; [exists g; split; [auto|lia]|]. split; [eauto|auto].
    + intros [(_ & (f & J & P) & Q)|[Q _]].
      * specialize (B f J). specialize (Q g I). lia.
      * specialize (Q g I). lia.
Qed.

Lemma highest_pos l : 0 < find_highest_client_depth l.
Proof.
  unfold find_highest_client_depth. change (fold_left _ l 0) with (fold_left deeper l 0).
  destruct (deeper_fold l 0) as (A & _). destruct (_ =? 0) eqn:E; cbn [negb]; lia.
Qed.

(* ratings *)
Lemma depth_rating f d t : (d = 12 \/ d = 24 \/ d = 30) -> get_format_depth f = d -> 0 < t ->
  rate_format_by_depth f t = (if d >=? t then t + 30 - d else d) /\ 0 < rate_format_by_depth f t <= 30.
Proof.
  intros D E T. unfold rate_format_by_depth. rewrite E. cbv zeta. replace (d =? 0) with false by lia.
  destruct (d >=? t) eqn:Q; lia.
Qed.

Lemma rating_value c (simple : bool) f m d a : has_format f d a -> layout_ok m -> (simple = true -> m = 0) ->
  let t := find_highest_client_depth c in
  nvnc_rate_pixel_format c simple f m = mk_frac (100 * (if d >=? t then t + 30 - d else d) + (if a then 0 else 30)) 3030.
Proof.
  intros H L S t. destruct (fmt_facts f d a H) as (F1 & F2 & F3 & _). unfold nvnc_rate_pixel_format.
  replace (simple && negb (m =? 0)) with false by (destruct simple; [rewrite S by reflexivity; reflexivity|reflexivity]).
  unfold rate_pixel_format. fold t. destruct (depth_rating f d t F3 F1 (highest_pos c)) as [R P]. cbv zeta.
  replace (rate_format_by_depth f t =? 0) with false by lia. rewrite (proj2 (allowed m (layout_range m L)) L). cbn [negb need_alpha prefer_linear andb].
  rewrite F2, R. f_equal. destruct a; lia.
Qed.

Lemma cursor_rating_value c (simple : bool) f m d : has_format f d true -> layout_ok m -> (simple = true -> m = 0) ->
  let t := find_highest_client_depth c in
  nvnc_rate_cursor_pixel_format c simple f m = mk_frac (100 * (if d >=? t then t + 30 - d else d) + 30) 3030.
Proof.
  intros H L S t. destruct (fmt_facts f d true H) as (F1 & F2 & F3 & _). unfold nvnc_rate_cursor_pixel_format.
  replace (simple && negb (m =? 0)) with false by (destruct simple; [rewrite S by reflexivity; reflexivity|reflexivity]).
  unfold rate_pixel_format. fold t. destruct (depth_rating f d t F3 F1 (highest_pos c)) as [R P]. cbv zeta.
  replace (rate_format_by_depth f t =? 0) with false by lia. rewrite (proj2 (allowed m (layout_range m L)) L). cbn [negb need_alpha prefer_linear andb].
  rewrite F2, R. cbn [negb]. f_equal. lia.
Qed.

Lemma rate_range f m fl t : 0 < t ->
  let r := rate_pixel_format f m fl t in 0 <= num r <= den r /\ 0 < den r.
Proof.
  intros T r. subst r. unfold rate_pixel_format. cbv zeta.
  assert (R : 0 <= rate_format_by_depth f t <= 30).
  { unfold rate_format_by_depth. cbv zeta. destruct (_ =? 0) eqn:Z0; [lia|].
    assert (D : 0 <= get_format_depth f <= 30).
    { unfold get_format_depth, pixfmt_from_fourcc, layout_of_fourcc. cbv zeta.
      repeat match goal with |- context [if ?x then Some _ else _] => destruct x end; cbn [depth]; lia. }
    destruct (_ >=? _) eqn:Q; lia. }
  destruct (_ =? 0); [cbn; lia|]. destruct (negb _); [cbn; lia|].
  destruct fl as [[|] [|]]; cbn [need_alpha prefer_linear]; destruct (format_has_alpha f); destruct (m =? 0); cbn [andb negb num den]; lia.
Qed.

Lemma rate_positive f m fl t : 0 < t -> 0 <= f < 2 ^ 32 -> 0 <= m < 2 ^ 64 ->
  0 < num (rate_pixel_format f m fl t) <->
  get_format_depth f <> 0 /\ layout_ok m /\ (need_alpha fl = true -> format_has_alpha f = true).
Proof.
  intros T F M. rewrite <- (allowed m M). unfold rate_pixel_format. cbv zeta.
  assert (R : rate_format_by_depth f t = 0 <-> get_format_depth f = 0).
  { unfold rate_format_by_depth. cbv zeta. destruct (get_format_depth f =? 0) eqn:Z0; [lia|].
    assert (D : get_format_depth f <> 0) by lia. destruct (depth_known f F D) as (d & a & [H|(g & -> & H)]);
    destruct (fmt_facts _ _ _ H) as (F1 & _ & F3 & F4 & _); [rewrite F1 in *|rewrite F4 in *]; destruct (_ >=? _) eqn:Q; lia. }
  assert (P : 0 <= rate_format_by_depth f t).
  { unfold rate_format_by_depth. cbv zeta. destruct (_ =? 0) eqn:Z0; [lia|].
    assert (D : get_format_depth f <> 0) by lia. destruct (depth_known f F D) as (d & a & [H|(g & -> & H)]);
    destruct (fmt_facts _ _ _ H) as (F1 & _ & F3 & F4 & _); [rewrite F1 in *|rewrite F4 in *]; destruct (_ >=? _) eqn:Q; lia. }
  destruct (rate_format_by_depth f t =? 0) eqn:E; [cbn [num]; split; [lia|]; intros (X & _); lia|].
  destruct (format_modifier_is_allowed m); cbn [negb]; [|cbn [num]; split; [lia|]; intros (_ & X & _); congruence].
  destruct fl as [na pl]; cbn [need_alpha prefer_linear]. destruct na, (format_has_alpha f), pl, (m =? 0); cbn [andb negb num]; split; intros; try lia; intuition congruence.
Qed.
