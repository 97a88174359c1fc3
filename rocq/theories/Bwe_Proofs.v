From Verif Require Import Common CommonProofs Bwe_Model Bwe_Spec.

(** The ring holds the most recent samples, oldest first from index - n_samples. *)
Definition ring (b : bwe) (l : list sample) : Prop :=
  0 <= index b < 16 /\ length (samples b) = 16%nat /\ n_samples b = Z.of_nat (length l) /\ (length l <= 16)%nat /\
  forall i, 0 <= i < n_samples b -> get_sample b i = match nth_error l (Z.to_nat i) with Some s => Ok s | None => Fault OobRead end.

Lemma set_sample_length : forall l n s, length (set_sample l n s) = length l.
Proof. induction l; intros [|n] s; cbn; auto. Qed.

Lemma nth_set_same : forall l n s, (n < length l)%nat -> nth_error (set_sample l n s) n = Some s.
Proof. induction l; intros [|n] s H; cbn in *; [lia|lia|reflexivity|]. apply IHl. lia. Qed.

Lemma nth_set_other : forall l n m s, n <> m -> nth_error (set_sample l n s) m = nth_error l m.
Proof. induction l as [|a l IH]; intros [|n] [|m] s H; cbn; try reflexivity; try congruence. apply IH. congruence. Qed.

Lemma recent_app : forall l s, recent (l ++ [s]) =
  if (length (recent l) <? 16)%nat then recent l ++ [s] else tl (recent l) ++ [s].
Proof.
  intros l s. unfold recent. rewrite app_length, skipn_length. cbn [length].
  destruct (Nat.ltb_spec (length l - (length l - 16)) 16) as [H|H].
  - replace (length l + 1 - 16)%nat with (length l - 16)%nat by lia.
    rewrite skipn_app. replace (length l - 16 - length l)%nat with 0%nat by lia. reflexivity.
  - replace (length l + 1 - 16)%nat with (S (length l - 16)) by lia.
    rewrite skipn_app. replace (S (length l - 16) - length l)%nat with 0%nat by lia. cbn [skipn].
    f_equal. generalize (length l - 16)%nat. clear H. intros n. revert n.
    induction l as [|a l IH]; intros [|n]; cbn [skipn tl]; try reflexivity.
    rewrite <- IH. destruct l; reflexivity.
Qed.

Lemma recent_length : forall l, (length (recent l) <= 16)%nat.
Proof. intros. unfold recent. rewrite skipn_length. lia. Qed.

Definition fed_state (b : bwe) (s : sample) : bwe :=
  mk_bwe (rtt_min b) (if n_samples b <? SAMPLES_MAX then n_samples b + 1 else n_samples b)
    ((index b + 1) mod SAMPLES_MAX) (estimate b) (set_sample (samples b) (Z.to_nat (index b)) s).

Lemma nth_tl : forall A (l : list A) n, nth_error (tl l) n = nth_error l (S n).
Proof. intros A [|a l] [|n]; reflexivity. Qed.

Lemma ring_feed : forall b l s, ring b (recent l) -> ring (fed_state b s) (recent (l ++ [s])).
Proof.
  intros b l s [I [L [N [M G]]]]. rewrite recent_app. set (r := recent l) in *. clearbody r.
  unfold fed_state, ring. cbn [n_samples index samples].
  pose proof (Z.mod_pos_bound (index b + 1) 16 ltac:(lia)).
  assert (Hn : (if n_samples b <? SAMPLES_MAX then n_samples b + 1 else n_samples b) =
     Z.of_nat (length (if (length r <? 16)%nat then r ++ [s] else tl r ++ [s]))).
  { unfold SAMPLES_MAX. rewrite N. destruct (Z.ltb_spec (Z.of_nat (length r)) 16); destruct (Nat.ltb_spec (length r) 16); try lia.
    - rewrite app_length. cbn. lia.
    - rewrite app_length. destruct r as [|a r]; cbn in *; lia. }
  split; [unfold SAMPLES_MAX; lia|]. split; [rewrite set_sample_length; exact L|]. split; [exact Hn|].
  split; [destruct (Nat.ltb_spec (length r) 16); rewrite app_length; [cbn; lia|destruct r; cbn in *; lia]|].
  intros i Hi. unfold get_sample. cbn [n_samples index samples].
  unfold get_sample in G. unfold SAMPLES_MAX in *.
  rewrite Hn in *.
  assert (Ls : (Z.to_nat (index b) < length (samples b))%nat) by lia.
  destruct (Nat.ltb_spec (length r) 16) as [H16|H16].
  - rewrite app_length in *. cbn [length] in *.
    destruct (Z.eq_dec i (Z.of_nat (length r))) as [->|Ne].
    + replace (((index b + 1) mod 16 + Z.of_nat (length r) - Z.of_nat (length r + 1) + 16) mod 16) with (index b).
      2: { replace ((index b + 1) mod 16 + Z.of_nat (length r) - Z.of_nat (length r + 1) + 16) with ((index b + 1) mod 16 + 15) by lia.
           rewrite Zplus_mod_idemp_l. replace (index b + 1 + 15) with (index b + 1 * 16) by lia.
           rewrite Z.mod_add, Z.mod_small by lia. reflexivity. }
      rewrite nth_set_same by exact Ls. rewrite Nat2Z.id, nth_error_app2, Nat.sub_diag by lia. reflexivity.
    + specialize (G i ltac:(lia)).
      rewrite nth_error_app1 by lia. rewrite <- G. rewrite N.
      assert (E : ((index b + 1) mod 16 + i - Z.of_nat (length r + 1) + 16) mod 16 =
                  (index b + i - Z.of_nat (length r) + 16) mod 16).
      { destruct (Z.eq_dec (index b) 15) as [E|E].
        - rewrite E. change ((15 + 1) mod 16) with 0.
          replace (15 + i - Z.of_nat (length r) + 16) with (0 + i - Z.of_nat (length r + 1) + 16 + 1 * 16) by lia.
          rewrite Z.mod_add by lia. reflexivity.
        - rewrite (Z.mod_small (index b + 1)) by lia. f_equal. lia. }
      rewrite E. rewrite nth_set_other; [reflexivity|].
      intros Q. apply (f_equal Z.of_nat) in Q. rewrite !Z2Nat.id in Q by (try apply Z.mod_pos_bound; lia).
      destruct (Z_lt_le_dec (index b + i - Z.of_nat (length r)) 0).
      * rewrite Z.mod_small in Q by lia. lia.
      * replace (index b + i - Z.of_nat (length r) + 16) with (index b + i - Z.of_nat (length r) + 1 * 16) in Q by lia.
        rewrite Z.mod_add, Z.mod_small in Q by lia. lia.
  - assert (L16 : length r = 16%nat) by lia. rewrite L16 in N.
    assert (Lt : length (tl r) = 15%nat) by (destruct r; cbn in *; lia).
    rewrite app_length, Lt in *. cbn [length] in *. change (Z.of_nat (15 + 1)) with 16 in *.
    replace ((index b + 1) mod 16 + i - 16 + 16) with ((index b + 1) mod 16 + i) by lia.
    destruct (Z.eq_dec i 15) as [->|Ne].
    + replace (((index b + 1) mod 16 + 15) mod 16) with (index b).
      2: { destruct (Z.eq_dec (index b) 15) as [E|E]; [rewrite E; reflexivity|].
           rewrite (Z.mod_small (index b + 1)) by lia. replace (index b + 1 + 15) with (index b + 1 * 16) by lia.
           rewrite Z.mod_add, Z.mod_small by lia. reflexivity. }
      rewrite nth_set_same by exact Ls. rewrite nth_error_app2 by lia. rewrite Lt. reflexivity.
    + specialize (G (i + 1) ltac:(lia)).
      rewrite nth_error_app1 by lia. rewrite nth_tl. replace (S (Z.to_nat i)) with (Z.to_nat (i + 1)) by lia.
      rewrite <- G. rewrite N. change (Z.of_nat 16) with 16.
      replace (index b + (i + 1) - 16 + 16) with (index b + 1 + i) by lia.
      rewrite Zplus_mod_idemp_l. rewrite nth_set_other; [reflexivity|].
      intros Q. apply (f_equal Z.of_nat) in Q. rewrite !Z2Nat.id in Q by (try apply Z.mod_pos_bound; lia).
      destruct (Z_lt_le_dec (index b + 1 + i) 16).
      * rewrite Z.mod_small in Q by lia. lia.
      * replace (index b + 1 + i) with (index b + 1 + i - 16 + 1 * 16) in Q by lia.
        rewrite Z.mod_add, Z.mod_small in Q by lia. lia.
Qed.

Lemma int32_ok : forall v w, int32 v = Ok w -> v = w.
Proof. unfold int32. intros v w. destruct (_ && _); congruence. Qed.

Lemma int32_in : forall v, - 2 ^ 31 <= v < 2 ^ 31 -> int32 v = Ok v.
Proof. intros v H. unfold int32. replace (_ && _) with true by lia. reflexivity. Qed.

Lemma total_app : forall f l l', total f (l ++ l') = total f l + total f l'.
Proof. induction l; intros; cbn; [reflexivity|]. unfold total in *. rewrite IHl. lia. Qed.

Lemma nth_error_skip : forall (l : list sample) i s, nth_error l i = Some s -> skipn i l = s :: skipn (S i) l.
Proof. induction l; intros [|i] s H; cbn in *; try discriminate; [congruence|]. apply IHl. exact H. Qed.

Lemma sum_nc_ok : forall b l k i bt dt r, ring b l -> 0 <= i -> i + Z.of_nat k = n_samples b ->
  sum_non_congested b k i bt dt = Ok r ->
  r = (bt + total s_bytes (skipn (Z.to_nat i) l), dt + total (fun s => s_arr s - s_dep s - rtt_min b) (skipn (Z.to_nat i) l)).
Proof.
  intros b l k. induction k as [|k IH]; intros i bt dt r R Hi Hk H; cbn [sum_non_congested] in H; pose proof R as [_ [_ [N [_ G]]]].
  - rewrite skipn_all2 by lia. injection H as <-. cbn. f_equal; lia.
  - rewrite (G i) in H by lia. destruct (nth_error l (Z.to_nat i)) as [s|] eqn:E; cbn [bind] in H; [|discriminate].
    destruct (int32 (s_arr s - s_dep s)) as [v1|] eqn:E1; cbn [bind] in H; [|discriminate]. apply int32_ok in E1.
    destruct (int32 (v1 - rtt_min b)) as [v2|] eqn:E2; cbn [bind] in H; [|discriminate]. apply int32_ok in E2.
    destruct (int32 (bt + s_bytes s)) as [v3|] eqn:E3; cbn [bind] in H; [|discriminate]. apply int32_ok in E3.
    destruct (int32 (dt + v2)) as [v4|] eqn:E4; cbn [bind] in H; [|discriminate]. apply int32_ok in E4.
    apply IH in H; [|exact R|lia|lia]. rewrite (nth_error_skip _ _ _ E).
    replace (S (Z.to_nat i)) with (Z.to_nat (i + 1)) by lia. subst. cbn [total fold_right].
    unfold total in *. f_equal; lia.
Qed.

Lemma sum_c_ok : forall b l k i bt r, ring b l -> 0 <= i -> i + Z.of_nat k = n_samples b ->
  sum_congested b k i bt = Ok r -> r = bt + total s_bytes (skipn (Z.to_nat i) l).
Proof.
  intros b l k. induction k as [|k IH]; intros i bt r R Hi Hk H; cbn [sum_congested] in H; pose proof R as [_ [_ [N [_ G]]]].
  - rewrite skipn_all2 by lia. injection H as <-. cbn. lia.
  - rewrite (G i) in H by lia. destruct (nth_error l (Z.to_nat i)) as [s|] eqn:E; cbn [bind] in H; [|discriminate].
    destruct (int32 (bt + s_bytes s)) as [v3|] eqn:E3; cbn [bind] in H; [|discriminate]. apply int32_ok in E3.
    apply IH in H; [|exact R|lia|lia]. rewrite (nth_error_skip _ _ _ E).
    replace (S (Z.to_nat i)) with (Z.to_nat (i + 1)) by lia. subst. cbn [total fold_right]. unfold total in *. lia.
Qed.

Lemma nth_last : forall (l : list sample) d, l <> [] -> nth_error l (length l - 1) = Some (last l d).
Proof.
  induction l as [|a [|b l] IH]; intros d H; [congruence|reflexivity|].
  cbn [length]. replace (S (S (length l)) - 1)%nat with (S (length (b :: l) - 1)) by (cbn; lia).
  cbn [nth_error]. rewrite (IH d) by discriminate. reflexivity.
Qed.

Lemma update_ok : forall b l b', ring b l -> l <> [] -> update_estimate b = Ok b' ->
  estimate b' = estimate_of (rtt_min b) l /\ rtt_min b' = rtt_min b /\ n_samples b' = n_samples b /\
  index b' = index b /\ samples b' = samples b.
Proof.
  intros b l b' R Ne H. unfold update_estimate, estimate_non_congested, estimate_congested in H.
  pose proof R as [_ [_ [N [_ G]]]].
  assert (0 < n_samples b) by (destruct l; [congruence|cbn [length] in N; lia]).
  destruct (sum_non_congested _ _ _ _ _) as [t|] eqn:E1; cbn [bind] in H; [|discriminate].
  apply (sum_nc_ok b l) in E1; [|exact R|lia|lia]. cbn [Z.to_nat skipn] in E1.
  replace (n_samples b =? 0) with false in H by lia.
  rewrite (G 0) in H by lia. destruct (nth_error l (Z.to_nat 0)) as [s0|] eqn:E0; cbn [bind] in H; [|discriminate].
  rewrite (G (n_samples b - 1)) in H by lia.
  replace (Z.to_nat (n_samples b - 1)) with (length l - 1)%nat in H by lia.
  rewrite (nth_last l (mk_sample 0 0 0) Ne) in H. cbn [bind] in H.
  destruct (sum_congested _ _ _ _) as [bt|] eqn:E2; cbn [bind] in H; [|discriminate].
  apply (sum_c_ok b l) in E2; [|exact R|lia|lia]. cbn [Z.to_nat skipn] in E2.
  destruct (int32 _) as [v1|] eqn:E3 in H; cbn [bind] in H; [|discriminate]. apply int32_ok in E3.
  destruct (int32 _) as [v2|] eqn:E4 in H; cbn [bind] in H; [|discriminate]. apply int32_ok in E4.
  injection H as <-. cbn [estimate rtt_min n_samples index samples]. split; [|auto].
  assert (S0 : hd (mk_sample 0 0 0) l = s0) by (destruct l; cbn in *; congruence).
  unfold estimate_of. rewrite S0. subst. cbn [fst snd]. rewrite !Z.add_0_l. reflexivity.
Qed.

Lemma fed_app : forall a b, fed (a ++ b) = fed a ++ fed b.
Proof. intros. unfold fed. apply flat_map_app. Qed.

Lemma rtt_of_app : forall a op, rtt_of (a ++ [op]) = match op with Feed _ => rtt_of a | Rtt r => r end.
Proof. intros. unfold rtt_of. rewrite fold_left_app. reflexivity. Qed.

Lemma run_app : forall a b s, bwe_run s (a ++ b) = let* s := bwe_run s a in bwe_run s b.
Proof.
  induction a as [|op a IH]; intros b s; cbn [app bwe_run]; [reflexivity|].
  destruct (bwe_step s op); cbn [bind]; [apply IH|reflexivity].
Qed.

Lemma ring_same : forall a b l, ring a l -> n_samples b = n_samples a -> index b = index a -> samples b = samples a -> ring b l.
Proof.
  intros a b l [I [L [N [M G]]]] E1 E2 E3. unfold ring, get_sample in *. rewrite E1, E2, E3. auto.
Qed.

Lemma feed_ok : forall b l s b', ring b (recent l) -> bwe_feed b s = Ok b' ->
  ring b' (recent (l ++ [s])) /\ rtt_min b' = rtt_min b /\ estimate b' = estimate_of (rtt_min b) (recent (l ++ [s])).
Proof.
  intros b l s b' R H. unfold bwe_feed in H. destruct (_ && _); [|discriminate].
  fold (fed_state b s) in H. pose proof (ring_feed b l s R) as R1.
  apply (update_ok _ (recent (l ++ [s]))) in H as [E [E1 [E2 [E3 E4]]]]; [|exact R1|].
  - split; [|split; [exact E1|exact E]]. apply (ring_same (fed_state b s)); assumption.
  - rewrite recent_app. destruct (_ <? _)%nat; [destruct (recent l); discriminate|destruct (tl (recent l)); discriminate].
Qed.

Lemma run_ring : forall r0 ops b, bwe_run (bwe_create r0) ops = Ok b -> ring b (recent (fed ops)) /\ rtt_min b = rtt_of ops.
Proof.
  intros r0. induction ops as [|op ops IH] using rev_ind; intros b H.
  - injection H as <-. split; [|reflexivity]. repeat split; cbn; try lia. 
  - rewrite run_app in H. destruct (bwe_run _ ops) as [b1|] eqn:E; cbn [bind bwe_run] in H; [|discriminate].
    destruct (IH b1 eq_refl) as [R T]. rewrite rtt_of_app, fed_app.
    destruct op as [s|r]; cbn [bwe_step] in H.
    + destruct (bwe_feed b1 s) as [b2|] eqn:F; cbn [bind] in H; [|discriminate]. injection H as <-.
      apply (feed_ok b1 (fed ops)) in F as [R2 [T2 _]]; [|exact R]. split; [exact R2|congruence].
    + injection H as <-. cbn [fed flat_map]. rewrite app_nil_r. split; [|reflexivity].
      apply (ring_same b1); [exact R|reflexivity..].
Qed.

(** No overflow for moderate measurements. *)
Lemma total_bound : forall f lo hi l, Forall (fun s => lo <= f s <= hi) l ->
  lo * Z.of_nat (length l) <= total f l <= hi * Z.of_nat (length l).
Proof.
  intros f lo hi l F. induction F as [|s l H F IH]; [cbn; lia|].
  cbn [total fold_right length]. unfold total in IH. lia.
Qed.

Lemma sum_nc_total : forall b l k i bt dt, ring b l -> 0 <= i -> i + Z.of_nat k = n_samples b ->
  Forall (moderate (rtt_min b)) l -> 0 <= bt <= 2 ^ 26 * i -> 0 <= dt <= 2 ^ 26 * i ->
  exists r, sum_non_congested b k i bt dt = Ok r.
Proof.
  intros b l k. induction k as [|k IH]; intros i bt dt R Hi Hk F Bt Dt; cbn [sum_non_congested]; [eauto|].
  pose proof R as [_ [_ [N [M G]]]]. rewrite (G i) by lia.
  destruct (nth_error l (Z.to_nat i)) as [s|] eqn:E; [|apply nth_error_None in E; lia]. cbn [bind].
  assert (Ms : moderate (rtt_min b) s) by (rewrite Forall_forall in F; apply F; eapply nth_error_In; exact E).
  destruct Ms as [M1 [M2 [M3 [M4 M5]]]].
  rewrite int32_in by lia. cbn [bind]. rewrite int32_in by lia. cbn [bind].
  rewrite int32_in by lia. cbn [bind]. rewrite int32_in by lia. cbn [bind].
  apply IH; try assumption; lia.
Qed.

Lemma sum_c_total : forall b l k i bt, ring b l -> 0 <= i -> i + Z.of_nat k = n_samples b ->
  Forall (moderate (rtt_min b)) l -> 0 <= bt <= 2 ^ 26 * i -> exists r, sum_congested b k i bt = Ok r.
Proof.
  intros b l k. induction k as [|k IH]; intros i bt R Hi Hk F Bt; cbn [sum_congested]; [eauto|].
  pose proof R as [_ [_ [N [M G]]]]. rewrite (G i) by lia.
  destruct (nth_error l (Z.to_nat i)) as [s|] eqn:E; [|apply nth_error_None in E; lia]. cbn [bind].
  assert (Ms : moderate (rtt_min b) s) by (rewrite Forall_forall in F; apply F; eapply nth_error_In; exact E).
  destruct Ms as [M1 _]. rewrite int32_in by lia. cbn [bind]. apply IH; try assumption; lia.
Qed.

Lemma feed_total : forall b l s, ring b (recent l) -> 0 <= rtt_min b ->
  Forall (moderate (rtt_min b)) (recent (l ++ [s])) ->
  exists b', bwe_feed b s = Ok b'.
Proof.
  intros b l s R P F. unfold bwe_feed. pose proof R as [I _]. unfold SAMPLES_MAX.
  replace ((0 <=? index b) && (index b <? 16)) with true by lia. fold SAMPLES_MAX. fold (fed_state b s).
  pose proof (ring_feed b l s R) as R1. pose proof R1 as [_ [_ [N [M G]]]].
  change (rtt_min b) with (rtt_min (fed_state b s)) in F.
  set (w := recent (l ++ [s])) in *. set (b1 := fed_state b s) in *.
  assert (Ne : w <> []) by (unfold w; rewrite recent_app; destruct (_ <? _)%nat; [destruct (recent l); discriminate|destruct (tl (recent l)); discriminate]).
  assert (0 < n_samples b1) by (destruct w; [congruence|cbn [length] in N; lia]).
  unfold update_estimate, estimate_non_congested, estimate_congested.
  destruct (sum_nc_total b1 w (Z.to_nat (n_samples b1)) 0 0 0 R1) as [r E1]; [lia|lia|exact F|lia|lia|].
  rewrite E1. cbn [bind]. replace (n_samples b1 =? 0) with false by lia.
  rewrite (G 0) by lia. rewrite (G (n_samples b1 - 1)) by lia.
  replace (Z.to_nat (n_samples b1 - 1)) with (length w - 1)%nat by lia.
  rewrite (nth_last w (mk_sample 0 0 0) Ne). cbn [Z.to_nat].
  destruct (nth_error w 0) as [s0|] eqn:E0; [|apply nth_error_None in E0; destruct w; [congruence|cbn in E0; lia]].
  cbn [bind]. destruct (sum_c_total b1 w (Z.to_nat (n_samples b1)) 0 0 R1) as [r2 E2]; [lia|lia|exact F|lia|].
  rewrite E2. cbn [bind].
  assert (M0 : moderate (rtt_min b1) s0) by (rewrite Forall_forall in F; apply F; eapply nth_error_In; exact E0).
  assert (M1 : moderate (rtt_min b1) (last w (mk_sample 0 0 0))).
  { rewrite Forall_forall in F. apply F. eapply nth_error_In. apply nth_last. exact Ne. }
  change (rtt_min b1) with (rtt_min b) in *. destruct M0 as [_ [A1 [A2 [A3 A4]]]]. destruct M1 as [_ [B1 [B2 [B3 B4]]]].
  rewrite int32_in by lia. cbn [bind]. rewrite int32_in by lia. cbn [bind]. eauto.
Qed.
