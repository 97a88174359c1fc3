(** Claims about the bandwidth estimator. *)
From Verif Require Import Common Bwe_Model Bwe_Spec Bwe_Proofs.

(** C27: after any history that ends with a measurement, the estimate is that of
    the most recent sixteen measurements, in their order, and the minimal round
    trip time last set; setting the latter does not change the estimate. *)
Theorem C27_estimate_is_of_recent_samples : forall r0 ops s b,
  bwe_run (bwe_create r0) (ops ++ [Feed s]) = Ok b ->
  estimate b = estimate_of (rtt_of ops) (recent (fed ops ++ [s])) /\
  forall rtts b', bwe_run b (map Rtt rtts) = Ok b' -> estimate b' = estimate b.
Proof.
  intros r0 ops s b H. split.
  - rewrite run_app in H. destruct (bwe_run _ ops) as [b1|] eqn:E; cbn [bind bwe_run bwe_step] in H; [|discriminate].
    destruct (run_ring r0 ops b1 E) as [R T].
    destruct (bwe_feed b1 s) as [b2|] eqn:F; cbn [bind] in H; [|discriminate]. injection H as <-.
    apply (feed_ok b1 (fed ops)) in F as [_ [_ Q]]; [|exact R]. rewrite Q, T. reflexivity.
  - clear H. intros rtts. revert b. induction rtts as [|r rtts IH]; intros b b' H; cbn [map bwe_run bwe_step bind] in H.
    + injection H as <-. reflexivity.
    + apply IH in H. exact H.
Qed.
Print Assumptions C27_estimate_is_of_recent_samples.

(** Hence histories that agree on these agree on the estimate. *)
Theorem C27_history_before_does_not_matter : forall r0 r0' ops ops' s s' b b',
  bwe_run (bwe_create r0) (ops ++ [Feed s]) = Ok b -> bwe_run (bwe_create r0') (ops' ++ [Feed s']) = Ok b' ->
  recent (fed ops ++ [s]) = recent (fed ops' ++ [s']) -> rtt_of ops = rtt_of ops' ->
  bwe_get_estimate b = bwe_get_estimate b'.
Proof.
  intros r0 r0' ops ops' s s' b b' H H' E R.
  apply C27_estimate_is_of_recent_samples in H as [H _]. apply C27_estimate_is_of_recent_samples in H' as [H' _].
  unfold bwe_get_estimate. rewrite H, H', E, R. reflexivity.
Qed.
Print Assumptions C27_history_before_does_not_matter.

(** Twenty measurements; the first four have left the window. *)
Definition twenty : list bwe_op :=
  Rtt 10 :: map (fun i => Feed (mk_sample (1000 + Z.of_nat i) (100 * Z.of_nat i) (100 * Z.of_nat i + 60))) (seq 0 20).

Example C27_ex : exists b, bwe_run (bwe_create 0) twenty = Ok b /\
  length (recent (fed twenty)) = 16%nat /\ s_bytes (hd (mk_sample 0 0 0) (recent (fed twenty))) = 1004 /\
  estimate b = Fin ((16 * 1000 + 184) * 1000000) (16 * 50) /\ bwe_get_estimate b = Ok 20230000.
Proof.
  eexists. split; [vm_compute; reflexivity|]. split; [vm_compute; reflexivity|]. split; [vm_compute; reflexivity|].
  split; [vm_compute; reflexivity|vm_compute; reflexivity].
Qed.

(** C28 is false: a reply that is faster than all before sets the minimal round
    trip time to its own, and when it is the first one the estimate is a division
    by zero whose result does not fit an int. *)
Theorem C28_estimate_is_defined_refuted : exists r0 min_rtt now departure frame_size b m,
  0 <= departure < 2 ^ 32 /\ 0 < frame_size < 2 ^ 20 /\ 0 <= now < 2 ^ 31 /\
  on_fence_response (bwe_create r0) min_rtt now departure frame_size 8 = Ok (b, m) /\
  bwe_get_estimate b = Fault SignedOverflow.
Proof.
  exists (2 ^ 31 - 1), 5000, 104000, 100000, 30000. do 2 eexists. split; [lia|]. split; [lia|]. split; [lia|].
  split; [vm_compute; reflexivity|vm_compute; reflexivity].
Qed.
Print Assumptions C28_estimate_is_defined_refuted.

(** In fact every first reply that is faster than the handshake does that. *)
Theorem C28_fast_first_reply_is_undefined : forall r0 min_rtt now departure frame_size length,
  0 <= departure <= now -> now < 2 ^ 31 -> now - departure < min_rtt ->
  0 < frame_size -> 0 <= length <= 64 -> frame_size + 9 + length < 2 ^ 31 ->
  exists b, on_fence_response (bwe_create r0) min_rtt now departure frame_size length = Ok (b, now - departure) /\
    bwe_get_estimate b = Fault SignedOverflow.
Proof.
  intros r0 m now dep size len D N R S L F. unfold on_fence_response.
  assert (Sd : to_signed 32 dep = dep) by (unfold to_signed; cbv zeta; rewrite Z.mod_small by lia; destruct (_ <? _) eqn:Q; lia).
  rewrite Sd. replace (size =? 0) with false by lia. rewrite int32_in by lia. cbn [bind].
  replace (now - dep <? 0) with false by lia. replace (now - dep <? m) with true by lia.
  assert (Sb : to_signed 32 ((size + 9 + len) mod 2 ^ 32) = size + 9 + len).
  { unfold to_signed. cbv zeta. rewrite Z.mod_mod by lia. rewrite Z.mod_small by lia. destruct (_ <? _) eqn:Q; lia. }
  rewrite Sb. unfold bwe_feed, bwe_create, bwe_update_rtt_min. cbn [index n_samples rtt_min estimate samples].
  change ((0 <=? 0) && (0 <? SAMPLES_MAX)) with true. change (0 <? SAMPLES_MAX) with true. cbv iota.
  change ((0 + 1) mod SAMPLES_MAX) with 1. cbn [repeat set_sample Z.to_nat].
  unfold update_estimate, estimate_non_congested, estimate_congested. cbn [n_samples].
  change (0 + 1) with 1. change (Z.to_nat 1) with 1%nat. cbn [sum_non_congested sum_congested].
  unfold get_sample. cbn [index n_samples samples]. change ((1 + 0 - 1 + SAMPLES_MAX) mod SAMPLES_MAX) with 0.
  change ((1 + (1 - 1) - 1 + SAMPLES_MAX) mod SAMPLES_MAX) with 0.
  cbn [Z.to_nat nth_error bind s_arr s_dep s_bytes rtt_min fst snd]. change (1 =? 0) with false. cbv iota.
  rewrite (int32_in (now - dep)) by lia. cbn [bind]. rewrite Z.sub_diag, int32_in by lia. cbn [bind].
  rewrite !Z.add_0_l. rewrite int32_in by lia. cbn [bind]. rewrite int32_in by lia. cbn [bind fst snd].
  eexists. split; [reflexivity|]. unfold bwe_get_estimate. cbn [estimate]. unfold per_second.
  change (0 =? 0) with true. cbv iota. replace (size + 9 + len =? 0) with false by lia.
  replace (size + 9 + len >? 0) with true by lia. reflexivity.
Qed.
Print Assumptions C28_fast_first_reply_is_undefined.

Example C28_fast_ex : 0 <= 100000 <= 104000 /\ 104000 - 100000 < 5000 /\ 30000 + 9 + 8 < 2 ^ 31.
Proof. lia. Qed.

(** What holds: when the measurements in the window are moderate, took longer than
    the minimal round trip, and do not add up to more than 2^31-1 bytes per
    second, nothing overflows and the estimate is the bytes over the shorter of the
    two times, that of the measurements added up and that of the whole window,
    per second, rounded to the nearest integer. *)
Theorem C28_estimate_is_defined_partial : forall r0 ops s b,
  bwe_run (bwe_create r0) ops = Ok b -> let l := recent (fed ops ++ [s]) in let rtt := rtt_of ops in
  0 <= rtt -> Forall (moderate rtt) l -> s_arr (hd s l) <= s_arr s ->
  total s_bytes l * 1000000 <= (2 ^ 31 - 1) * total (fun s => s_arr s - s_dep s - rtt) l ->
  total s_bytes l * 1000000 <= (2 ^ 31 - 1) * (s_arr s - s_dep (hd s l) - rtt) ->
  let time := Z.min (total (fun s => s_arr s - s_dep s - rtt) l) (s_arr s - s_dep (hd s l) - rtt) in
  exists b' v, bwe_feed b s = Ok b' /\ bwe_get_estimate b' = Ok v /\ 0 <= v /\
    0 < time /\ v * (2 * time) <= 2 * (1000000 * total s_bytes l) + time < (v + 1) * (2 * time).
Proof.
  intros r0 ops s b H l rtt P M A T1 T2 time. destruct (run_ring r0 ops b H) as [R E].
  assert (F : Forall (moderate (rtt_min b)) l) by (rewrite E; exact M).
  destruct (feed_total b (fed ops) s R) as [b' Fb]; [rewrite E; exact P|exact F|].
  exists b'. pose proof Fb as Fb'. apply (feed_ok b (fed ops)) in Fb' as [_ [_ Q]]; [|exact R].
  fold l in Q. rewrite E in Q. fold rtt in Q.
  assert (Ll : exists l0, l = l0 ++ [s]).
  { unfold l. rewrite recent_app. destruct (_ <? _)%nat; eauto. }
  destruct Ll as [l0 Ll].
  assert (Hl : last l (mk_sample 0 0 0) = s) by (rewrite Ll; apply last_last).
  assert (Hh : hd (mk_sample 0 0 0) l = hd s l) by (rewrite Ll; destruct l0; reflexivity).
  assert (Mh : moderate rtt (hd s l)).
  { rewrite Forall_forall in M. apply M. rewrite Ll. destruct l0; [left; reflexivity|left; reflexivity]. }
  destruct Mh as [_ [_ [_ [Mh _]]]].
  assert (Bn : 0 <= total s_bytes l).
  { eapply Z.le_trans; [|apply (total_bound s_bytes 0 (2 ^ 26))]; [lia|].
    eapply Forall_impl; [|exact M]. intros a [Q1 _]. exact Q1. }
  assert (Dn : 0 < total (fun s => s_arr s - s_dep s - rtt) l).
  { eapply Z.lt_le_trans; [|apply (total_bound (fun s => s_arr s - s_dep s - rtt) 1 (2 ^ 26))].
    - rewrite Ll, app_length. cbn [length]. lia.
    - eapply Forall_impl; [|exact M]. intros a [_ [_ [_ [Q1 Q2]]]]. lia. }
  unfold estimate_of in Q. rewrite Hl, Hh in Q.
  assert (PS : forall d, 0 < d -> per_second (total s_bytes l) d = Fin (total s_bytes l * 1000000) d).
  { intros d Hd. unfold per_second. replace (d =? 0) with false by lia. replace (d >? 0) with true by lia. reflexivity. }
  rewrite !PS in Q by lia.
  assert (Tp : 0 < time) by (unfold time; lia).
  assert (Fi : exists d, 0 < d /\ total s_bytes l * 1000000 <= (2 ^ 31 - 1) * d /\ (total s_bytes l = 0 \/ d = time) /\
                 estimate b' = Fin (total s_bytes l * 1000000) d).
  { rewrite Q. cbn [fmax]. unfold time. destruct (_ <? _) eqn:Lt; eexists; (split; [|split; [|split; [|reflexivity]]]);
      [lia|lia| |lia|lia|]; (destruct (Z.eq_dec (total s_bytes l) 0); [left; assumption|right]);
      [apply Z.ltb_lt in Lt|apply Z.ltb_ge in Lt]; nia. }
  destruct Fi as [d [D1 [D2 [D4 D3]]]]. unfold bwe_get_estimate. rewrite D3.
  replace (total s_bytes l * 1000000 >=? 0) with true by lia.
  set (n := total s_bytes l * 1000000) in *.
  assert (V1 : 0 <= (2 * n + d) / (2 * d)) by (apply Z.div_pos; lia).
  assert (V2 : (2 * n + d) / (2 * d) < 2 ^ 31) by (apply Z.div_lt_upper_bound; lia).
  rewrite int32_in by lia. exists ((2 * n + d) / (2 * d)). split; [exact Fb|]. split; [reflexivity|]. split; [exact V1|].
  split; [exact Tp|]. replace (2 * (1000000 * total s_bytes l)) with (2 * n) by (unfold n; ring).
  destruct D4 as [D4|D4].
  - assert (N0 : n = 0) by (unfold n; rewrite D4; reflexivity). rewrite N0.
    rewrite Z.div_small by lia. lia.
  - rewrite <- D4. pose proof (Z.div_mod (2 * n + d) (2 * d) ltac:(lia)) as Dm.
    pose proof (Z.mod_pos_bound (2 * n + d) (2 * d) ltac:(lia)). nia.
Qed.
Print Assumptions C28_estimate_is_defined_partial.

Example C28_partial_ex : let ops := [Rtt 10; Feed (mk_sample 1000 0 60)] in let s := mk_sample 2000 100 170 in
  exists b, bwe_run (bwe_create 0) ops = Ok b /\ rtt_of ops = 10 /\ Forall (moderate 10) (recent (fed ops ++ [s])).
Proof.
  cbv zeta. eexists. split; [vm_compute; reflexivity|]. split; [reflexivity|].
  cbn [fed flat_map app recent length skipn Nat.sub].
  constructor; [|constructor; [|constructor]]; unfold moderate; cbn [s_bytes s_dep s_arr]; lia.
Qed.
