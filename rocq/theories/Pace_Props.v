From Verif Require Import Common CommonProofs Bwe_Model Bwe_Spec Bwe_Proofs Pace_Model Pace_Spec Pace_Proofs.

(** C122: what counts as in flight is what the client has not answered. *)

(* missing: clients that answer later, see below *)
Theorem C122_in_flight_is_unanswered_partial : forall t0 evs s o,
  timely t0 [] evs -> honest_run (pace_new t0) [] evs = Ok (s, o) -> p_inflight s = unanswered o.
Proof. intros t0 evs s o T H. destruct (inv_run evs t0 _ _ s o (inv_new t0) T H) as [l I]. apply (i_fly _ _ _ I). Qed.

Theorem C122_late_answer_never_subtracted_refuted : exists t0 evs s,
  honest_run (pace_new t0) [] evs = Ok (s, []) /\ p_inflight s = 20000.
Proof.
  exists 0, [Handshake 1000; Frame 20000 3000; Answer (3000 + 2 ^ 31)]. eexists. split; vm_compute; reflexivity.
Qed.

(* the difference of the two 32 bit times is one that int cannot hold *)
Theorem C122_answer_across_the_sign_change_overflows : forall s o sent size now,
  0 < size -> sent < now < sent + 2 ^ 31 -> sign_changes sent now ->
  honest_step s ((sent, size) :: o) (Answer now) = Fault SignedOverflow.
Proof.
  intros s o sent size now Z0 T [D N]. cbn [honest_step]. unfold fence_answered, on_fence_response.
  replace (size =? 0) with false by lia. unfold clock32, to_signed. cbv zeta. rewrite !Z.mod_mod by lia.
  replace (sent mod 2 ^ 32 <? 2 ^ (32 - 1)) with true by lia.
  replace (now mod 2 ^ 32 <? 2 ^ (32 - 1)) with false by lia.
  assert (A := Z.div_mod sent (2 ^ 32) ltac:(lia)). assert (B := Z.div_mod now (2 ^ 32) ltac:(lia)).
  assert (A' := Z.mod_pos_bound sent (2 ^ 32) ltac:(lia)). assert (B' := Z.mod_pos_bound now (2 ^ 32) ltac:(lia)).
  assert (sent / 2 ^ 32 = now / 2 ^ 32) by lia.
  unfold int32. replace (_ && _) with false by lia. reflexivity.
Qed.

(** C123: the limit. *)

(* 0.033333 is added to bytes, not to seconds: half a byte and a bit *)
Theorem C123_limit_is_one_round_trip : forall s b l,
  bwe_get_estimate (p_bwe s) = Ok b -> 0 < b -> 0 <= p_min_rtt s -> limited s = Ok l ->
  (l = true <-> 1000000 * p_inflight s > b * p_min_rtt s + 533333).
Proof.
  intros s b l E B R H. unfold limited in H. rewrite E in H. cbn [bind] in H. replace (b =? 0) with false in H by lia.
  destruct (max_inflight (p_min_rtt s) b) as [m|] eqn:M; cbn [bind] in H; [|discriminate]. injection H as <-.
  assert (Q := limit_value (p_min_rtt s) b m (p_inflight s) R ltac:(lia) M). rewrite <- (Z.mul_comm b) in Q. lia.
Qed.

(* the round trip is the shortest of all measured *)
Theorem C123_shortest_round_trip_counts : forall t0 evs s o,
  timely t0 [] evs -> honest_run (pace_new t0) [] evs = Ok (s, o) ->
  p_min_rtt s = fold_right Z.min (2 ^ 31 - 1) (trips t0 [] evs).
Proof. intros t0 evs s o T H. apply (min_run evs t0 _ _ s o (inv_new t0) T H). Qed.

(* "if there is already more data in flight than the link can handle", with 33 ms of slack *)
Theorem C123_slack_of_33ms_refuted : exists t0 evs s o b,
  timely t0 [] evs /\ honest_run (pace_new t0) [] evs = Ok (s, o) /\ bwe_get_estimate (p_bwe s) = Ok b /\
  limited s = Ok true /\ ~ more_than (unanswered o) b (p_min_rtt s + 33333).
Proof.
  exists 0, [Handshake 1000; Frame 10000 2000; Answer 4000; Frame 20000 5000]. eexists _, _, _.
  split; [|split; [vm_compute; reflexivity|split; [vm_compute; reflexivity|split; [vm_compute; reflexivity|]]]].
  - cbn. lia.
  - unfold more_than. cbn. lia.
Qed.

(* the number of bytes is computed as a double and then made an int *)
Theorem C123_long_fat_link_overflows : forall s b,
  bwe_get_estimate (p_bwe s) = Ok b -> 0 < b -> 2 ^ 31 * 1000000 <= b * p_min_rtt s -> limited s = Fault SignedOverflow.
Proof.
  intros s b E B R. unfold limited. rewrite E. cbn [bind]. replace (b =? 0) with false by lia.
  unfold max_inflight. cbv zeta. replace (33333 + p_min_rtt s * b >=? 0) with true by lia.
  assert (D := Z.div_le_mono (2 ^ 32 * 1000000) (2 * (33333 + p_min_rtt s * b) + 1000000) 2000000 ltac:(lia) ltac:(lia)).
  replace (2 ^ 32 * 1000000 / 2000000) with (2 ^ 31) in D by reflexivity.
  unfold int32. replace (_ && _) with false by lia. reflexivity.
Qed.

(** C124: a client that has answered everything is not held back. *)

(* missing: clients that answer later, or take long over the handshake *)
Theorem C124_nothing_outstanding_nothing_held_back_partial : forall t0 evs s l,
  timely t0 [] evs -> honest_run (pace_new t0) [] evs = Ok (s, []) -> limited s = Ok l -> l = false.
Proof.
  intros t0 evs s l T H L. destruct (inv_run evs t0 _ _ s [] (inv_new t0) T H) as [la I].
  unfold limited in L. destruct (bwe_get_estimate (p_bwe s)) as [b|] eqn:E; cbn [bind] in L; [|discriminate].
  assert (B := estimate_nonneg _ _ (i_est _ _ _ I) E). destruct (b =? 0); [congruence|].
  destruct (max_inflight (p_min_rtt s) b) as [m|] eqn:M; cbn [bind] in L; [|discriminate]. injection L as L. subst l.
  assert (Q := limit_value (p_min_rtt s) b m (p_inflight s) (i_min _ _ _ I) B M).
  rewrite (i_fly _ _ _ I) in *. cbn [unanswered fold_right] in *. assert (0 <= p_min_rtt s * b) by (apply Z.mul_nonneg_nonneg; [apply (i_min _ _ _ I)|exact B]). lia.
Qed.

(* no frame is ever sent to this client again *)
Theorem C124_late_answer_stalls_refuted : exists t0 evs s o,
  honest_run (pace_new t0) [] evs = Ok (s, o) /\ stalled s o.
Proof.
  exists 0, [Handshake 1000; Frame 10000 2000; Answer 4000; Frame 20000 5000; Answer (5000 + 2 ^ 31)]. eexists _, _.
  split; [vm_compute; reflexivity|]. split; [reflexivity|split; [vm_compute; reflexivity|]]. intros times. apply answers_only.
Qed.

(* somebody takes 40 minutes to type a password; then all is quick *)
Theorem C124_slow_handshake_stalls_refuted : exists t0 evs s o,
  honest_run (pace_new t0) [] evs = Ok (s, o) /\ stalled s o.
Proof.
  exists 2146000000, [Handshake 2146001000; Handshake (2146001000 + 2400000000); Frame 10000 4546002000; Answer 4546004000]. eexists _, _.
  split; [vm_compute; reflexivity|]. split; [reflexivity|split; [vm_compute; reflexivity|]]. intros times. apply answers_only.
Qed.

(** Cases that meet the hypotheses. *)
Definition quick : list pace_event :=
  [Handshake 1000; Frame 10000 2000; Frame 500 2500; Answer 4000; Answer 4600; Frame 20000 5000].

Example timely_case : timely 0 [] quick /\
  exists s, honest_run (pace_new 0) [] quick = Ok (s, [(5000, 20000)]) /\ p_inflight s = 20000 /\ limited s = Ok true.
Proof. split; [cbn; lia|]. eexists. split; [vm_compute; reflexivity|]. split; vm_compute; reflexivity. Qed.

Example answered_case : timely 0 [] (quick ++ [Answer 9000]) /\
  exists s b, honest_run (pace_new 0) [] (quick ++ [Answer 9000]) = Ok (s, []) /\ limited s = Ok false /\
    bwe_get_estimate (p_bwe s) = Ok b /\ 0 < b /\ p_min_rtt s = 1000.
Proof.
  split; [cbn; lia|]. eexists _, _. split; [vm_compute; reflexivity|]. split; [vm_compute; reflexivity|].
  split; [vm_compute; reflexivity|]. split; vm_compute; reflexivity.
Qed.

Example trips_case : timely 0 [] (quick ++ [Answer 9000]) /\
  trips 0 [] (quick ++ [Answer 9000]) = [1000; 2000; 2100; 4000].
Proof. split; [cbn; lia|reflexivity]. Qed.

Example sign_case : sign_changes (2 ^ 31 - 1000) (2 ^ 31 + 1000).
Proof. unfold sign_changes. cbn. lia. Qed.

Example fat_case : exists s b, honest_run (pace_new 0) [] [Handshake 20000000; Frame 500000 21000000; Answer 41001000] = Ok (s, []) /\
  bwe_get_estimate (p_bwe s) = Ok b /\ 0 < b /\ 2 ^ 31 * 1000000 <= b * p_min_rtt s.
Proof. eexists _, _. split; [vm_compute; reflexivity|]. split; [vm_compute; reflexivity|]. split; vm_compute; congruence. Qed.

Print Assumptions C122_in_flight_is_unanswered_partial.
Print Assumptions C122_late_answer_never_subtracted_refuted.
Print Assumptions C122_answer_across_the_sign_change_overflows.
Print Assumptions C123_limit_is_one_round_trip.
Print Assumptions C123_shortest_round_trip_counts.
Print Assumptions C123_slack_of_33ms_refuted.
Print Assumptions C123_long_fat_link_overflows.
Print Assumptions C124_nothing_outstanding_nothing_held_back_partial.
Print Assumptions C124_late_answer_stalls_refuted.
Print Assumptions C124_slow_handshake_stalls_refuted.
