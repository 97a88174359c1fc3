From Verif Require Import Common CommonProofs Bwe_Model Bwe_Spec Bwe_Proofs Pace_Model Pace_Spec.

Lemma to_signed_mod v : (to_signed 32 (v mod 2 ^ 32) - v) mod 2 ^ 32 = 0.
Proof.
  unfold to_signed. cbv zeta. rewrite Z.mod_mod by lia.
  destruct (_ <? _).
  - rewrite Zminus_mod_idemp_l, Z.sub_diag. reflexivity.
  - replace (v mod 2 ^ 32 - 2 ^ 32 - v) with (v mod 2 ^ 32 - v + (-1) * 2 ^ 32) by lia.
    rewrite Z_mod_plus_full, Zminus_mod_idemp_l, Z.sub_diag. reflexivity.
Qed.
Lemma to_signed_range v : - 2 ^ 31 <= to_signed 32 v < 2 ^ 31.
Proof.
  unfold to_signed. cbv zeta. pose proof (Z.mod_pos_bound v (2 ^ 32) ltac:(lia)).
  destruct (_ <? _) eqn:E; cbn in *; lia.
Qed.
Lemma to_signed_in v : - 2 ^ 31 <= v < 2 ^ 31 -> to_signed 32 (v mod 2 ^ 32) = v.
Proof.
  intros H. assert (M := to_signed_mod v). assert (R := to_signed_range (v mod 2 ^ 32)).
  apply Z.mod_divide in M as [k M]; lia.
Qed.

Lemma int32_range v d : int32 v = Ok d -> - 2 ^ 31 <= d < 2 ^ 31.
Proof. intros E. assert (V := int32_ok _ _ E). subst d. unfold int32 in E. destruct (_ && _) eqn:Q in E; [lia|discriminate]. Qed.

(* the difference of two clock readings *)
Lemma clock_diff sent now d : sent <= now < sent + 2 ^ 31 -> int32 (clock32 now - to_signed 32 (sent mod 2 ^ 32)) = Ok d -> d = now - sent.
Proof.
  intros H E. assert (- 2 ^ 31 <= d < 2 ^ 31).
  { now apply (int32_range (clock32 now - to_signed 32 (sent mod 2 ^ 32))). }
  apply int32_ok in E. unfold clock32 in E.
  assert (M := to_signed_mod now). assert (N := to_signed_mod sent).
  apply Z.mod_divide in M as [k M]; [|lia]. apply Z.mod_divide in N as [j N]; [|lia].
  assert (d - (now - sent) = (k - j) * 2 ^ 32) by lia. lia.
Qed.

(* an estimate that is not negative *)
Definition est_ok (x : dbl) : Prop :=
  match x with Fin n d => 0 <= n /\ 0 < d | PInf => True | _ => False end.

Lemma fmax_ok a b : est_ok a -> est_ok (fmax a b) \/ (exists n d, b = Fin n d /\ d <= 0).
Proof.
  destruct a as [n d| | |]; cbn [est_ok]; try easy.
  - intros [N D]. destruct b as [m c| | |]; cbn; auto. destruct (c <=? 0) eqn:C; [right; exists m, c; split; [reflexivity|lia]|].
    left. destruct (n * c <? m * d) eqn:Q; cbn; nia.
  - intros _. left. destruct b; cbn; exact I.
Qed.

Lemma per_second_den b d n k : per_second b d = Fin n k -> 0 < k.
Proof.
  unfold per_second. destruct (d =? 0) eqn:Z0; [destruct (b =? 0); [|destruct (b >? 0)]; discriminate|].
  destruct (d >? 0) eqn:P; intros E; injection E as <- <-; lia.
Qed.

Lemma per_second_ok b d : 0 < b -> 0 <= d -> est_ok (per_second b d).
Proof.
  intros B D. unfold per_second. destruct (d =? 0) eqn:Z0.
  - replace (b =? 0) with false by lia. replace (b >? 0) with true by lia. exact I.
  - replace (d >? 0) with true by lia. cbn. lia.
Qed.

Definition fair (m : Z) (x : sample) : Prop := 0 < s_bytes x /\ m <= s_arr x - s_dep x.

Lemma estimate_of_ok rtt l : l <> [] -> Forall (fair rtt) l -> est_ok (estimate_of rtt l).
Proof.
  intros NE F. unfold estimate_of. cbv zeta.
  assert (B : 0 < total s_bytes l /\ 0 <= total (fun s => s_arr s - s_dep s - rtt) l).
  { destruct l as [|x l]; [easy|]. clear NE. inversion F as [|? ? [F1 F1'] F2]; subst. clear F.
    enough (0 <= total s_bytes l /\ 0 <= total (fun s => s_arr s - s_dep s - rtt) l) by (cbn; unfold total in *; lia).
    induction F2 as [|y l [Y Y'] F2 IH]; cbn; unfold total in *; lia. }
  destruct (fmax_ok (per_second (total s_bytes l) (total (fun s => s_arr s - s_dep s - rtt) l))
              (per_second (total s_bytes l) (s_arr (last l (mk_sample 0 0 0)) - s_dep (hd (mk_sample 0 0 0) l) - rtt))) as [H|(n & d & E & D)].
  - apply per_second_ok; lia.
  - exact H.
  - apply per_second_den in E. lia.
Qed.

Lemma recent_in l x : In x (recent l) -> In x l.
Proof. unfold recent. intros H. rewrite <- (firstn_skipn (length l - 16) l). apply in_or_app. auto. Qed.

Record inv (last : Z) (s : pace) (o : outstanding) : Prop := mk_inv {
  i_fly : p_inflight s = unanswered o;
  i_pos : Forall (fun x => 0 < snd x) o;
  i_small : unanswered o < 2 ^ 31 - 17;
  i_ops : exists ops, bwe_run (bwe_create (2 ^ 31 - 1)) ops = Ok (p_bwe s) /\ Forall (fair (p_min_rtt s)) (fed ops);
  i_last : p_last s = clock32 last;
  i_min : 0 <= p_min_rtt s;
  i_rtt : rtt_min (p_bwe s) <= p_min_rtt s;
  i_est : est_ok (estimate (p_bwe s)) }.

Lemma fair_less m m' l : m' <= m -> Forall (fair m) l -> Forall (fair m') l.
Proof. intros H. apply Forall_impl. unfold fair. intros a. lia. Qed.

Lemma unanswered_app o x : unanswered (o ++ [x]) = unanswered o + snd x.
Proof. induction o as [|y o IH]; cbn; [lia|]. unfold unanswered in IH. lia. Qed.
Lemma unanswered_nonneg o : Forall (fun x => 0 < snd x) o -> 0 <= unanswered o.
Proof. induction 1; cbn; [lia|]. unfold unanswered in *. lia. Qed.

Lemma inv_new now : inv now (pace_new now) [].
Proof.
  constructor; cbn.
  - reflexivity.
  - constructor.
  - lia.
  - exists []. split; [reflexivity|constructor].
  - reflexivity.
  - lia.
  - lia.
  - lia.
Qed.

(* feeding the estimator *)
Lemma feed_fair b m ops x b' : bwe_run (bwe_create (2 ^ 31 - 1)) ops = Ok b -> Forall (fair m) (fed ops) -> fair m x ->
  rtt_min b <= m -> bwe_feed b x = Ok b' ->
  bwe_run (bwe_create (2 ^ 31 - 1)) (ops ++ [Feed x]) = Ok b' /\ Forall (fair m) (fed (ops ++ [Feed x])) /\
  rtt_min b' = rtt_min b /\ est_ok (estimate b').
Proof.
  intros R F X M E. destruct (run_ring _ _ _ R) as [G _].
  destruct (feed_ok b (fed ops) x b' G E) as (_ & T & Q).
  assert (FA : Forall (fair m) (fed ops ++ [x])) by (apply Forall_app; auto).
  split; [rewrite run_app, R; cbn [bind bwe_run bwe_step]; now rewrite E|].
  split; [rewrite fed_app; exact FA|]. split; [exact T|]. rewrite Q. apply estimate_of_ok.
  - rewrite recent_app. destruct (_ <? _)%nat; intros Z0; apply app_eq_nil in Z0 as [_ Z0]; discriminate.
  - rewrite Forall_forall. intros y I. apply recent_in in I. rewrite Forall_forall in FA. specialize (FA y I).
    unfold fair in *. lia.
Qed.

Definition next_last (last : Z) (ev : pace_event) : Z := match ev with Handshake now => now | _ => last end.

Lemma inv_step last s o ev s' o' : inv last s o -> timely last o [ev] -> honest_step s o ev = Ok (s', o') -> inv (next_last last ev) s' o'.
Proof.
  intros I T H. destruct I as [I1 I2 I3 (ops & I4 & I5) I8 I9 I6 I7]. destruct ev as [now|size now|now]; cbn [honest_step timely next_last] in *.
  - destruct (update_min_rtt s now) as [s1|] eqn:U; cbn [bind] in H; [|discriminate]. injection H as H Ho. subst s1 o'.
    unfold update_min_rtt in U. destruct (int32 _) as [diff|] eqn:D; cbn [bind] in U; [|discriminate].
    rewrite I8 in D. assert (R := clock_diff last now diff ltac:(tauto) D).
    destruct (diff <? p_min_rtt s) eqn:L; injection U as U; subst s'; constructor; cbn [p_inflight p_bwe p_min_rtt]; auto.
    + exists (ops ++ [Rtt diff]). split.
      * rewrite run_app, I4. reflexivity.
      * rewrite fed_app. cbn. rewrite app_nil_r. apply (fair_less (p_min_rtt s)); [lia|exact I5].
    + lia.
    + cbn. lia.
    + eauto.
  - injection H as H Ho. subst s' o'. destruct T as (T1 & T2 & _). assert (N := unanswered_nonneg o I2).
    constructor; cbn [send_ping fst p_inflight p_bwe p_min_rtt]; auto.
    + rewrite unanswered_app, I1. cbn. apply to_signed_in. lia.
    + apply Forall_app. auto.
    + rewrite unanswered_app. cbn. lia.
    + eauto.
  - destruct o as [|[sent size] o].
    { injection H as H Ho. subst. constructor; auto. eauto. }
    destruct T as [T _]. inversion I2 as [|? ? P I2']; subst. cbn [snd] in P. assert (N := unanswered_nonneg o I2').
    cbn [unanswered fold_right snd] in I1, I3. fold (unanswered o) in I1, I3.
    destruct (fence_answered s now (sent mod 2 ^ 32) size 8) as [r|] eqn:F; cbn [bind] in H; [|discriminate].
    injection H as H Ho. subst s' o'. unfold fence_answered in F.
    destruct (on_fence_response _ _ _ _ _ _) as [[b m]|] eqn:B; cbn [bind] in F; [|discriminate].
    unfold on_fence_response in B. replace (size =? 0) with false in B, F by lia.
    destruct (int32 (clock32 now - to_signed 32 (sent mod 2 ^ 32))) as [rtt|] eqn:D; cbn [bind] in B; [|discriminate].
    assert (R := clock_diff sent now rtt T D). assert (Dz := int32_ok _ _ D).
    replace (rtt <? 0) with false in B by lia. rewrite Dz in F. replace (rtt <? 0) with false in F by lia.
    injection F as F. subst r. cbn [fst p_inflight p_bwe p_min_rtt].
    assert (Sb : to_signed 32 ((size + 9 + 8) mod 2 ^ 32) = size + 9 + 8) by (apply to_signed_in; lia).
    rewrite Sb in B.
    assert (Fx : forall k, k <= rtt -> fair k (mk_sample (size + 9 + 8) (to_signed 32 (sent mod 2 ^ 32)) (clock32 now))).
    { intros k K. unfold fair. cbn [s_bytes s_arr s_dep]. lia. }
    assert (Fly : to_signed 32 ((p_inflight s - size) mod 2 ^ 32) = unanswered o).
    { rewrite I1. rewrite to_signed_in; lia. }
    destruct (rtt <? p_min_rtt s) eqn:L.
    + destruct (bwe_feed (bwe_update_rtt_min (p_bwe s) rtt) _) as [b1|] eqn:E; cbn [bind] in B; [|discriminate].
      injection B as B1 B2. subst b1 m.
      destruct (feed_fair (bwe_update_rtt_min (p_bwe s) rtt) rtt (ops ++ [Rtt rtt]) (mk_sample (size + 9 + 8) (to_signed 32 (sent mod 2 ^ 32)) (clock32 now)) b) as (Q1 & Q2 & Q3 & Q4).
      * rewrite run_app, I4. reflexivity.
      * rewrite fed_app. cbn. rewrite app_nil_r. apply (fair_less (p_min_rtt s)); [lia|exact I5].
      * apply Fx. lia.
      * cbn. lia.
      * exact E.
      * constructor; cbn [p_inflight p_bwe p_min_rtt]; auto; [lia|eauto|lia|]. rewrite Q3. cbn. lia.
    + destruct (bwe_feed (p_bwe s) _) as [b1|] eqn:E; cbn [bind] in B; [|discriminate].
      injection B as B1 B2. subst b1 m.
      destruct (feed_fair (p_bwe s) (p_min_rtt s) ops (mk_sample (size + 9 + 8) (to_signed 32 (sent mod 2 ^ 32)) (clock32 now)) b) as (Q1 & Q2 & Q3 & Q4); auto.
      * apply Fx. lia.
      * constructor; cbn [p_inflight p_bwe p_min_rtt]; auto; [lia|eauto|]. rewrite Q3. exact I6.
Qed.

Lemma timely_cons last o ev evs s s' o' : timely last o (ev :: evs) -> honest_step s o ev = Ok (s', o') ->
  timely last o [ev] /\ timely (next_last last ev) o' evs.
Proof.
  destruct ev as [now|size now|now]; cbn [timely honest_step next_last]; intros T H.
  - destruct (update_min_rtt s now); cbn [bind] in H; [|discriminate]. injection H as _ <-. tauto.
  - injection H as _ <-. tauto.
  - destruct o as [|[sent size] o].
    + injection H as _ <-. auto.
    + destruct (fence_answered _ _ _ _ _); cbn [bind] in H; [|discriminate]. injection H as _ <-. tauto.
Qed.

Lemma inv_run : forall evs last s o s' o', inv last s o -> timely last o evs -> honest_run s o evs = Ok (s', o') ->
  exists last', inv last' s' o'.
Proof.
  induction evs as [|ev evs IH]; cbn [honest_run]; intros last s o s' o' I T H.
  - injection H as <- <-. eauto.
  - destruct (honest_step s o ev) as [[s1 o1]|] eqn:E; cbn [bind fst snd] in H; [|discriminate].
    destruct (timely_cons last o ev evs s s1 o1 T E) as [T1 T2].
    apply (IH (next_last last ev) s1 o1 s' o'); auto. now apply (inv_step last s o ev).
Qed.

(* one more measurement, and its place in the list *)
Definition trip (last : Z) (o : outstanding) (ev : pace_event) : list Z := trips last o [ev].

Lemma min_step last s o ev s' o' : inv last s o -> timely last o [ev] -> honest_step s o ev = Ok (s', o') ->
  p_min_rtt s' = fold_right Z.min (p_min_rtt s) (trip last o ev).
Proof.
  intros I T H. destruct I as [I1 I2 I3 _ I8 I9 I6 I7]. unfold trip. destruct ev as [now|size now|now]; cbn [honest_step timely trips fold_right] in *.
  - destruct (update_min_rtt s now) as [s1|] eqn:U; cbn [bind] in H; [|discriminate]. injection H as H Ho. subst s1 o'.
    unfold update_min_rtt in U. destruct (int32 _) as [diff|] eqn:D; cbn [bind] in U; [|discriminate].
    rewrite I8 in D. assert (R := clock_diff last now diff ltac:(tauto) D).
    destruct (diff <? p_min_rtt s) eqn:L; injection U as U; subst s'; cbn [p_min_rtt]; lia.
  - injection H as H Ho. subst s' o'. reflexivity.
  - destruct o as [|[sent size] o]; [injection H as H Ho; subst; reflexivity|].
    destruct T as [T _]. inversion I2 as [|? ? P I2']; subst. cbn [snd] in P.
    destruct (fence_answered s now (sent mod 2 ^ 32) size 8) as [r|] eqn:F; cbn [bind] in H; [|discriminate].
    injection H as H Ho. subst s' o'. unfold fence_answered in F.
    destruct (on_fence_response _ _ _ _ _ _) as [[b m]|] eqn:B; cbn [bind] in F; [|discriminate].
    unfold on_fence_response in B. replace (size =? 0) with false in B, F by lia.
    destruct (int32 (clock32 now - to_signed 32 (sent mod 2 ^ 32))) as [rtt|] eqn:D; cbn [bind] in B; [|discriminate].
    assert (R := clock_diff sent now rtt T D). assert (Dz := int32_ok _ _ D).
    replace (rtt <? 0) with false in B by lia. rewrite Dz in F. replace (rtt <? 0) with false in F by lia.
    injection F as F. subst r. cbn [fst p_min_rtt fold_right].
    destruct (rtt <? p_min_rtt s) eqn:L; (destruct (bwe_feed _ _) as [b1|]; cbn [bind] in B; [|discriminate]; injection B as _ B2; lia).
Qed.

Lemma min_cat m l r : fold_right Z.min m (l ++ r) = fold_right Z.min (fold_right Z.min m l) r.
Proof.
  rewrite fold_right_app. revert m. induction l as [|x l IH]; intros m; cbn [fold_right]; [reflexivity|].
  rewrite IH. clear IH. generalize (fold_right Z.min m l). intros k. induction r as [|y r IH]; cbn [fold_right]; lia.
Qed.

Lemma trips_cons last o ev evs s s' o' : honest_step s o ev = Ok (s', o') ->
  trips last o (ev :: evs) = trip last o ev ++ trips (next_last last ev) o' evs.
Proof.
  unfold trip. destruct ev as [now|size now|now]; cbn [trips honest_step next_last app]; intros H.
  - destruct (update_min_rtt s now); cbn [bind] in H; [|discriminate]. injection H as _ <-. reflexivity.
  - injection H as _ <-. reflexivity.
  - destruct o as [|[sent size] o]; [injection H as _ <-; reflexivity|].
    destruct (fence_answered _ _ _ _ _); cbn [bind] in H; [|discriminate]. injection H as _ <-. reflexivity.
Qed.

Lemma min_run : forall evs last s o s' o', inv last s o -> timely last o evs -> honest_run s o evs = Ok (s', o') ->
  p_min_rtt s' = fold_right Z.min (p_min_rtt s) (trips last o evs).
Proof.
  induction evs as [|ev evs IH]; cbn [honest_run]; intros last s o s' o' I T H.
  - injection H as <- <-. reflexivity.
  - destruct (honest_step s o ev) as [[s1 o1]|] eqn:E; cbn [bind fst snd] in H; [|discriminate].
    destruct (timely_cons last o ev evs s s1 o1 T E) as [T1 T2].
    rewrite (IH (next_last last ev) s1 o1 s' o' (inv_step _ _ _ _ _ _ I T1 E) T2 H).
    rewrite (min_step last s o ev s1 o1 I T1 E), (trips_cons last o ev evs s s1 o1 E), min_cat. reflexivity.
Qed.

Lemma estimate_nonneg b v : est_ok (estimate b) -> bwe_get_estimate b = Ok v -> 0 <= v.
Proof.
  unfold bwe_get_estimate. destruct (estimate b) as [n d| | |]; cbn [est_ok]; try discriminate. intros [N D] E.
  replace (n >=? 0) with true in E by lia. apply int32_ok in E. subst v. apply Z.div_pos; lia.
Qed.

(* the limit, for rates and times that are not negative *)
Lemma limit_value r b m i : 0 <= r -> 0 <= b -> max_inflight r b = Ok m -> (m < i <-> 1000000 * i > r * b + 533333).
Proof.
  intros R B E. unfold max_inflight in E. cbv zeta in E. assert (0 <= r * b) by nia.
  replace (33333 + r * b >=? 0) with true in E by lia. apply int32_ok in E. subst m.
  set (n := 33333 + r * b) in *. assert (n = 33333 + r * b) by reflexivity.
  assert (D := Z.div_mod (2 * n + 1000000) 2000000 ltac:(lia)). assert (M := Z.mod_pos_bound (2 * n + 1000000) 2000000 ltac:(lia)).
  set (q := (2 * n + 1000000) / 2000000) in *. lia.
Qed.

Lemma answers_only : forall k s, honest_run s [] (map Answer k) = Ok (s, []).
Proof. induction k as [|t k IH]; intros s; cbn; auto. Qed.
