(** Proofs for Avail_Props. *)
From Verif Require Import Common CommonProofs Avail_Model Avail_Spec.

Lemma create_available w now p : match h264_encoder_create w now p with Some _ => available w now p | None => ~ available w now p end.
Proof.
  unfold h264_encoder_create, available.
  destruct (built w V4l2m2m && works w V4l2m2m now p) eqn:V.
  - apply andb_prop in V. exists V4l2m2m. exact V.
  - destruct (built w Ffmpeg && works w Ffmpeg now p) eqn:F.
    + apply andb_prop in F. exists Ffmpeg. exact F.
    + intros [[|] [B W]]; rewrite B, W in *; discriminate.
Qed.

(* after the first answer *)
Definition settled (v : Z) (s : state) : Prop := (v = 1 \/ v = -1) /\ cached_result s = v /\ forall b, In (Answer b) (seen s) -> b = (v =? 1).

Lemma ask_settled w now v s : settled v s -> settled v (step w now Ask s).
Proof.
  intros (V & C & A). unfold step, have_working_h264_encoder. rewrite C.
  replace (negb (v =? 0)) with true by (destruct V; subst v; reflexivity).
  split; [exact V|]. cbn [cached_result seen]. split; [exact C|]. intros b [E|I]; [congruence|now apply A].
Qed.
Lemma step_settled w now v a s : settled v s -> settled v (step w now a s).
Proof.
  intros H. destruct a as [|p|n]; [now apply ask_settled| |]; destruct H as (V & C & A).
  - split; [exact V|]. split; [exact C|]. intros b [E|I]; [discriminate|now apply A].
  - unfold step. destruct (nth_error (alive s) n); [|now repeat split].
    split; [exact V|]. split; [exact C|]. intros b [E|I]; [discriminate|now apply A].
Qed.
Lemma run_settled w v l : forall now s, settled v s -> settled v (run w now l s).
Proof. induction l as [|a l IH]; intros now s H; cbn [run]; [exact H|]. apply IH. now apply step_settled. Qed.

(* before the first question *)
Definition fresh (s : state) : Prop := cached_result s = 0 /\ forall b, ~ In (Answer b) (seen s).
Lemma step_fresh w now a s : a <> Ask -> fresh s -> fresh (step w now a s).
Proof.
  intros N (C & A). destruct a as [|p|n]; [congruence| |].
  - split; [exact C|]. intros b [E|I]; [discriminate|exact (A b I)].
  - unfold step. destruct (nth_error (alive s) n); [|now split].
    split; [exact C|]. intros b [E|I]; [discriminate|exact (A b I)].
Qed.
Lemma run_fresh w l : forall now s, ~ In Ask l -> fresh s -> fresh (run w now l s).
Proof.
  induction l as [|a l IH]; intros now s N F; cbn [run]; [exact F|]. apply IH.
  - intros I. apply N. now right.
  - apply step_fresh; [|exact F]. intros ->. apply N. now left.
Qed.
Lemma first_ask w now s : fresh s ->
  exists v, settled v (step w now Ask s) /\ (v = 1 <-> available w now full_hd).
Proof.
  intros (C & A). pose proof (create_available w now full_hd) as P.
  unfold step, have_working_h264_encoder. rewrite C. cbn [Z.eqb negb].
  change (mk_params 1920 1080 XRGB8888 5) with full_hd. unfold create.
  destruct (h264_encoder_create w now full_hd) as [i|] eqn:E; cbn.
  - exists 1. split; [|tauto]. split; [now left|]. cbn. split; [reflexivity|]. intros b [X|[X|[X|I]]]; try discriminate; [congruence|]. destruct (A b I).
  - exists (-1). split; [|split; [discriminate|tauto]]. split; [now right|]. cbn. split; [reflexivity|]. intros b [X|[X|I]]; try discriminate; [congruence|]. destruct (A b I).
Qed.

Lemma run_app w l1 : forall now l2 s, run w now (l1 ++ l2) s = run w (now + length l1) l2 (run w now l1 s).
Proof.
  induction l1 as [|a l1 IH]; intros now l2 s; cbn [app run length].
  - now rewrite Nat.add_0_r.
  - rewrite IH. f_equal. lia.
Qed.
Lemma fresh0 : fresh state0.
Proof. split; [reflexivity|]. intros b []. Qed.

Lemma of_first w now l1 l2 b : ~ In Ask l1 -> In (Answer b) (seen (run w now (l1 ++ Ask :: l2) state0)) ->
  (b = true <-> available w (now + length l1) full_hd).
Proof.
  intros N I. rewrite run_app in I. cbn [run] in I.
  destruct (first_ask w (now + length l1) _ (run_fresh w l1 now _ N fresh0)) as (v & S1 & V).
  destruct (run_settled w v l2 (S (now + length l1)) _ S1) as (V2 & _ & A). rewrite (A b I), <- V. apply Z.eqb_eq.
Qed.

Lemma split_ask l : (exists l1 l2, l = l1 ++ Ask :: l2 /\ ~ In Ask l1) \/ ~ In Ask l.
Proof.
  induction l as [|a l IH]; [right; intros []|]. destruct a as [|p|n].
  - left. exists [], l. split; [reflexivity|intros []].
  - destruct IH as [(l1 & l2 & -> & N)|N].
    + left. exists (Make p :: l1), l2. split; [reflexivity|]. intros [X|X]; [discriminate|auto].
    + right. intros [X|X]; [discriminate|auto].
  - destruct IH as [(l1 & l2 & -> & N)|N].
    + left. exists (Drop n :: l1), l2. split; [reflexivity|]. intros [X|X]; [discriminate|auto].
    + right. intros [X|X]; [discriminate|auto].
Qed.
Lemma same_answers w now l b1 b2 : In (Answer b1) (seen (run w now l state0)) -> In (Answer b2) (seen (run w now l state0)) -> b1 = b2.
Proof.
  intros I1 I2. destruct (split_ask l) as [(l1 & l2 & -> & N)|N].
  - pose proof (of_first w now l1 l2 b1 N I1) as E1. pose proof (of_first w now l1 l2 b2 N I2) as E2.
    destruct b1, b2; try reflexivity; exfalso.
    + assert (false = true) by (apply E2, E1; reflexivity). discriminate.
    + assert (false = true) by (apply E1, E2; reflexivity). discriminate.
  - destruct (run_fresh w l now _ N fresh0) as (_ & A). destruct (A b1 I1).
Qed.

Lemma ask_alive w now s : alive (step w now Ask s) = alive s.
Proof.
  unfold step, have_working_h264_encoder. destruct (negb (cached_result s =? 0)); [reflexivity|].
  unfold create. destruct (h264_encoder_create w now (mk_params 1920 1080 XRGB8888 5)); reflexivity.
Qed.

(* the questions so far were cause for at most one try, and for none while the result is not known *)
Definition tries (s : state) (makes : nat) : Prop :=
  count is_try (seen s) = (makes + if Z.eqb (cached_result s) 0 then 0 else 1)%nat.
Lemma step_tries w now a s k : tries s k -> tries (step w now a s) (k + if is_make a then 1 else 0).
Proof.
  unfold tries, count. intros T. destruct a as [|p|n]; cbn [is_make].
  - unfold step, have_working_h264_encoder. destruct (Z.eqb_spec (cached_result s) 0) as [E|N]; cbn [negb].
    + unfold create. destruct (h264_encoder_create w now (mk_params 1920 1080 XRGB8888 5)); cbn; rewrite T; lia.
    + cbn [cached_result seen filter is_try length]. rewrite T. destruct (Z.eqb_spec (cached_result s) 0); [congruence|lia].
  - cbn. rewrite T. lia.
  - unfold step. destruct (nth_error (alive s) n); cbn [cached_result seen filter is_try]; rewrite T; lia.
Qed.
Lemma run_tries w l : forall now s k, tries s k -> tries (run w now l s) (k + count is_make l).
Proof.
  induction l as [|a l IH]; intros now s k T; cbn [run].
  - now rewrite Nat.add_0_r.
  - specialize (IH (S now) _ _ (step_tries w now a s k T)). unfold count in *. cbn [filter].
    destruct (is_make a); cbn [length]; [replace (k + S (length (filter is_make l)))%nat with (k + 1 + length (filter is_make l))%nat by lia|replace (k + length (filter is_make l))%nat with (k + 0 + length (filter is_make l))%nat by lia]; exact IH.
Qed.
Lemma one_try w now l : (count is_make l <= count is_try (seen (run w now l state0)) <= S (count is_make l))%nat.
Proof.
  pose proof (run_tries w l now state0 0 eq_refl) as T. unfold tries in T. rewrite T. destruct (Z.eqb _ _); lia.
Qed.
