From Verif Require Import Common Pixels_Model Gbm_Model Gbm_Spec.

(** * Counting *)

Fixpoint active (l : list phase) : Z :=
  match l with
  | [] => 0
  | Over :: l => active l
  | _ :: l => 1 + active l
  end.

Lemma active_nonneg : forall l, 0 <= active l.
Proof. induction l as [|p l IH]; cbn [active]; [lia|destruct p; lia]. Qed.

Lemma active_app : forall l, active (l ++ [Queued]) = active l + 1.
Proof. induction l as [|p l IH]; cbn [active app]; [reflexivity|destruct p; rewrite IH; lia]. Qed.

Definition weight (p : phase) : Z := match p with Over => 0 | _ => 1 end.

Lemma active_set : forall l i p q, nth_error l i = Some p ->
  active (set_phase l i q) = active l - weight p + weight q.
Proof.
  induction l as [|a l IH]; intros [|i] p q H; cbn [nth_error] in H; try discriminate.
  - injection H as ->. cbn [set_phase active]. destruct p, q; cbn [weight]; lia.
  - cbn [set_phase active]. specialize (IH _ _ q H). destruct a; lia.
Qed.

Lemma active_in : forall l p, In p l -> p <> Over -> 0 < active l.
Proof.
  induction l as [|a l IH]; intros p [] N.
  - subst a. pose proof (active_nonneg l). destruct p; cbn [active]; try lia. congruence.
  - specialize (IH _ H N). destruct a; cbn [active]; lia.
Qed.

Lemma set_phase_in : forall l i p q, In q (set_phase l i p) -> q = p \/ In q l.
Proof.
  induction l as [|a l IH]; intros [|i] p q H; cbn [set_phase] in H.
  - destruct H.
  - destruct H.
  - destruct H; [left; congruence|right; right; assumption].
  - destruct H; [right; left; assumption|]. apply IH in H as [H|H]; [left|right; right]; assumption.
Qed.

(** References and holds are those of the users; it exists as long as it has a reference. *)
Definition counted (w : world) : Prop :=
  g_hold (w_fb w) = Z.of_nat (w_shown w) + Z.of_nat (w_v4l2 w) + active (w_works w) /\
  g_ref (w_fb w) = Z.of_nat (w_app w) + g_hold (w_fb w) /\
  (g_freed (w_fb w) = true <-> g_ref (w_fb w) = 0).

(** There is the mapping of the handle and no other one. *)
Definition exact (g : gfb) : Prop :=
  g_live g = match g_handle g with Some n => [n] | None => [] end.

(** What a work relies on. *)
Definition serves (g : gfb) (p : phase) : Prop :=
  match p with
  | Mapping => g_handle g = None /\ g_addr g = None
  | Storing r => exists n pitch, r = Some (n, pitch) /\ g_handle g = Some n /\ g_addr g = None
  | Mapped => g_handle g <> None /\ g_addr g = g_handle g
  | InBox addr _ => g_handle g <> None /\ g_addr g = g_handle g /\ addr = g_handle g
  | _ => True
  end.

(** At most one is about to map; else addr and handle agree. *)
Definition alone (w : world) : Prop :=
  (forall i j p q, nth_error (w_works w) i = Some p -> nth_error (w_works w) j = Some q ->
     about_to_map p -> about_to_map q -> i = j) /\
  ((forall p, In p (w_works w) -> ~ about_to_map p) -> g_addr (w_fb w) = g_handle (w_fb w)).

Definition good (w : world) : Prop :=
  counted w /\ exact (w_fb w) /\ (forall p, In p (w_works w) -> serves (w_fb w) p) /\ alone w.

Lemma start_good : forall width height format, good (start width height format).
Proof.
  intros. unfold good, counted, exact, alone. cbn. repeat split; try discriminate; try tauto.
  intros [|i] j p q H; discriminate H.
Qed.

Lemma set_phase_nth : forall l i p j q, nth_error (set_phase l i p) j = Some q ->
  (j = i /\ q = p) \/ (j <> i /\ nth_error l j = Some q).
Proof.
  induction l as [|a l IH]; intros [|i] p [|j] q H; cbn [set_phase nth_error] in *; try discriminate.
  - left. split; congruence.
  - right. split; [discriminate|assumption].
  - right. split; [discriminate|assumption].
  - apply IH in H as [[-> ->]|[N E]]; [left; tauto|right; split; [congruence|assumption]].
Qed.

(** No work: nothing to rely on. *)
Lemma idle_works : forall l, active l = 0 -> forall p, In p l -> p = Over.
Proof.
  intros l A p P. destruct p; try reflexivity;
    match type of P with In ?q _ => pose proof (active_in l q P ltac:(discriminate)) end; lia.
Qed.

Lemma nobody_alone : forall g works v s a, (forall p, In p works -> ~ about_to_map p) ->
  g_addr g = g_handle g -> alone (mk_w g works v s a).
Proof.
  intros g works v s a N E. split; cbn [w_works w_fb]; [|intros _; exact E].
  intros i j p q Hi _ Ap _. exfalso. exact (N p (nth_error_In _ _ Hi) Ap).
Qed.

Lemma not_freed : forall w, counted w -> 0 < Z.of_nat (w_app w) + g_hold (w_fb w) -> g_freed (w_fb w) = false.
Proof.
  intros w (_ & R & F) P. destruct (g_freed (w_fb w)); [|reflexivity].
  specialize (proj1 F eq_refl). lia.
Qed.

(** * The functions of fb.c *)

Lemma unmap_ok : forall g, exact g -> g_freed g = false ->
  fb_unmap g = Ok (mk_g (g_ref g) (g_hold g) false (g_width g) (g_height g) (g_format g)
                     None None 0 [] (g_made g) (g_told g)).
Proof.
  intros g X F. unfold fb_unmap. rewrite F, X. destruct (g_handle g) as [n|]; [|reflexivity].
  unfold undo. cbn [existsb]. rewrite Nat.eqb_refl. cbn [orb bind remove].
  destruct (Nat.eq_dec n n); [reflexivity|congruence].
Qed.

Lemma keep_ok : forall g, g_freed g = false ->
  keep g = Ok (set_counts g (g_ref g + 1) (g_hold g + 1)).
Proof.
  intros g F. unfold keep, fb_ref. rewrite F. cbn [bind]. unfold fb_hold. cbn. rewrite F. reflexivity.
Qed.

(** Dropping a hold that is not the last one changes the counts only. *)
Lemma drop_some : forall g, g_freed g = false -> 1 < g_hold g -> 1 < g_ref g ->
  drop g = Ok (set_counts g (g_ref g - 1) (g_hold g - 1)).
Proof.
  intros g F H R. unfold drop, fb_release. rewrite F. cbn [set_counts g_hold].
  rewrite (proj2 (Z.eqb_neq (g_hold g - 1) 0)) by lia. cbn [bind]. unfold fb_unref. cbn [set_counts g_freed].
  rewrite F. cbn [set_counts g_ref].
  rewrite (proj2 (Z.eqb_neq (g_ref g - 1) 0)) by lia. reflexivity.
Qed.

(** Dropping the last hold undoes the mapping. *)
Lemma drop_last : forall g, exact g -> g_freed g = false -> g_hold g = 1 ->
  drop g = Ok (mk_g (g_ref g - 1) 0 (g_ref g - 1 =? 0) (g_width g) (g_height g) (g_format g)
                 None None 0 [] (g_made g) (g_told g + 1)).
Proof.
  intros g X F H. unfold drop, fb_release. rewrite F. cbn [set_counts g_hold]. rewrite H.
  change (1 - 1 =? 0) with true. change (1 - 1) with 0. cbn iota.
  rewrite (unmap_ok (set_counts g (g_ref g) 0) X F). cbn [bind].
  unfold fb_unref. cbn [tell g_freed set_counts g_ref g_hold g_format g_made g_told g_width g_height].
  destruct (g_ref g - 1 =? 0) eqn:Z0; [|reflexivity].
  rewrite unmap_ok by reflexivity. cbn [bind set_freed]. reflexivity.
Qed.

(** * What each step does *)

(** Somebody who has a hold drops it. *)
Lemma drop_good : forall w works shown v, good w -> g_freed (w_fb w) = false ->
  Z.of_nat shown + Z.of_nat v + active works + 1 =
    Z.of_nat (w_shown w) + Z.of_nat (w_v4l2 w) + active (w_works w) ->
  (forall p, In p works -> p = Over \/ In p (w_works w)) ->
  (forall i p, nth_error works i = Some p -> p = Over \/ nth_error (w_works w) i = Some p) ->
  (forall p, In p (w_works w) -> about_to_map p -> In p works) ->
  exists g, drop (w_fb w) = Ok g /\ g_format g = g_format (w_fb w) /\
    good (mk_w g works v shown (w_app w)) /\
    g_hold g = g_hold (w_fb w) - 1 /\ (g_told g = if g_hold (w_fb w) =? 1 then g_told (w_fb w) + 1 else g_told (w_fb w)) /\
    (g_hold g = 0 -> g_handle g = None) /\
    (g_hold g <> 0 -> g_handle g = g_handle (w_fb w) /\ g_addr g = g_addr (w_fb w) /\ g_stride g = g_stride (w_fb w)).
Proof.
  intros w works shown v (C & X & V & A) F E I I2 I3. pose proof C as (H & R & Fr).
  pose proof (active_nonneg works) as N.
  destruct (Z.eq_dec (g_hold (w_fb w)) 1) as [L|L].
  - eexists. split; [apply drop_last; assumption|]. cbn [g_format g_hold g_told g_handle].
    rewrite L. change (1 =? 1) with true.
    split; [reflexivity|]. split; [|repeat split; try reflexivity; try lia].
    pose proof (idle_works works ltac:(lia)) as O.
    split; [|split; [|split]].
    + unfold counted. cbn [w_fb w_works w_v4l2 w_shown w_app g_hold g_ref g_freed].
      split; [lia|]. split; [lia|]. rewrite Z.eqb_eq. reflexivity.
    + reflexivity.
    + intros p P. cbn [w_works] in P. rewrite (O p P). exact Logic.I.
    + apply nobody_alone; [|reflexivity]. intros p P. rewrite (O p P). intros [].
  - assert (2 <= g_hold (w_fb w)) by lia.
    exists (set_counts (w_fb w) (g_ref (w_fb w) - 1) (g_hold (w_fb w) - 1)).
    split; [apply drop_some; lia || assumption|]. split; [reflexivity|].
    rewrite (proj2 (Z.eqb_neq _ _) L). split; [|cbn; repeat split; try reflexivity; lia].
    split; [|split; [|split]].
    + unfold counted. cbn [w_fb w_works w_v4l2 w_shown w_app set_counts g_hold g_ref g_freed].
      split; [lia|]. split; [lia|]. rewrite F. split; [discriminate|lia].
    + exact X.
    + intros p P. cbn [w_works] in P. destruct (I p P) as [->|P']; [exact Logic.I|]. exact (V p P').
    + destruct A as (A1 & A2). split; cbn [w_works w_fb].
      * intros i j p q Hi Hj Ap Aq.
        destruct (I2 i p Hi) as [->|Pi]; [destruct Ap|]. destruct (I2 j q Hj) as [->|Pj]; [destruct Aq|].
        exact (A1 i j p q Pi Pj Ap Aq).
      * intros NA. apply A2. intros p P Ap. exact (NA p (I3 p P Ap) Ap).
Qed.

(** Somebody takes a hold. *)
Lemma keep_good : forall w shown v (b : bool), good w -> g_freed (w_fb w) = false ->
  Z.of_nat shown + Z.of_nat v + (if b then 1 else 0) = Z.of_nat (w_shown w) + Z.of_nat (w_v4l2 w) + 1 ->
  exists g, keep (w_fb w) = Ok g /\ g = set_counts (w_fb w) (g_ref g) (g_hold (w_fb w) + 1) /\
    good (mk_w g (if b then w_works w ++ [Queued] else w_works w) v shown (w_app w)).
Proof.
  intros w shown v b (C & X & V & A) F E. pose proof C as (H & R & Fr).
  pose proof (active_nonneg (w_works w)) as N.
  exists (set_counts (w_fb w) (g_ref (w_fb w) + 1) (g_hold (w_fb w) + 1)).
  split; [apply keep_ok; assumption|]. split; [reflexivity|].
  assert (IN : forall p, In p (if b then w_works w ++ [Queued] else w_works w) -> p = Queued \/ In p (w_works w)).
  { intros p P. destruct b; [|right; assumption]. apply in_app_or in P as [P|[P|[]]]; [right; assumption|left; congruence]. }
  split; [|split; [|split]].
  - unfold counted. cbn [w_fb w_works w_v4l2 w_shown w_app set_counts g_hold g_ref g_freed].
    split; [destruct b; [rewrite active_app|]; lia|]. split; [lia|]. rewrite F. split; [discriminate|lia].
  - exact X.
  - intros p P. cbn [w_works] in P. destruct (IN p P) as [->|P']; [exact Logic.I|]. exact (V p P').
  - destruct A as (A1 & A2). split; cbn [w_works w_fb].
    + assert (NT : forall i p, nth_error (if b then w_works w ++ [Queued] else w_works w) i = Some p ->
                about_to_map p -> nth_error (w_works w) i = Some p).
      { intros i p Hi Ap. destruct b; [|assumption]. destruct (Nat.lt_ge_cases i (length (w_works w))) as [Lt|Ge].
        - rewrite nth_error_app1 in Hi by assumption. assumption.
        - rewrite nth_error_app2 in Hi by assumption. destruct (i - length (w_works w))%nat as [|[|k]]; cbn in Hi; try discriminate.
          injection Hi as <-. destruct Ap. }
      intros i j p q Hi Hj Ap Aq. exact (A1 i j p q (NT i p Hi Ap) (NT j q Hj Aq) Ap Aq).
    + intros NA. apply A2. intros p P. apply NA. destruct b; [apply in_or_app; left|]; assumption.
Qed.

Lemma work_counts : forall w i p, good w -> nth_error (w_works w) i = Some p -> p <> Over ->
  g_freed (w_fb w) = false.
Proof.
  intros w i p (C & _) E N. apply not_freed; [assumption|]. destruct C as (H & _).
  pose proof (active_in _ p (nth_error_In _ _ E) N). lia.
Qed.

(** The main thread maps. *)
Lemma fb_map_ok : forall w pitch, good w -> g_freed (w_fb w) = false -> known (g_format (w_fb w)) ->
  (forall p, In p (w_works w) -> ~ about_to_map p) ->
  exists g', fb_map (w_fb w) (Some pitch) = Ok (g', true) /\ good (set_fb w g') /\
    g_format g' = g_format (w_fb w) /\ g_freed g' = false /\ g_hold g' = g_hold (w_fb w) /\ g_told g' = g_told (w_fb w) /\
    (exists n, g_handle g' = Some n /\ g_addr g' = Some n /\ g_live g' = [n]) /\
    (g_handle (w_fb w) = None -> g_stride g' = to_signed 32 (pitch / pixel_size (w_fb w))) /\
    (g_handle (w_fb w) <> None -> g' = w_fb w).
Proof.
  intros w pitch G F K NM. pose proof G as (C & X & V & A1 & A2). specialize (A2 NM).
  unfold fb_map. rewrite F. unfold is_mapped, map_call, map_store, pixel_size.
  destruct (g_handle (w_fb w)) as [n|] eqn:E.
  - exists (w_fb w). split; [reflexivity|]. destruct w as [g l v s a]. cbn [w_fb] in *. split; [exact G|].
    repeat (split; [reflexivity || assumption|]). split; [|split; [discriminate|reflexivity]].
    exists n. unfold exact in X. rewrite E in X. repeat split; assumption.
  - cbn [g_format]. rewrite (proj2 (Z.eqb_neq _ _) K). eexists. split; [reflexivity|].
    cbn [g_ref g_hold g_freed g_format g_addr g_handle g_stride g_live g_made g_told].
    unfold exact in X. rewrite E in X. rewrite X.
    split; [|repeat (split; [reflexivity || assumption|]); split; [eauto|split; [reflexivity|congruence]]].
    split; [exact C|]. split; [reflexivity|]. split.
    + intros p P. cbn [set_fb w_works w_fb] in *. specialize (V p P). specialize (NM p P).
      destruct p; cbn [serves about_to_map g_handle g_addr] in *; try tauto; rewrite E in V; destruct V; congruence.
    + unfold set_fb. apply nobody_alone; [exact NM|reflexivity].
Qed.

(** A work goes on without changing the buffer. *)
Lemma set_work_good : forall w i p q, good w -> nth_error (w_works w) i = Some p -> weight p = weight q ->
  serves (w_fb w) q -> (about_to_map q -> forall r, In r (w_works w) -> ~ about_to_map r) ->
  ~ about_to_map p -> good (set_work w i q).
Proof.
  intros w i p q (C & S & V & A1 & A2) E W Q NQ NP. split; [|split; [|split]].
  - unfold counted in *. cbn [set_work w_fb w_works w_v4l2 w_shown w_app].
    rewrite (active_set _ _ _ q E), W. replace (active (w_works w) - weight q + weight q) with (active (w_works w)) by lia.
    exact C.
  - exact S.
  - intros r P. cbn [set_work w_works] in P. apply set_phase_in in P as [->|P]; [exact Q|exact (V r P)].
  - split; cbn [set_work w_works w_fb].
    + intros j k a b Hj Hk Aj Ak.
      apply set_phase_nth in Hj as [[-> ->]|[Nj Hj]]; apply set_phase_nth in Hk as [[-> ->]|[Nk Hk]].
      * reflexivity.
      * exfalso. exact (NQ Aj _ (nth_error_In _ _ Hk) Ak).
      * exfalso. exact (NQ Ak _ (nth_error_In _ _ Hj) Aj).
      * exact (A1 j k a b Hj Hk Aj Ak).
    + intros NA. apply A2. intros r P Ar. apply (In_nth_error) in P as (j & Hj).
      destruct (Nat.eq_dec j i) as [->|Nj]; [congruence|].
      apply (NA r); [|assumption].
      assert (Hj' : forall l i j q, j <> i -> nth_error (set_phase l i q) j = nth_error l j).
      { clear. induction l as [|x l IH]; intros [|i] [|j] q N; cbn; try reflexivity; try congruence. apply IH. congruence. }
      apply nth_error_In with j. rewrite Hj' by assumption. exact Hj.
Qed.

Lemma set_phase_other : forall l i j q, j <> i -> nth_error (set_phase l i q) j = nth_error l j.
Proof.
  induction l as [|x l IH]; intros [|i] [|j] q N; cbn; try reflexivity; try congruence. apply IH. congruence.
Qed.

(** What a step leaves. *)
Definition leaves (w w' : world) : Prop :=
  good w' /\ g_format (w_fb w') = g_format (w_fb w) /\
  (g_told (w_fb w') <> g_told (w_fb w) -> g_live (w_fb w') = []) /\
  ((g_freed (w_fb w) = true -> g_live (w_fb w) = []) -> g_freed (w_fb w') = true -> g_live (w_fb w') = []).

Lemma drop_leaves : forall w works shown v, good w -> g_freed (w_fb w) = false ->
  Z.of_nat shown + Z.of_nat v + active works + 1 =
    Z.of_nat (w_shown w) + Z.of_nat (w_v4l2 w) + active (w_works w) ->
  (forall p, In p works -> p = Over \/ In p (w_works w)) ->
  (forall i p, nth_error works i = Some p -> p = Over \/ nth_error (w_works w) i = Some p) ->
  (forall p, In p (w_works w) -> about_to_map p -> In p works) ->
  exists w', (let* g := drop (w_fb w) in Ok (mk_w g works v shown (w_app w))) = Ok w' /\ leaves w w'.
Proof.
  intros w works shown v G F E I I2 I3.
  destruct (drop_good w works shown v G F E I I2 I3) as (g & E1 & Fo & G' & Ho & To & H0 & _).
  rewrite E1. cbn [bind]. eexists. split; [reflexivity|]. split; [exact G'|]. split; [exact Fo|].
  cbn [w_fb]. pose proof G' as (C' & X & _). unfold exact in X. cbn [w_fb] in X.
  split.
  - rewrite To. destruct (g_hold (w_fb w) =? 1) eqn:B; [|congruence]. intros _.
    apply Z.eqb_eq in B. rewrite X, H0 by lia. reflexivity.
  - intros _ Fr. rewrite X, H0; [reflexivity|].
    destruct C' as (Hc & Rc & Fc). cbn [w_fb w_app w_shown w_v4l2 w_works] in *. apply Fc in Fr.
    pose proof (active_nonneg works). lia.
Qed.

Lemma keep_leaves : forall w shown v (b : bool), good w -> g_freed (w_fb w) = false ->
  Z.of_nat shown + Z.of_nat v + (if b then 1 else 0) = Z.of_nat (w_shown w) + Z.of_nat (w_v4l2 w) + 1 ->
  exists w', (let* g := keep (w_fb w) in
    Ok (mk_w g (if b then w_works w ++ [Queued] else w_works w) v shown (w_app w))) = Ok w' /\ leaves w w'.
Proof.
  intros w shown v b G F E. destruct (keep_good w shown v b G F E) as (g & E1 & Eg & G').
  rewrite E1. cbn [bind]. eexists. split; [reflexivity|]. split; [exact G'|]. cbn [w_fb].
  rewrite Eg. cbn. split; [reflexivity|]. split; [congruence|]. rewrite F. congruence.
Qed.

Lemma same_leaves : forall w w', good w' -> w_fb w' = w_fb w -> leaves w w'.
Proof. intros w w' G E. split; [assumption|]. rewrite E. split; [reflexivity|]. split; [congruence|tauto]. Qed.

Lemma nobody : forall w, ~ (exists p, In p (w_works w) /\ about_to_map p) ->
  forall p, In p (w_works w) -> ~ about_to_map p.
Proof. intros w N p P A. apply N. exists p. split; assumption. Qed.

Lemma step_good : forall a w, good w -> known (g_format (w_fb w)) -> mappable a -> ~ disturbs w a ->
  exists w', step w a = Ok w' /\ leaves w w'.
Proof.
  intros a w G K MP ND. pose proof G as (C & X & V & A1 & A2). pose proof C as (H & R & Fr).
  pose proof (active_nonneg (w_works w)) as N.
  assert (Stay : exists w', Ok w = Ok w' /\ leaves w w')
    by (exists w; split; [reflexivity|]; apply same_leaves; [exact G|reflexivity]).
  assert (Alive : 0 < Z.of_nat (w_app w) + g_hold (w_fb w) -> g_freed (w_fb w) = false)
    by (apply not_freed; assumption).
  destruct a; cbn [step disturbs mappable] in *; try contradiction.
  - (* AppRef *)
    destruct (w_app w) as [|k] eqn:A; [exact Stay|].
    assert (F : g_freed (w_fb w) = false) by (apply Alive; lia).
    unfold fb_ref. rewrite F. cbn [bind]. eexists. split; [reflexivity|].
    split; [|cbn; rewrite F; repeat split; congruence].
    split; [|split; [exact X|split; [exact V|exact (conj A1 A2)]]].
    unfold counted. cbn [w_fb w_works w_v4l2 w_shown w_app set_counts g_hold g_ref g_freed].
    split; [assumption|]. split; [lia|]. rewrite F. split; [discriminate|lia].
  - (* AppUnref *)
    destruct (w_app w) as [|k] eqn:A; [exact Stay|].
    assert (F : g_freed (w_fb w) = false) by (apply Alive; lia).
    unfold fb_unref. rewrite F. cbn [set_counts g_ref].
    destruct (g_ref (w_fb w) - 1 =? 0) eqn:Z0.
    + apply Z.eqb_eq in Z0.
      rewrite (unmap_ok (set_counts (w_fb w) (g_ref (w_fb w) - 1) (g_hold (w_fb w))) X F).
      cbn [bind set_freed set_counts]. eexists. split; [reflexivity|]. split; [|cbn; repeat split].
      pose proof (idle_works (w_works w) ltac:(lia)) as O.
      split; [|split; [reflexivity|split]].
      * unfold counted. cbn [w_fb w_works w_v4l2 w_shown w_app g_hold g_ref g_freed set_freed set_counts].
        split; [assumption|]. split; [lia|]. split; [intros _; lia|reflexivity].
      * intros p P. cbn [w_works] in P. rewrite (O p P). exact Logic.I.
      * apply nobody_alone; [|reflexivity]. intros p P. rewrite (O p P). intros [].
    + apply Z.eqb_neq in Z0. cbn [bind]. eexists. split; [reflexivity|].
      split; [|cbn; rewrite F; repeat split; congruence].
      split; [|split; [exact X|split; [exact V|exact (conj A1 A2)]]].
      unfold counted. cbn [w_fb w_works w_v4l2 w_shown w_app set_counts g_hold g_ref g_freed].
      split; [assumption|]. split; [lia|]. rewrite F. split; [discriminate|lia].
  - (* Show *)
    destruct (w_app w) as [|k] eqn:A; [exact Stay|]. rewrite <- A.
    apply (keep_leaves w (S (w_shown w)) (w_v4l2 w) false G); [apply Alive; lia|cbn iota; lia].
  - (* Hide *)
    destruct (w_shown w) as [|k] eqn:A; [exact Stay|].
    apply (drop_leaves w (w_works w) k (w_v4l2 w) G); [apply Alive; lia|lia|tauto|tauto|tauto].
  - (* Take *)
    destruct (w_shown w) as [|k] eqn:A; [exact Stay|]. rewrite <- A.
    apply (keep_leaves w (w_shown w) (w_v4l2 w) true G); [apply Alive; lia|cbn iota; lia].
  - (* Begin *)
    destruct (nth_error (w_works w) i) as [[| | | | |]|] eqn:E; try exact Stay.
    rewrite (work_counts _ _ _ G E ltac:(discriminate)).
    eexists. split; [reflexivity|]. apply same_leaves; [|reflexivity].
    pose proof (nobody w ND) as NB.
    eapply set_work_good; [exact G|exact E|destruct (is_mapped (w_fb w)); reflexivity| |intros _; exact NB|intros []].
    unfold is_mapped. destruct (g_handle (w_fb w)) eqn:HH; cbn [serves]; rewrite HH; [|split; [reflexivity|exact (A2 NB)]].
    split; [discriminate|]. exact (A2 NB).
  - (* Map *)
    destruct (nth_error (w_works w) i) as [[| | | | |]|] eqn:E; try exact Stay.
    pose proof (work_counts _ _ _ G E ltac:(discriminate)) as F. rewrite F.
    destruct answer as [pitch|]; [|congruence]. cbn [map_call].
    eexists. split; [reflexivity|].
    split; [|cbn; rewrite F; repeat split; congruence].
    destruct (V _ (nth_error_In _ _ E)) as (HN & AN). unfold exact in X. rewrite HN in X.
    split; [|split; [|split]].
    + unfold counted. cbn [set_work set_fb w_fb w_works w_v4l2 w_shown w_app g_hold g_ref g_freed].
      rewrite (active_set _ _ _ _ E). cbn [weight]. split; [lia|]. split; [lia|]. rewrite F. rewrite F in Fr. exact Fr.
    + unfold exact. cbn. rewrite X. reflexivity.
    + intros p P. cbn [set_work set_fb w_works w_fb] in *. apply In_nth_error in P as (j & Hj).
      apply set_phase_nth in Hj as [[-> ->]|[Nj Hj]].
      * cbn. eauto 6.
      * specialize (V _ (nth_error_In _ _ Hj)). destruct p; cbn [serves g_handle g_addr] in *; try exact Logic.I.
        -- exfalso. apply Nj. exact (A1 j i _ _ Hj E Logic.I Logic.I).
        -- destruct V as (n & q & _ & V & _). congruence.
        -- destruct V. congruence.
        -- destruct V. congruence.
    + split; cbn [set_work set_fb w_works w_fb].
      * intros j k p q Hj Hk Ap Aq.
        apply set_phase_nth in Hj as [[-> ->]|[Nj Hj]]; apply set_phase_nth in Hk as [[-> ->]|[Nk Hk]].
        -- reflexivity.
        -- symmetry. exact (A1 k i q _ Hk E Aq Logic.I).
        -- exact (A1 j i p _ Hj E Ap Logic.I).
        -- exact (A1 j k p q Hj Hk Ap Aq).
      * intros NA. exfalso. apply (NA (Storing (Some (g_made (w_fb w), pitch)))); [|exact Logic.I].
        clear - E. revert i E. induction (w_works w) as [|x l IH]; intros [|i] E; cbn in *; try discriminate; eauto.
  - (* Store *)
    destruct (nth_error (w_works w) i) as [[| |r| | |]|] eqn:E; try exact Stay.
    pose proof (work_counts _ _ _ G E ltac:(discriminate)) as F. rewrite F.
    destruct (V _ (nth_error_In _ _ E)) as (n & pitch & -> & HN & _).
    unfold map_store, pixel_size. rewrite (proj2 (Z.eqb_neq _ _) K). cbn [bind snd fst].
    eexists. split; [reflexivity|]. split; [|cbn; rewrite F; repeat split; congruence].
    unfold exact in X. rewrite HN in X.
    assert (NB : forall p, In p (set_phase (w_works w) i Mapped) -> ~ about_to_map p).
    { intros p P Ap. apply In_nth_error in P as (j & Hj). apply set_phase_nth in Hj as [[-> ->]|[Nj Hj]]; [exact Ap|].
      apply Nj. exact (A1 j i p _ Hj E Ap Logic.I). }
    split; [|split; [|split]].
    + unfold counted. cbn [set_work set_fb w_fb w_works w_v4l2 w_shown w_app g_hold g_ref g_freed].
      rewrite (active_set _ _ _ _ E). cbn [weight]. split; [lia|]. split; [lia|]. rewrite F. rewrite F in Fr. exact Fr.
    + unfold exact. cbn. rewrite HN. exact X.
    + intros p P. cbn [set_work set_fb w_works w_fb] in *. pose proof (NB p P) as NP.
      apply set_phase_in in P as [->|P]; cbn [serves g_handle g_addr]; rewrite ?HN.
      * split; [discriminate|reflexivity].
      * specialize (V p P). destruct p; cbn [serves g_handle g_addr about_to_map] in *; rewrite ?HN; try tauto.
        -- split; [discriminate|reflexivity].
        -- destruct V as (_ & _ & V). split; [discriminate|]. split; [reflexivity|congruence].
    + unfold set_work, set_fb. apply nobody_alone; [exact NB|]. cbn. congruence.
  - (* Box *)
    assert (D : forall p, nth_error (w_works w) i = Some p -> p <> Over -> weight p = 1 ->
      ~ about_to_map p -> g_handle (w_fb w) <> None -> g_addr (w_fb w) = g_handle (w_fb w) ->
      exists w', (if g_freed (w_fb w) then Fault UseAfterFree
                  else Ok (set_work w i (InBox (g_addr (w_fb w)) (g_stride (w_fb w))))) = Ok w' /\ leaves w w').
    { intros p E NO W NP HN HA. rewrite (work_counts _ _ _ G E NO). eexists. split; [reflexivity|].
      apply same_leaves; [|reflexivity].
      eapply set_work_good; [exact G|exact E|exact W| |intros []|exact NP].
      cbn [serves]. repeat split; assumption. }
    destruct (nth_error (w_works w) i) as [[| | | | |]|] eqn:E; try exact Stay;
      pose proof (V _ (nth_error_In _ _ E)) as VV; cbn in VV;
      (eapply D; [reflexivity|discriminate|reflexivity|intros []| |]); tauto.
  - (* Read *)
    destruct (nth_error (w_works w) i) as [[| | | | |]|] eqn:E; try exact Stay.
    destruct (V _ (nth_error_In _ _ E)) as (NE & _ & ->). unfold exact in X.
    destruct (g_handle (w_fb w)) as [n|]; [|congruence].
    unfold read_at. rewrite X. cbn [existsb]. rewrite Nat.eqb_refl. exact Stay.
  - (* Finish *)
    assert (D : forall p, nth_error (w_works w) i = Some p -> p <> Over -> weight p = 1 -> ~ about_to_map p ->
      exists w', (let* g := drop (w_fb w) in Ok (set_work (set_fb w g) i Over)) = Ok w' /\ leaves w w').
    { intros p E NO W NP. pose proof (work_counts _ _ _ G E NO) as F.
      apply (drop_leaves w (set_phase (w_works w) i Over) (w_shown w) (w_v4l2 w) G F).
      - rewrite (active_set _ _ _ Over E), W. cbn [weight]. lia.
      - intros q Q. apply set_phase_in in Q. exact Q.
      - intros j q Q. apply set_phase_nth in Q as [[_ ->]|[_ Q]]; [left; reflexivity|right; assumption].
      - intros q Q Aq. apply In_nth_error in Q as (j & Hj).
        apply nth_error_In with j. rewrite set_phase_other; [assumption|]. intros ->. congruence. }
    destruct (nth_error (w_works w) i) as [[| | | | |]|] eqn:E; try exact Stay;
      (eapply D; [reflexivity|discriminate|reflexivity|intros []]).
  - (* VTake *)
    destruct (w_shown w) as [|k] eqn:A; [exact Stay|].
    assert (F : g_freed (w_fb w) = false) by (apply Alive; lia).
    destruct (keep_good w (w_shown w) (S (w_v4l2 w)) false G F) as (g & E1 & Eg & G'); [lia|].
    rewrite E1. cbn [bind]. destruct answer as [pitch|]; [|congruence].
    assert (F1 : g_freed g = false) by (rewrite Eg; exact F).
    assert (K1 : g_format g = g_format (w_fb w)) by (rewrite Eg; reflexivity).
    destruct (fb_map_ok _ pitch G') as (g' & E2 & G2 & Fo & F2 & Ho & To & _).
    { exact F1. } { cbn [w_fb]. rewrite K1. exact K. } { exact (nobody w ND). }
    cbn [w_fb] in *. rewrite E2. cbn [bind fst]. eexists. split; [reflexivity|].
    rewrite <- A. split; [exact G2|]. cbn [w_fb]. split; [congruence|].
    split; [|congruence]. rewrite To, Eg. cbn. congruence.
  - (* VGive *)
    destruct (w_v4l2 w) as [|k] eqn:A; [exact Stay|].
    assert (F : g_freed (w_fb w) = false) by (apply Alive; lia).
    rewrite (unmap_ok _ X F). cbn [bind].
    set (g1 := mk_g _ _ _ _ _ _ _ _ _ _ _ _).
    assert (NW : forall p, In p (w_works w) -> p = Queued \/ p = Over).
    { intros p P. destruct p; try tauto; exfalso; apply ND; eexists; (split; [exact P|cbn; tauto]). }
    assert (G1 : good (set_fb w g1)).
    { split; [|split; [reflexivity|split]].
      - unfold counted. cbn. unfold counted in C. rewrite F in Fr. repeat split; try tauto; lia.
      - intros p P. cbn [set_fb w_works] in P. destruct (NW p P) as [->| ->]; exact Logic.I.
      - apply nobody_alone; [|reflexivity]. intros p P. destruct (NW p P) as [->| ->]; intros []. }
    destruct (drop_leaves (set_fb w g1) (w_works w) (w_shown w) k G1 eq_refl) as (w' & E2 & G2 & Fo & To & Fr2).
    { cbn [set_fb w_shown w_v4l2 w_works]. rewrite A. lia. } { tauto. } { tauto. } { tauto. }
    cbn [set_fb w_fb w_app] in E2. rewrite E2. exists w'. split; [reflexivity|].
    split; [exact G2|]. split; [exact Fo|]. split; [exact To|]. intros _. apply Fr2. discriminate.
  - (* Refine *)
    destruct (w_app w) as [|k] eqn:A; [exact Stay|].
    assert (F : g_freed (w_fb w) = false) by (apply Alive; lia).
    destruct answer as [pitch|]; [|congruence].
    destruct (fb_map_ok w pitch G F K (nobody w ND)) as (g' & E1 & G' & Fo & F' & Ho & To & (n & Ha & Ad & Li) & _).
    rewrite E1. cbn [bind fst]. unfold fb_read, read_at. rewrite F', Ad, Li. cbn [existsb]. rewrite Nat.eqb_refl. cbn [orb bind].
    eexists. split; [reflexivity|]. split; [exact G'|]. cbn [set_fb w_fb]. split; [exact Fo|]. split; congruence.
  - (* Resample *)
    destruct (w_app w) as [|k] eqn:A; [exact Stay|].
    assert (F : g_freed (w_fb w) = false) by (apply Alive; lia).
    destruct answer as [pitch|]; [|congruence].
    destruct (fb_map_ok w pitch G F K (nobody w ND)) as (g' & E1 & G' & Fo & F' & Ho & To & (n & Ha & Ad & Li) & _).
    rewrite E1. cbn [bind fst]. unfold fb_read, read_at. rewrite Ad, F', Li. cbn [existsb]. rewrite Nat.eqb_refl. cbn [orb bind].
    eexists. split; [reflexivity|]. split; [exact G'|]. cbn [set_fb w_fb]. split; [exact Fo|]. split; congruence.
Qed.
