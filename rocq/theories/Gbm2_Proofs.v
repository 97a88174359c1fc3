From Verif Require Import Common Pixels_Model Gbm_Model Gbm_Spec Gbm_Proofs.

(** * Executions *)

Lemma run_good : forall acts w, good w -> known (g_format (w_fb w)) -> Forall mappable acts -> undisturbed w acts ->
  (g_freed (w_fb w) = true -> g_live (w_fb w) = []) ->
  exists w', run w acts = Ok w' /\ good w' /\ g_format (w_fb w') = g_format (w_fb w) /\
    (g_freed (w_fb w') = true -> g_live (w_fb w') = []).
Proof.
  induction acts as [|a acts IH]; intros w G K M U L.
  - exists w. repeat split; try assumption; apply G.
  - inversion M as [|? ? M1 M2]; subst. destruct U as (U1 & U2).
    destruct (step_good a w G K M1 U1) as (w1 & E & G1 & F1 & _ & L1).
    cbn [run]. rewrite E. cbn [bind].
    destruct (IH w1 G1 ltac:(rewrite F1; exact K) M2 (U2 w1 E) (L1 L)) as (w' & E' & G' & F' & L').
    exists w'. repeat split; try assumption; try apply G'. congruence.
Qed.

Lemma run_app : forall l1 l2 w, run w (l1 ++ l2) = let* w := run w l1 in run w l2.
Proof.
  induction l1 as [|a l1 IH]; intros l2 w; [reflexivity|]. cbn [app run].
  destruct (step w a) as [w1|f]; cbn [bind]; [apply IH|reflexivity].
Qed.

Lemma undisturbed_app : forall l1 l2 w w', undisturbed w (l1 ++ l2) -> run w l1 = Ok w' ->
  undisturbed w l1 /\ undisturbed w' l2.
Proof.
  induction l1 as [|a l1 IH]; intros l2 w w' U E; cbn [app run undisturbed] in *.
  - injection E as <-. split; [exact I|exact U].
  - destruct U as (U1 & U2). destruct (step w a) as [w1|f] eqn:S1; cbn [bind] in E; [|discriminate].
    destruct (IH l2 w1 w' (U2 w1 eq_refl) E) as (A & B). split; [|exact B].
    split; [exact U1|]. intros w2 E2. injection E2 as <-. exact A.
Qed.

(** * Hardware encoders alone *)

Definition quiet (w : world) : Prop := forall p, In p (w_works w) -> p = Queued \/ p = Over.

Ltac stp E := repeat match type of E with
  | (let* _ := ?e in _) = Ok _ => destruct e eqn:?; cbn [bind] in E; [|discriminate]
  | Ok _ = Ok _ => injection E as <-
  end.

Lemma quiet_step : forall a w w', quiet w -> no_readers a -> step w a = Ok w' -> quiet w'.
Proof.
  intros a w w' Q NR E.
  assert (Same : forall i, nth_error (w_works w) i = None \/ nth_error (w_works w) i = Some Queued \/ nth_error (w_works w) i = Some Over).
  { intros i. destruct (nth_error (w_works w) i) as [p|] eqn:P; [|tauto].
    destruct (Q p (nth_error_In _ _ P)) as [->| ->]; tauto. }
  destruct a; cbn [step no_readers] in *; try contradiction;
    try (destruct (Same i) as [S1|[S1|S1]]; rewrite S1 in E);
    try (destruct (w_app w)); try (destruct (w_shown w)); try (destruct (w_v4l2 w));
    stp E; try exact Q.
  all: try (intros p P; cbn [w_works] in P; apply in_app_or in P as [P|[P|[]]]; [exact (Q p P)|left; congruence]).
  all: try (intros p P; cbn [set_work set_fb w_works] in P; apply set_phase_in in P as [->|P]; [right; reflexivity|exact (Q p P)]).
  all: match type of E with match ?x with _ => _ end = _ => destruct x; [|discriminate] end; stp E; exact Q.
Qed.

Lemma quiet_undisturbed : forall acts w, quiet w -> Forall no_readers acts -> undisturbed w acts.
Proof.
  induction acts as [|a acts IH]; intros w Q N; [exact I|]. inversion N as [|? ? N1 N2]; subst. cbn [undisturbed]. split.
  - destruct a; cbn [disturbs]; try tauto; intros (p & P & A); destruct (Q p P) as [->| ->]; cbn in A; tauto.
  - intros w' E. apply IH; [|assumption]. eapply quiet_step; eassumption.
Qed.

(** * Buffers fed while damage is refined *)

Definition ready (w : world) : Prop :=
  (0 < g_hold (w_fb w) -> g_handle (w_fb w) <> None) /\ w_v4l2 w = 0%nat /\
  (forall p, In p (w_works w) -> ~ about_to_map p).

Lemma ready_step : forall a w w', good w -> known (g_format (w_fb w)) -> mappable a -> ready w -> no_v4l2 a ->
  (a = Show -> g_handle (w_fb w) <> None) -> step w a = Ok w' -> ready w'.
Proof.
  intros a w w' G K MP (RH & RV & RN) NV SH E. pose proof G as (C & X & V & A1 & A2).
  pose proof C as (HC & RC & FC). pose proof (active_nonneg (w_works w)) as AN.
  destruct a; cbn [step no_v4l2 mappable] in *; try contradiction.
  - destruct (w_app w); stp E; [split; tauto|]. unfold fb_ref in *. destruct (g_freed (w_fb w)); [discriminate|].
    match goal with H : Ok _ = Ok _ |- _ => injection H as <- end. cbn. split; tauto.
  - destruct (w_app w) as [|k] eqn:A; stp E; [split; tauto|].
    match goal with H : fb_unref _ = Ok _ |- _ => rename H into EU end. unfold fb_unref in EU.
    destruct (g_freed (w_fb w)) eqn:F; [discriminate|]. cbn [set_counts g_ref] in EU.
    destruct (g_ref (w_fb w) - 1 =? 0) eqn:Z0.
    + apply Z.eqb_eq in Z0. rewrite (unmap_ok (set_counts (w_fb w) (g_ref (w_fb w) - 1) (g_hold (w_fb w))) X F) in EU.
      cbn [bind] in EU. injection EU as <-.
      split; [|split; [exact RV|exact RN]]. cbn [w_fb set_freed g_hold]. cbn. lia.
    + injection EU as <-. cbn. split; tauto.
  - destruct (w_app w) as [|k] eqn:A; stp E; [split; tauto|].
    assert (F : g_freed (w_fb w) = false) by (apply not_freed; [assumption|lia]).
    match goal with H : keep _ = Ok _ |- _ => rewrite keep_ok in H by exact F; injection H as <- end.
    split; [intros _; exact (SH eq_refl)|]. split; [exact RV|exact RN].
  - destruct (w_shown w) as [|k] eqn:A; stp E; [split; tauto|].
    assert (F : g_freed (w_fb w) = false) by (apply not_freed; [assumption|lia]).
    destruct (drop_good w (w_works w) k (w_v4l2 w) G F) as (g & E1 & _ & _ & Ho & _ & _ & H2); [lia|tauto|tauto|tauto|].
    match goal with H : drop _ = Ok _ |- _ => rewrite E1 in H; injection H as <- end.
    split; [|split; [exact RV|exact RN]]. cbn [w_fb]. intros P. destruct H2 as (-> & _); [lia|]. apply RH. lia.
  - destruct (w_shown w) as [|k] eqn:A; stp E; [split; tauto|].
    assert (F : g_freed (w_fb w) = false) by (apply not_freed; [assumption|lia]).
    match goal with H : keep _ = Ok _ |- _ => rewrite keep_ok in H by exact F; injection H as <- end.
    split; [|split; [exact RV|]].
    + cbn. intros _. apply RH. lia.
    + cbn [w_works]. intros p P. apply in_app_or in P as [P|[<-|[]]]; [exact (RN p P)|intros []].
  - destruct (nth_error (w_works w) i) as [[| | | | |]|] eqn:N; stp E; try (split; tauto).
    rewrite (work_counts _ _ _ G N ltac:(discriminate)) in E. injection E as <-.
    split; [exact RH|]. split; [exact RV|]. cbn [set_work w_works]. intros p P. apply set_phase_in in P as [->|P]; [|exact (RN p P)].
    pose proof (active_in _ _ (nth_error_In _ _ N) ltac:(discriminate)).
    unfold is_mapped. destruct (g_handle (w_fb w)); [intros []|]. exfalso. apply RH; [lia|reflexivity].
  - destruct (nth_error (w_works w) i) as [[| | | | |]|] eqn:N; stp E; try (split; tauto).
    exfalso. exact (RN _ (nth_error_In _ _ N) I).
  - destruct (nth_error (w_works w) i) as [[| |r| | |]|] eqn:N; stp E; try (split; tauto).
    exfalso. exact (RN _ (nth_error_In _ _ N) I).
  - assert (D : (if g_freed (w_fb w) then Fault UseAfterFree
                 else Ok (set_work w i (InBox (g_addr (w_fb w)) (g_stride (w_fb w))))) = Ok w' -> ready w').
    { destruct (g_freed (w_fb w)); [discriminate|]. intros E'. injection E' as <-. split; [exact RH|]. split; [exact RV|].
      cbn [set_work w_works]. intros p P. apply set_phase_in in P as [->|P]; [intros []|exact (RN p P)]. }
    destruct (nth_error (w_works w) i) as [[| | | | |]|] eqn:N; try exact (D E); injection E as <-; split; tauto.
  - destruct (nth_error (w_works w) i) as [[| | | | |]|] eqn:N; stp E; split; tauto.
  - assert (D : forall p, nth_error (w_works w) i = Some p -> p <> Over -> weight p = 1 -> ~ about_to_map p ->
      (let* g := drop (w_fb w) in Ok (set_work (set_fb w g) i Over)) = Ok w' -> ready w').
    { intros p N NO W NP E'. pose proof (work_counts _ _ _ G N NO) as F.
      destruct (drop_good w (set_phase (w_works w) i Over) (w_shown w) (w_v4l2 w) G F) as (g & E1 & _ & G1 & Ho & _ & _ & H2).
      - rewrite (active_set _ _ _ Over N), W. cbn [weight]. lia.
      - intros q Q. apply set_phase_in in Q. exact Q.
      - intros j q Q. apply set_phase_nth in Q as [[_ ->]|[_ Q]]; [left; reflexivity|right; assumption].
      - intros q Q Aq. exfalso. exact (RN q Q Aq).
      - rewrite E1 in E'. cbn [bind] in E'. injection E' as <-. split; [|split; [exact RV|]].
        + cbn [set_work set_fb w_fb]. intros P. destruct H2 as (-> & _); [lia|]. apply RH.
          pose proof (active_in _ _ (nth_error_In _ _ N) NO). lia.
        + cbn [set_work set_fb w_works]. intros q Q. apply set_phase_in in Q as [->|Q]; [intros []|exact (RN q Q)]. }
    destruct (nth_error (w_works w) i) as [[| | | | |]|] eqn:N; try (injection E as <-; split; tauto);
      (eapply D; [reflexivity|discriminate|reflexivity|intros []|exact E]).
  - destruct (w_app w) as [|k] eqn:A; stp E; [split; tauto|].
    assert (F : g_freed (w_fb w) = false) by (apply not_freed; [assumption|lia]).
    destruct answer as [pitch|]; [|congruence].
    destruct (fb_map_ok w pitch G F K RN) as (g' & E1 & _ & _ & _ & Ho & _ & (n & Ha & _) & _).
    match goal with H : fb_map _ _ = Ok _ |- _ => rewrite E1 in H; injection H as <- end.
    split; [|split; [exact RV|exact RN]]. cbn [set_fb w_fb fst]. congruence.
  - destruct (w_app w) as [|k] eqn:A; stp E; [split; tauto|].
    assert (F : g_freed (w_fb w) = false) by (apply not_freed; [assumption|lia]).
    destruct answer as [pitch|]; [|congruence].
    destruct (fb_map_ok w pitch G F K RN) as (g' & E1 & _ & _ & _ & Ho & _ & (n & Ha & Ad & _) & _).
    match goal with H : fb_map _ _ = Ok _ |- _ => rewrite E1 in H; injection H as <- end.
    cbn [fst] in E. rewrite Ad in E. stp E.
    split; [|split; [exact RV|exact RN]]. cbn [set_fb w_fb fst]. congruence.
Qed.

Lemma ready_undisturbed : forall acts, fed_refined acts -> forall w, good w -> known (g_format (w_fb w)) ->
  Forall mappable acts -> Forall no_v4l2 acts -> ready w -> undisturbed w acts.
Proof.
  assert (ND : forall a w, ready w -> no_v4l2 a -> ~ disturbs w a).
  { intros a w (_ & _ & RN) NV. destruct a; cbn in *; try tauto; intros (p & P & A); exact (RN p P A). }
  intros acts FR. induction FR as [|answer x y l FR IH|a l NS FR IH]; intros w G K M NV R; [exact I| |].
  - inversion M as [|? ? M1 M2]; subst. inversion M2 as [|? ? M3 M4]; subst.
    inversion NV as [|? ? N1 N2]; subst. inversion N2 as [|? ? N3 N4]; subst.
    cbn [undisturbed]. split; [apply ND; assumption|]. intros w1 E1. split; [cbn; tauto|].
    destruct (step_good _ w G K M1 (ND _ _ R N1)) as (w1' & E1' & G1 & F1 & _).
    rewrite E1 in E1'. injection E1' as <-.
    assert (R1 : ready w1) by (eapply ready_step; [exact G|exact K|exact M1|exact R|exact N1|discriminate|exact E1]).
    intros w2 E2. destruct (w_app w1) as [|k] eqn:A.
    { cbn [step] in E2. rewrite A in E2. injection E2 as <-. apply IH; try assumption. rewrite F1. exact K. }
    assert (K1 : known (g_format (w_fb w1))) by (rewrite F1; exact K).
    destruct (step_good Show w1 G1 K1 M3 ltac:(cbn; tauto)) as (w2' & E2' & G2 & F2 & _).
    rewrite E2 in E2'. injection E2' as <-.
    apply IH; try assumption; [congruence|].
    eapply ready_step; [exact G1|exact K1|exact M3|exact R1|exact N3| |exact E2].
    intros _. cbn [step] in E1.
    assert (AW : w_app w = w_app w1).
    { destruct (w_app w) as [|j] eqn:A0; stp E1; [congruence|]. cbn. congruence. }
    rewrite A in AW. rewrite AW in E1. stp E1. cbn [set_fb w_fb].
    match goal with H : fb_map _ _ = Ok ?r |- _ => rename H into EM end.
    assert (F : g_freed (w_fb w) = false) by (apply not_freed; [apply G|]; pose proof G as ((HC & _) & _); pose proof (active_nonneg (w_works w)); lia).
    destruct answer as [pitch|]; [|cbn in M1; congruence].
    destruct (fb_map_ok w pitch G F K (proj2 (proj2 R))) as (g' & E3 & _ & _ & _ & _ & _ & (n & Ha & _) & _).
    rewrite E3 in EM. injection EM as <-. cbn [fst]. congruence.
  - inversion M as [|? ? M1 M2]; subst. inversion NV as [|? ? N1 N2]; subst.
    cbn [undisturbed]. split; [apply ND; assumption|]. intros w1 E1.
    destruct (step_good _ w G K M1 (ND _ _ R N1)) as (w1' & E1' & G1 & F1 & _).
    rewrite E1 in E1'. injection E1' as <-.
    apply IH; try assumption; [congruence|].
    eapply ready_step; [exact G|exact K|exact M1|exact R|exact N1|congruence|exact E1].
Qed.

(** * Where pixels are *)

Definition strided (pitch : Z) (w : world) : Prop :=
  let s := to_signed 32 (pitch / pixel_size (w_fb w)) in
  (forall p, In p (w_works w) -> match p with Storing r => exists n, r = Some (n, pitch) | InBox _ st => st = s | _ => True end) /\
  (g_handle (w_fb w) <> None -> (forall p, In p (w_works w) -> ~ about_to_map p) -> g_stride (w_fb w) = s).

Lemma strided_same : forall pitch w g works v shown app, strided pitch w ->
  g_format g = g_format (w_fb w) ->
  (g_handle g <> None -> g_handle g = g_handle (w_fb w) /\ g_stride g = g_stride (w_fb w)) ->
  (forall p, In p works -> p = Over \/ p = Queued \/ In p (w_works w)) ->
  (forall p, In p (w_works w) -> about_to_map p -> In p works) ->
  strided pitch (mk_w g works v shown app).
Proof.
  intros pitch w g works v shown app (S1 & S2) F H I1 I2. unfold strided, pixel_size in *. cbn [w_fb w_works]. rewrite F.
  split.
  - intros p P. destruct (I1 p P) as [->|[->|P']]; [exact I|exact I|exact (S1 p P')].
  - intros HN NA. destruct (H HN) as (E1 & E2). rewrite E2. apply S2; [congruence|].
    intros p P A. exact (NA p (I2 p P A) A).
Qed.

Lemma strided_mapped : forall pitch w g' v app, good w -> strided pitch w ->
  g_format g' = g_format (w_fb w) -> (forall p, In p (w_works w) -> ~ about_to_map p) ->
  (g_handle (w_fb w) = None -> g_stride g' = to_signed 32 (pitch / pixel_size (w_fb w))) ->
  (g_handle (w_fb w) <> None -> g' = w_fb w) ->
  strided pitch (mk_w g' (w_works w) v (w_shown w) app).
Proof.
  intros pitch w g' v app G (S1 & S2) F NA H1 H2. unfold strided, pixel_size in *. cbn [w_fb w_works]. rewrite F.
  split; [exact S1|]. intros _ _. destruct (g_handle (w_fb w)) as [n|] eqn:E; [|apply H1; reflexivity].
  rewrite H2 by discriminate. apply S2; [discriminate|exact NA].
Qed.

Lemma strided_step : forall a pitch w w', good w -> known (g_format (w_fb w)) -> pitched pitch a -> ~ disturbs w a ->
  strided pitch w -> step w a = Ok w' -> strided pitch w'.
Proof.
  intros a pitch w w' G K MP ND St E. pose proof G as (C & X & V & A1 & A2).
  pose proof C as (HC & RC & FC). pose proof (active_nonneg (w_works w)) as AN. pose proof St as (S1 & S2).
  destruct a; cbn [step pitched disturbs] in *.
  - destruct (w_app w); stp E; [exact St|]. unfold fb_ref in *. destruct (g_freed (w_fb w)); [discriminate|].
    match goal with H : Ok _ = Ok _ |- _ => injection H as <- end. eapply strided_same; [exact St|reflexivity|cbn; tauto|tauto|tauto].
  - destruct (w_app w) as [|k] eqn:A; stp E; [exact St|].
    match goal with H : fb_unref _ = Ok _ |- _ => rename H into EU end. unfold fb_unref in EU.
    destruct (g_freed (w_fb w)) eqn:F; [discriminate|]. cbn [set_counts g_ref] in EU.
    destruct (g_ref (w_fb w) - 1 =? 0) eqn:Z0.
    + rewrite (unmap_ok (set_counts (w_fb w) (g_ref (w_fb w) - 1) (g_hold (w_fb w))) X F) in EU.
      cbn [bind] in EU. injection EU as <-. eapply strided_same; [exact St|reflexivity|cbn; congruence|tauto|tauto].
    + injection EU as <-. eapply strided_same; [exact St|reflexivity|cbn; tauto|tauto|tauto].
  - destruct (w_app w) as [|k] eqn:A; stp E; [exact St|].
    assert (F : g_freed (w_fb w) = false) by (apply not_freed; [assumption|lia]).
    match goal with H : keep _ = Ok _ |- _ => rewrite keep_ok in H by exact F; injection H as <- end.
    eapply strided_same; [exact St|reflexivity|cbn; tauto|tauto|tauto].
  - destruct (w_shown w) as [|k] eqn:A; stp E; [exact St|].
    assert (F : g_freed (w_fb w) = false) by (apply not_freed; [assumption|lia]).
    destruct (drop_good w (w_works w) k (w_v4l2 w) G F) as (g & E1 & Fo & _ & Ho & _ & H0 & H2); [lia|tauto|tauto|tauto|].
    match goal with H : drop _ = Ok _ |- _ => rewrite E1 in H; injection H as <- end.
    eapply strided_same; [exact St|exact Fo| |tauto|tauto].
    intros HN. destruct (Z.eq_dec (g_hold g) 0) as [Z0|Z0]; [rewrite (H0 Z0) in HN; congruence|]. destruct (H2 Z0) as (? & ? & ?). tauto.
  - destruct (w_shown w) as [|k] eqn:A; stp E; [exact St|].
    assert (F : g_freed (w_fb w) = false) by (apply not_freed; [assumption|lia]).
    match goal with H : keep _ = Ok _ |- _ => rewrite keep_ok in H by exact F; injection H as <- end.
    eapply strided_same; [exact St|reflexivity|cbn; tauto| |].
    + intros p P. apply in_app_or in P as [P|[P|[]]]; [tauto|right; left; congruence].
    + intros p P _. apply in_or_app. left. exact P.
  - destruct (nth_error (w_works w) i) as [[| | | | |]|] eqn:N; stp E; try exact St.
    rewrite (work_counts _ _ _ G N ltac:(discriminate)) in E. injection E as <-.
    split; cbn [set_work w_works w_fb].
    + intros p P. apply set_phase_in in P as [->|P]; [destruct (is_mapped (w_fb w)); exact I|exact (S1 p P)].
    + intros HN _. apply S2; [exact HN|exact (nobody w ND)].
  - destruct (nth_error (w_works w) i) as [[| | | | |]|] eqn:N; stp E; try exact St.
    rewrite (work_counts _ _ _ G N ltac:(discriminate)) in E. subst answer. cbn [map_call] in E. injection E as <-.
    split; cbn [set_work set_fb w_works w_fb g_handle g_stride]; unfold pixel_size in *; cbn [g_format].
    + intros p P. apply set_phase_in in P as [->|P]; [eauto|exact (S1 p P)].
    + intros _ NA. exfalso.
      apply (NA (Storing (Some (g_made (w_fb w), pitch)))); [|exact I].
      clear - N. revert i N. induction (w_works w) as [|x l IH]; intros [|i] N; cbn in *; try discriminate; eauto.
  - destruct (nth_error (w_works w) i) as [[| |r| | |]|] eqn:N; stp E; try exact St.
    rewrite (work_counts _ _ _ G N ltac:(discriminate)) in E.
    destruct (S1 _ (nth_error_In _ _ N)) as (n & ->).
    unfold map_store, pixel_size in E. rewrite (proj2 (Z.eqb_neq _ _) K) in E. cbn [bind snd fst] in E. injection E as <-.
    split; cbn [set_work set_fb w_works w_fb g_handle g_stride]; unfold pixel_size in *; cbn [g_format].
    + intros p P. apply set_phase_in in P as [->|P]; [exact I|exact (S1 p P)].
    + reflexivity.
  - assert (D : forall p, nth_error (w_works w) i = Some p -> g_handle (w_fb w) <> None -> g_addr (w_fb w) = g_handle (w_fb w) ->
      (if g_freed (w_fb w) then Fault UseAfterFree
                 else Ok (set_work w i (InBox (g_addr (w_fb w)) (g_stride (w_fb w))))) = Ok w' -> strided pitch w').
    { intros p N HN HA E'. rewrite (not_freed w C) in E'.
      2:{ destruct (g_freed (w_fb w)) eqn:F; [discriminate|]. assert (g_ref (w_fb w) <> 0) by (intros Z0; apply FC in Z0; congruence). lia. }
      injection E' as <-.
      assert (NA : forall q, In q (w_works w) -> ~ about_to_map q).
      { intros q Q Aq. specialize (V q Q). destruct q; try exact Aq; cbn [serves] in V.
        - destruct V; congruence.
        - destruct V as (m & t & _ & V1 & V2). congruence. }
      split; cbn [set_work w_works w_fb].
      - intros q Q. apply set_phase_in in Q as [->|Q]; [apply S2; assumption|exact (S1 q Q)].
      - intros _ _. apply S2; assumption. }
    destruct (nth_error (w_works w) i) as [[| | | | |]|] eqn:N; try (injection E as <-; exact St);
      pose proof (V _ (nth_error_In _ _ N)) as VV; cbn in VV; (eapply D; [reflexivity| | |exact E]); tauto.
  - destruct (nth_error (w_works w) i) as [[| | | | |]|] eqn:N; stp E; exact St.
  - assert (D : forall p, nth_error (w_works w) i = Some p -> p <> Over -> weight p = 1 -> ~ about_to_map p ->
      (let* g := drop (w_fb w) in Ok (set_work (set_fb w g) i Over)) = Ok w' -> strided pitch w').
    { intros p N NO W NP E'. pose proof (work_counts _ _ _ G N NO) as F.
      assert (I3 : forall q, In q (w_works w) -> about_to_map q -> In q (set_phase (w_works w) i Over)).
      { intros q Q Aq. apply In_nth_error in Q as (j & Hj).
        apply nth_error_In with j. rewrite set_phase_other; [assumption|]. intros ->. congruence. }
      destruct (drop_good w (set_phase (w_works w) i Over) (w_shown w) (w_v4l2 w) G F) as (g & E1 & Fo & G1 & Ho & _ & H0 & H2).
      - rewrite (active_set _ _ _ Over N), W. cbn [weight]. lia.
      - intros q Q. apply set_phase_in in Q. exact Q.
      - intros j q Q. apply set_phase_nth in Q as [[_ ->]|[_ Q]]; [left; reflexivity|right; assumption].
      - exact I3.
      - rewrite E1 in E'. cbn [bind] in E'. injection E' as <-.
        eapply strided_same; [exact St|exact Fo| |intros q Q; apply set_phase_in in Q; tauto|exact I3].
        intros HN. destruct (Z.eq_dec (g_hold g) 0) as [Z0|Z0]; [exfalso; apply HN; exact (H0 Z0)|].
        destruct (H2 Z0) as (? & ? & ?). tauto. }
    destruct (nth_error (w_works w) i) as [[| | | | |]|] eqn:N; try (injection E as <-; exact St);
      (eapply D; [reflexivity|discriminate|reflexivity|intros []|exact E]).
  - destruct (w_shown w) as [|k] eqn:A; stp E; [exact St|].
    assert (F : g_freed (w_fb w) = false) by (apply not_freed; [assumption|lia]).
    destruct (keep_good w (w_shown w) (S (w_v4l2 w)) false G F) as (g & E1 & Eg & G'); [lia|].
    match goal with H : keep _ = Ok _ |- _ => rewrite E1 in H; injection H as <- end.
    subst answer. 
    assert (F1 : g_freed g = false) by (rewrite Eg; exact F).
    assert (K1 : g_format g = g_format (w_fb w)) by (rewrite Eg; reflexivity).
    destruct (fb_map_ok _ pitch G') as (g' & E2 & G2 & Fo & F2 & Ho & To & _ & H1 & H2).
    { exact F1. } { cbn [w_fb]. rewrite K1. exact K. } { exact (nobody w ND). }
    cbn [w_fb] in *. match goal with H : fb_map _ _ = Ok _ |- _ => rewrite E2 in H; injection H as <- end.
    cbn [fst]. rewrite <- A.
    apply (strided_mapped pitch (mk_w g (w_works w) (S (w_v4l2 w)) (w_shown w) (w_app w))); cbn [w_fb w_works]; try assumption.
    + eapply strided_same; [exact St|exact K1| |tauto|tauto]. rewrite Eg. cbn. tauto.
    + exact (nobody w ND).
  - destruct (w_v4l2 w) as [|k] eqn:A; stp E; [exact St|].
    assert (F : g_freed (w_fb w) = false) by (apply not_freed; [assumption|lia]).
    match goal with H : fb_unmap _ = Ok _ |- _ => rewrite (unmap_ok _ X F) in H; injection H as <- end.
    match goal with H : drop ?x = Ok ?y |- _ => rename H into ED; assert (HH : g_handle y = None /\ g_format y = g_format (w_fb w)) end.
    { unfold drop, fb_release in ED. cbn [g_freed set_counts g_hold] in ED.
      destruct (g_hold (w_fb w) - 1 =? 0).
      - rewrite unmap_ok in ED by reflexivity. cbn [bind] in ED. unfold fb_unref in ED. cbn [g_freed tell set_counts g_ref] in ED.
        destruct (g_ref (w_fb w) - 1 =? 0); [rewrite unmap_ok in ED by reflexivity|]; cbn [bind] in ED; injection ED as <-; split; reflexivity.
      - cbn [bind] in ED. unfold fb_unref in ED. cbn [g_freed tell set_counts g_ref] in ED.
        destruct (g_ref (w_fb w) - 1 =? 0); [rewrite unmap_ok in ED by reflexivity|]; cbn [bind] in ED; injection ED as <-; split; reflexivity. }
    destruct HH as (HH & FF). eapply strided_same; [exact St|exact FF|congruence|tauto|tauto].
  - destruct (w_app w) as [|k] eqn:A; stp E; [exact St|].
    assert (F : g_freed (w_fb w) = false) by (apply not_freed; [assumption|lia]). subst answer.
    destruct (fb_map_ok w pitch G F K (nobody w ND)) as (g' & E1 & _ & Fo & _ & Ho & _ & _ & H1 & H2).
    match goal with H : fb_map _ _ = Ok _ |- _ => rewrite E1 in H; injection H as <- end.
    apply strided_mapped; try assumption. exact (nobody w ND).
  - destruct (w_app w) as [|k] eqn:A; stp E; [exact St|].
    assert (F : g_freed (w_fb w) = false) by (apply not_freed; [assumption|lia]). subst answer.
    destruct (fb_map_ok w pitch G F K (nobody w ND)) as (g' & E1 & _ & Fo & _ & Ho & _ & (n & _ & Ad & _) & H1 & H2).
    match goal with H : fb_map _ _ = Ok _ |- _ => rewrite E1 in H; injection H as <- end.
    cbn [fst] in E. rewrite Ad in E. stp E. apply strided_mapped; try assumption. exact (nobody w ND).
Qed.
