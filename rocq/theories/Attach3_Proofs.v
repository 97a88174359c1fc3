(** Proofs for Attach3_Props. *)
From Verif Require Import Common CommonProofs Attach_Model Attach_Spec Attach_Proofs Attach3_Spec.

(* the server of a display in a world; none if there is no such display *)
Definition server_of (d : nat) (w : world) : option nat :=
  match nth_error (w_displays w) d with Some x => d_server x | None => None end.

Lemma server_of_put d d' x y w : nth_error (w_displays w) d' = Some x -> d_server y = d_server x ->
  server_of d (put_display d' y w) = server_of d w.
Proof.
  intros X Y. unfold server_of, put_display. cbn [w_displays]. destruct (Nat.eq_dec d' d) as [->|N].
  - rewrite (set_nth_same _ _ _ _ X), X. exact Y.
  - now rewrite set_nth_other.
Qed.
Lemma server_of_displays d w w' : w_displays w' = w_displays w -> server_of d w' = server_of d w.
Proof. unfold server_of. now intros ->. Qed.
Lemma unref_server d d' w w' : display_unref d' w = Ok w' -> server_of d w' = server_of d w /\ w_servers w' = w_servers w.
Proof.
  intros H. apply unref_inv in H as (x & G & ->). apply get_display_ok in G as [X _]. split; [|reflexivity].
  apply (server_of_put d d' x); [exact X|]. destruct (d_ref x - 1 =? 0); reflexivity.
Qed.
Lemma count_app_server d d' f w : server_of d (count_app d' f w) = server_of d w.
Proof.
  unfold count_app. destruct (nth_error (w_displays w) d') as [x|] eqn:X; [|reflexivity].
  now apply (server_of_put d d' x).
Qed.
Lemma connects_displays n s w w' : connects n s w = Ok w' -> w_displays w' = w_displays w.
Proof.
  revert w. induction n as [|n IH]; intros w H; cbn [connects] in H; [now injection H as <-|].
  apply bind_inv in H as (w1 & H1 & H). apply connect_inv in H1 as (v & l & _ & ->). now rewrite (IH _ H).
Qed.
Lemma damage_shape s w w' : damage_region s w = Ok w' -> exists v l, get_server s w = Ok v /\
  w' = put_server s (mk_server false (s_display v) l) w.
Proof.
  intros H. unfold damage_region in H. apply bind_inv in H as (v & G & H). apply bind_inv in H as (l & _ & H).
  injection H as <-. eauto.
Qed.
Lemma on_client_shape s i f w w' : on_client s i f w = Ok w' -> w' = w \/ exists v l, get_server s w = Ok v /\
  w' = put_server s (mk_server false (s_display v) l) w.
Proof.
  intros H. unfold on_client in H. apply bind_inv in H as (v & G & H).
  destruct (nth_error (s_clients v) i) as [c|]; [|injection H as <-; auto].
  apply bind_inv in H as (c' & _ & H). injection H as <-. right. eauto.
Qed.

Lemma step_server d a w w' : step a w = Ok w' ->
  server_of d w' = match a with Add s d' => if Nat.eqb d d' then Some s else server_of d w | _ => server_of d w end.
Proof.
  intros H. destruct a as [| |d0|d0|s d0|s d0|d0 n|s n|s|s i full|s i|s i]; cbn [step] in H.
  - injection H as <-. reflexivity.
  - injection H as <-. unfold server_of. cbn [w_displays]. destruct (Nat.lt_ge_cases d (length (w_displays w))) as [L|L].
    + now rewrite nth_error_app1.
    + rewrite nth_error_app2 by exact L. assert (nth_error (w_displays w) d = None) as -> by now apply nth_error_None.
      destruct (d - length (w_displays w))%nat as [|k]; [reflexivity|destruct k; reflexivity].
  - apply bind_inv in H as (w1 & R & H). injection H as <-. rewrite count_app_server.
    unfold display_ref in R. apply bind_inv in R as (x & G & R). injection R as <-. apply get_display_ok in G as [X _].
    now apply (server_of_put d d0 x).
  - apply bind_inv in H as (w1 & R & H). injection H as <-. rewrite count_app_server. exact (proj1 (unref_server d d0 w w1 R)).
  - unfold add_display in H. apply bind_inv in H as (v & G & H). destruct (s_display v); [discriminate|].
    apply bind_inv in H as (x & X & H). apply get_display_ok in X as [X _].
    unfold display_ref in H. apply bind_inv in H as (x1 & X1 & H). injection H as <-. apply get_display_ok in X1 as [X1 _].
    rewrite (server_of_put d d0 x1) by (try exact X1; reflexivity). unfold server_of. cbn [w_displays put_server put_display].
    destruct (Nat.eqb_spec d d0) as [->|N].
    + now rewrite (set_nth_same _ _ _ _ X).
    + rewrite set_nth_other by congruence. reflexivity.
  - unfold remove_display in H. apply bind_inv in H as (v & G & H). destruct (s_display v) as [d'|]; [|now injection H as <-].
    destruct (negb (Nat.eqb d' d0)); [now injection H as <-|]. apply bind_inv in H as (w1 & U & H). injection H as <-.
    rewrite (server_of_displays d w1) by reflexivity. exact (proj1 (unref_server d d0 w w1 U)).
  - unfold feed in H. apply bind_inv in H as (x & G & H). destruct (d_server x) as [s|] eqn:D; [|discriminate].
    apply bind_inv in H as (v & _ & H). apply damage_shape in H as (v' & l & _ & ->). apply get_display_ok in G as [X _].
    rewrite (server_of_displays d (put_display d0 (mk_display (d_ref x) false (Some s) (Some n) (d_app x)) w)) by reflexivity.
    now apply (server_of_put d d0 x).
  - unfold del in H. apply bind_inv in H as (v & G & H). apply bind_inv in H as (w1 & U & H). apply bind_inv in H as (w2 & C & H).
    injection H as <-. rewrite (server_of_displays d w1).
    + destruct (s_display v) as [d'|]; [exact (proj1 (unref_server d d' w w1 U))|now injection U as <-].
    + cbn [put_server w_displays]. destruct (existsb c_busy (s_clients v)); [exact (connects_displays n s _ w2 C)|now injection C as <-].
  - apply connect_inv in H as (v & l & _ & ->). reflexivity.
  - apply on_client_shape in H as [->|(v & l & _ & ->)]; reflexivity.
  - apply on_client_shape in H as [->|(v & l & _ & ->)]; reflexivity.
  - apply on_client_shape in H as [->|(v & l & _ & ->)]; reflexivity.
Qed.

Lemma run_app l m w : run (l ++ m) w = let* w := run l w in run m w.
Proof.
  revert w. induction l as [|a l IH]; intros w; cbn [run app bind]; [reflexivity|].
  destruct (step a w) as [w1|e]; cbn [bind]; [apply IH|reflexivity].
Qed.

Lemma run_server d l w w' : run l w = Ok w' ->
  server_of d w' = fold_left (fun m a => match a with Add s d' => if Nat.eqb d d' then Some s else m | _ => m end) l (server_of d w).
Proof.
  revert w. induction l as [|a l IH]; intros w H; cbn [run] in H; [now injection H as <-|].
  apply bind_inv in H as (w1 & H1 & H). cbn [fold_left]. rewrite (IH w1 H), (step_server d a w w1 H1). reflexivity.
Qed.

Lemma get_server_last d l w r : run l world0 = Ok w -> display_get_server d w = Ok r -> r = last_added d l.
Proof.
  intros H G. unfold display_get_server in G. apply bind_inv in G as (x & X & G). injection G as <-.
  apply get_display_ok in X as [X _]. pose proof (run_server d l world0 w H) as R. unfold server_of in R at 1. rewrite X in R.
  rewrite R. unfold last_added. f_equal. unfold server_of. cbn. now destruct d.
Qed.

(* a display stays on its server *)
Lemma put_displayed s d s0 v l w : displayed_by s d w -> get_server s0 w = Ok v ->
  displayed_by s d (put_server s0 (mk_server false (s_display v) l) w).
Proof.
  intros (u & E & F & D) G. apply get_server_ok in G as [E0 F0]. unfold displayed_by. cbn [put_server w_servers].
  destruct (Nat.eq_dec s0 s) as [->|N].
  - assert (v = u) by congruence. subst u. rewrite (set_nth_same _ _ _ _ E). eexists. split; [reflexivity|]. split; [reflexivity|exact D].
  - rewrite set_nth_other by exact N. eauto.
Qed.
Lemma same_displayed s d w w' : w_servers w' = w_servers w -> displayed_by s d w -> displayed_by s d w'.
Proof. intros E (v & H). exists v. now rewrite E. Qed.

Lemma step_stays s d a w w' : step a w = Ok w' -> displayed_by s d w -> stays s d a -> displayed_by s d w'.
Proof.
  intros H B (NA & NR & ND). destruct a as [| |d0|d0|s0 d0|s0 d0|d0 n|s0 n|s0|s0 i full|s0 i|s0 i]; cbn [step] in H.
  - injection H as <-. destruct B as (v & E & F & D). exists v. cbn. rewrite nth_error_app1; [auto|]. apply nth_error_Some. congruence.
  - injection H as <-. exact (same_displayed _ _ _ _ eq_refl B).
  - apply bind_inv in H as (w1 & R & H). injection H as <-. unfold display_ref in R. apply bind_inv in R as (x & G & R). injection R as <-.
    refine (same_displayed _ _ _ _ _ B). unfold count_app. destruct (nth_error _ d0); reflexivity.
  - apply bind_inv in H as (w1 & R & H). injection H as <-. apply (unref_server d) in R as [_ R].
    refine (same_displayed _ _ _ _ _ B). unfold count_app. destruct (nth_error _ d0); cbn; exact R.
  - unfold add_display in H. apply bind_inv in H as (v & G & H). destruct (s_display v) eqn:D; [discriminate|].
    apply bind_inv in H as (x & X & H). unfold display_ref in H. apply bind_inv in H as (x1 & X1 & H). injection H as <-.
    destruct B as (u & E & F & DU). apply get_server_ok in G as [E0 F0]. exists u. cbn [put_display put_server w_servers].
    rewrite set_nth_other; [auto|]. intros ->. congruence.
  - unfold remove_display in H. apply bind_inv in H as (v & G & H). destruct (s_display v) as [d'|] eqn:D; [|now injection H as <-].
    destruct (Nat.eqb_spec d' d0) as [->|N]; cbn [negb] in H; [|now injection H as <-].
    apply bind_inv in H as (w1 & U & H). injection H as <-. apply (unref_server d) in U as [_ U].
    destruct B as (u & E & F & DU). apply get_server_ok in G as [E0 F0]. exists u. cbn [put_server w_servers]. rewrite U, set_nth_other; [auto|].
    intros ->. apply NR. congruence.
  - unfold feed in H. apply bind_inv in H as (x & G & H). destruct (d_server x) as [s1|]; [|discriminate].
    apply bind_inv in H as (v & _ & H). apply damage_shape in H as (v' & l & G' & ->). apply put_displayed; [|exact G'].
    exact (same_displayed _ _ _ _ eq_refl B).
  - unfold del in H. apply bind_inv in H as (v & G & H). apply bind_inv in H as (w1 & U & H). apply bind_inv in H as (w2 & C & H).
    injection H as <-. assert (N : s0 <> s) by (intros ->; exact (ND n eq_refl)).
    assert (S1 : w_servers w1 = w_servers w).
    { destruct (s_display v) as [d'|]; [exact (proj2 (unref_server d d' w w1 U))|now injection U as <-]. }
    apply get_server_ok in G as [E0 F0]. destruct B as (u & E & F & D). exists u. cbn [put_server w_servers]. rewrite set_nth_other by exact N.
    destruct (existsb c_busy (s_clients v)).
    + eapply connects_inv in C as [l ->]; [|cbn [put_server w_servers]; rewrite S1; apply (set_nth_same _ _ _ _ E0)|reflexivity].
      cbn [put_server w_servers]. rewrite !set_nth_other by exact N. rewrite S1. auto.
    + injection C as <-. cbn [put_server w_servers]. rewrite set_nth_other by exact N. rewrite S1. auto.
  - apply connect_inv in H as (v & l & G & ->). now apply put_displayed.
  - apply on_client_shape in H as [->|(v & l & G & ->)]; [exact B|now apply put_displayed].
  - apply on_client_shape in H as [->|(v & l & G & ->)]; [exact B|now apply put_displayed].
  - apply on_client_shape in H as [->|(v & l & G & ->)]; [exact B|now apply put_displayed].
Qed.

Lemma run_stays s d m w w' : run m w = Ok w' -> displayed_by s d w -> Forall (stays s d) m -> displayed_by s d w'.
Proof.
  revert w. induction m as [|a m IH]; intros w H B F; cbn [run] in H; [now injection H as <-|].
  apply bind_inv in H as (w1 & H1 & H). inversion F as [|? ? Fa Fm]; subst. apply (IH w1 H); [|exact Fm]. exact (step_stays s d a w w1 H1 B Fa).
Qed.

Lemma add_displays s d w w' : add_display s d w = Ok w' -> displayed_by s d w'.
Proof.
  intros H. unfold add_display in H. apply bind_inv in H as (v & G & H). destruct (s_display v); [discriminate|].
  apply bind_inv in H as (x & X & H). unfold display_ref in H. apply bind_inv in H as (x1 & X1 & H). injection H as <-.
  apply get_server_ok in G as [E _]. eexists. cbn [put_display put_server w_servers]. rewrite (set_nth_same _ _ _ _ E). auto.
Qed.

Lemma last_stays s d l m : Forall (stays s d) m -> last_added d (l ++ Add s d :: m) = Some s.
Proof.
  intros F. unfold last_added. rewrite fold_left_app. cbn [fold_left]. rewrite Nat.eqb_refl. generalize (Some s) as r.
  induction F as [|a m Fa Fm IH]; intros r; cbn [fold_left]; [reflexivity|]. rewrite IH. destruct a as [| | | |s' d'| | | | | | |]; try reflexivity.
  destruct (Nat.eqb_spec d d') as [->|_]; [|reflexivity]. destruct Fa as [N _]. now destruct (N s').
Qed.

Lemma stays_get_server l s d m w : obeys (l ++ Add s d :: m) world0 -> run (l ++ Add s d :: m) world0 = Ok w -> Forall (stays s d) m ->
  display_get_server d w = Ok (Some s) /\ displayed_by s d w.
Proof.
  intros O H F. pose proof (run_inv _ _ _ inv0 O H) as I.
  assert (B : displayed_by s d w).
  { rewrite run_app in H. apply bind_inv in H as (w1 & _ & H). cbn [run] in H. apply bind_inv in H as (w2 & A & H). cbn [step] in A.
    apply (run_stays s d m w2 w H); [exact (add_displays s d w1 w2 A)|exact F]. }
  split; [|exact B]. destruct (live_display w d I) as [x X]; [left; eauto|].
  assert (G : display_get_server d w = Ok (d_server x)) by (unfold display_get_server; now rewrite X).
  rewrite G. f_equal. rewrite (get_server_last d _ w _ H G). now apply last_stays.
Qed.

Lemma feed_elsewhere l w d n w' s : run l world0 = Ok w -> step (Feed d n) w = Ok w' -> last_added d l <> Some s ->
  forall i, client_at s i w' = client_at s i w.
Proof.
  intros R H N i. cbn [step] in H. unfold feed in H. apply bind_inv in H as (x & G & H). destruct (d_server x) as [s1|] eqn:D; [|discriminate].
  apply bind_inv in H as (v & _ & H). apply damage_shape in H as (v' & k & G' & ->).
  assert (s1 <> s). { intros ->. apply N. symmetry. apply (get_server_last d l w (Some s) R). unfold display_get_server. rewrite G. cbn [bind]. now rewrite D. }
  unfold client_at. cbn [put_server put_display w_servers]. now rewrite set_nth_other.
Qed.
