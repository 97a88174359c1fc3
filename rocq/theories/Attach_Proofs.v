From Verif Require Import Common CommonProofs Attach_Model Attach_Spec.

Lemma set_nth_length {A} (l : list A) n x : length (set_nth l n x) = length l.
Proof. revert n; induction l as [|y l IH]; intros [|n]; cbn [set_nth length]; auto. Qed.
Lemma set_nth_same {A} (l : list A) n x y : nth_error l n = Some y -> nth_error (set_nth l n x) n = Some x.
Proof. revert n; induction l as [|z l IH]; intros [|n] H; cbn in *; try discriminate; auto. Qed.
Lemma set_nth_other {A} (l : list A) n m x : n <> m -> nth_error (set_nth l n x) m = nth_error l m.
Proof. revert n m; induction l as [|z l IH]; intros [|n] [|m] H; cbn; try congruence; auto. Qed.
Lemma set_nth_inv {A} (l : list A) n m x y : nth_error (set_nth l n x) m = Some y ->
  (m = n /\ y = x /\ exists z, nth_error l n = Some z) \/ (m <> n /\ nth_error l m = Some y).
Proof.
  intros H. destruct (Nat.eq_dec m n) as [->|N].
  - left. destruct (nth_error l n) as [z|] eqn:E.
    + rewrite (set_nth_same l n x z E) in H. injection H as <-. eauto.
    + exfalso. apply nth_error_None in E. rewrite <- (set_nth_length l n x) in E. apply nth_error_None in E. congruence.
  - right. split; [exact N|]. rewrite set_nth_other in H; auto.
Qed.
Lemma set_nth_set {A} (l : list A) n x y : set_nth (set_nth l n x) n y = set_nth l n y.
Proof. revert n; induction l as [|z l IH]; intros [|n]; cbn; try reflexivity. now rewrite IH. Qed.

Definition b2z (b : bool) : Z := if b then 1 else 0.
Definition shows (d : nat) (v : server) : bool :=
  negb (s_freed v) && match s_display v with Some d' => Nat.eqb d' d | None => false end.
Fixpoint count (d : nat) (l : list server) : Z :=
  match l with [] => 0 | v :: l => b2z (shows d v) + count d l end.
Lemma count_app_list d l l' : count d (l ++ l') = count d l + count d l'.
Proof. induction l as [|v l IH]; cbn [count app]; lia. Qed.
Lemma count_nonneg d l : 0 <= count d l.
Proof. induction l as [|v l IH]; cbn [count]; [lia|]. unfold b2z. destruct (shows d v); lia. Qed.
Lemma count_set d l s v v' : nth_error l s = Some v -> count d (set_nth l s v') = count d l - b2z (shows d v) + b2z (shows d v').
Proof.
  revert s; induction l as [|x l IH]; intros [|s] H; cbn in H |- *; try discriminate.
  - injection H as ->. cbn [count]. lia.
  - rewrite (IH s H). lia.
Qed.
Lemma count_pos d l s v : nth_error l s = Some v -> shows d v = true -> 0 < count d l.
Proof.
  revert s; induction l as [|x l IH]; intros [|s] H E; cbn in H |- *; try discriminate.
  - injection H as ->. rewrite E. pose proof (count_nonneg d l). cbn [b2z]. lia.
  - pose proof (IH s H E). unfold b2z. destruct (shows d x); lia.
Qed.
Lemma count_zero d l : count d l = 0 -> forall s v, nth_error l s = Some v -> shows d v = false.
Proof. intros Z0 s v H. destruct (shows d v) eqn:E; [|reflexivity]. pose proof (count_pos d l s v H E). lia. Qed.
Lemma count_none d l : (forall s v, nth_error l s = Some v -> shows d v = false) -> count d l = 0.
Proof.
  induction l as [|x l IH]; intros H; cbn [count]; [reflexivity|]. rewrite (H O x eq_refl), IH; [reflexivity|]. intros s v. apply (H (S s)).
Qed.

Record Inv (w : world) : Prop := {
  i_ref : forall d x, nth_error (w_displays w) d = Some x ->
    d_ref x = Z.of_nat (d_app x) + count d (w_servers w) /\ (d_freed x = true <-> d_ref x = 0);
  i_disp : forall s v d, nth_error (w_servers w) s = Some v -> s_freed v = false -> s_display v = Some d ->
    exists x, nth_error (w_displays w) d = Some x }.

Lemma inv0 : Inv world0.
Proof. split; [intros [|d] x H|intros [|s] v d H]; discriminate. Qed.

Lemma get_server_ok s w v : get_server s w = Ok v <-> nth_error (w_servers w) s = Some v /\ s_freed v = false.
Proof.
  unfold get_server. destruct (nth_error (w_servers w) s) as [u|]; [|split; [discriminate|intros [H _]; discriminate]].
  destruct (s_freed u) eqn:F; split; try discriminate.
  - intros [H1 H2]. injection H1 as ->. congruence.
  - intros H. injection H as ->. auto.
  - intros [H _]. injection H as ->. reflexivity.
Qed.
Lemma get_display_ok d w x : get_display d w = Ok x <-> nth_error (w_displays w) d = Some x /\ d_freed x = false.
Proof.
  unfold get_display. destruct (nth_error (w_displays w) d) as [u|]; [|split; [discriminate|intros [H _]; discriminate]].
  destruct (d_freed u) eqn:F; split; try discriminate.
  - intros [H1 H2]. injection H1 as ->. congruence.
  - intros H. injection H as ->. auto.
  - intros [H _]. injection H as ->. reflexivity.
Qed.

(* a display shown by an existing server, or had by the application, is there *)
Lemma live_display w d : Inv w -> (exists s, displayed_by s d w) \/ has_display d w -> exists x, get_display d w = Ok x.
Proof.
  intros I H.
  assert (exists x, nth_error (w_displays w) d = Some x /\ 0 < d_ref x) as (x & E & P).
  { destruct H as [(s & v & E & F & D)|(x & E & P)].
    - destruct (i_disp w I s v d E F D) as [x X]. exists x. split; [exact X|]. rewrite (proj1 (i_ref w I d x X)).
      assert (0 < count d (w_servers w)); [|lia]. apply (count_pos d _ s v E). unfold shows. rewrite F, D, Nat.eqb_refl. reflexivity.
    - exists x. split; [exact E|]. rewrite (proj1 (i_ref w I d x E)). pose proof (count_nonneg d (w_servers w)). lia. }
  exists x. apply get_display_ok. split; [exact E|]. destruct (d_freed x) eqn:F; [|reflexivity].
  apply (i_ref w I d x E) in F. lia.
Qed.

(* clients change *)
Lemma shows_clients d v l : shows d (mk_server (s_freed v) (s_display v) l) = shows d v.
Proof. reflexivity. Qed.
Lemma inv_clients w s v l : Inv w -> nth_error (w_servers w) s = Some v -> s_freed v = false ->
  Inv (put_server s (mk_server false (s_display v) l) w).
Proof.
  intros I E F. split; cbn [put_server w_servers w_displays].
  - intros d x X. rewrite (count_set d _ s v _ E). rewrite <- F, shows_clients. destruct (i_ref w I d x X) as [R Q]. split; [lia|exact Q].
  - intros s' v' d X F' D. apply set_nth_inv in X as [(-> & -> & _)|(_ & X)].
    + cbn in D. exact (i_disp w I s v d E F D).
    + exact (i_disp w I s' v' d X F' D).
Qed.

(* a display's server and buffer change *)
Lemma inv_display w d x s b : Inv w -> get_display d w = Ok x -> Inv (put_display d (mk_display (d_ref x) false s b (d_app x)) w).
Proof.
  intros I G. apply get_display_ok in G as [E F]. split; cbn [put_display w_servers w_displays].
  - intros d' x' X. apply set_nth_inv in X as [(-> & -> & _)|(_ & X)]; [|exact (i_ref w I d' x' X)].
    cbn. destruct (i_ref w I d x E) as [R Q]. rewrite F in Q. split; assumption.
  - intros s' v' d' X F' D. destruct (i_disp w I s' v' d' X F' D) as [y Y].
    destruct (Nat.eq_dec d d') as [->|N]; [eexists; apply (set_nth_same _ _ _ _ E)|exists y; rewrite set_nth_other; auto].
Qed.

Lemma process_fine c b : exists c', process (Ok b) c = Ok c'.
Proof. unfold process. destruct (negb (c_open c)); [eauto|]. cbn [bind]. destruct b as [x|]; [|eauto]. destruct (_ || _); eauto. Qed.
Lemma process_all_fine l b : exists l', process_all (Ok b) l = Ok l'.
Proof.
  induction l as [|c l [l' IH]]; cbn [process_all]; [eauto|]. destruct (process_fine c b) as [c' ->]. cbn [bind]. rewrite IH. cbn [bind]. eauto.
Qed.
Lemma shown_fine w s v : Inv w -> get_server s w = Ok v -> exists b, shown v w = Ok b.
Proof.
  intros I G. apply get_server_ok in G as [E F]. unfold shown. destruct (s_display v) as [d|] eqn:D; [|eauto].
  destruct (live_display w d I) as [x ->]; [left; exists s, v; auto|]. cbn [bind]. eauto.
Qed.

Lemma bind_inv {A B} (r : res A) (f : A -> res B) y : bind r f = Ok y -> exists x, r = Ok x /\ f x = Ok y.
Proof. destruct r as [x|e]; cbn [bind]; [eauto|discriminate]. Qed.

(* the buffer and the server of display [d] in another world *)
Definition same_displays (w w' : world) : Prop := w_displays w' = w_displays w.

Lemma damage_inv s w w' : Inv w -> damage_region s w = Ok w' -> Inv w' /\ w_displays w' = w_displays w.
Proof.
  intros I H. unfold damage_region in H. apply bind_inv in H as (v & G & H). apply bind_inv in H as (l & _ & H). injection H as <-.
  apply get_server_ok in G as [E F]. split; [now apply inv_clients|reflexivity].
Qed.

Lemma on_client_inv s i f w w' : Inv w -> on_client s i f w = Ok w' -> Inv w' /\ w_displays w' = w_displays w.
Proof.
  intros I H. unfold on_client in H. apply bind_inv in H as (v & G & H). destruct (nth_error (s_clients v) i) as [c|]; [|injection H as <-; auto].
  apply bind_inv in H as (c' & _ & H). injection H as <-. apply get_server_ok in G as [E F]. split; [now apply inv_clients|reflexivity].
Qed.
Lemma on_client_fine s i f w : Inv w -> exists_server s w -> exists w', on_client s i f w = Ok w'.
Proof.
  intros I (v & E & F). unfold on_client. assert (G : get_server s w = Ok v) by (apply get_server_ok; auto). rewrite G. cbn [bind].
  destruct (nth_error (s_clients v) i) as [c|]; [|eauto]. destruct (shown_fine w s v I G) as [b ->].
  destruct (process_fine (f c) b) as [c' ->]. cbn [bind]. eauto.
Qed.

Lemma connect_inv s w w' : connect s w = Ok w' -> exists v l, get_server s w = Ok v /\
  w' = put_server s (mk_server false (s_display v) l) w.
Proof.
  intros H. unfold connect in H. apply bind_inv in H as (v & G & H). destruct (s_display v) as [d|] eqn:D; [|discriminate].
  apply bind_inv in H as (x & _ & H). exists v. destruct (d_buffer x).
  - injection H as <-. rewrite D. eauto.
  - injection H as <-. exists (s_clients v). split; [exact G|]. apply get_server_ok in G as [E F].
    replace (mk_server false (s_display v) (s_clients v)) with v by (destruct v; cbn in *; congruence).
    destruct w as [ws wd]. unfold put_server. cbn in *. f_equal. clear -E. revert s E. induction ws as [|u ws IH]; intros [|s] E; cbn in *; try discriminate.
    + injection E as ->. reflexivity.
    + f_equal. now apply IH.
Qed.

Lemma connects_inv n s w w' v : nth_error (w_servers w) s = Some v -> s_freed v = false -> connects n s w = Ok w' ->
  exists l, w' = put_server s (mk_server false (s_display v) l) w.
Proof.
  revert w v. induction n as [|n IH]; intros w v E F H; cbn [connects] in H.
  - injection H as <-. exists (s_clients v). replace (mk_server false (s_display v) (s_clients v)) with v by (destruct v; cbn in *; congruence).
    destruct w as [ws wd]. unfold put_server. cbn in *. f_equal. clear -E. revert s E. induction ws as [|u ws IH]; intros [|s] E; cbn in *; try discriminate.
    + injection E as ->. reflexivity.
    + f_equal. now apply IH.
  - apply bind_inv in H as (w1 & H1 & H). apply connect_inv in H1 as (v1 & l & G & ->). apply get_server_ok in G as [E1 F1].
    assert (v1 = v) by congruence. subst v1.
    destruct (IH (put_server s (mk_server false (s_display v) l) w) (mk_server false (s_display v) l) (set_nth_same (w_servers w) s _ v E) eq_refl H) as [l' ->].
    exists l'. unfold put_server. cbn. now rewrite set_nth_set.
Qed.

(* the last but one step of nvnc_del: with the server gone the books balance *)
Lemma unref_inv d w w' : display_unref d w = Ok w' -> exists x, get_display d w = Ok x /\
  w' = put_display d (if d_ref x - 1 =? 0 then mk_display 0 true (d_server x) None (d_app x)
                      else mk_display (d_ref x - 1) false (d_server x) (d_buffer x) (d_app x)) w.
Proof. intros H. unfold display_unref in H. apply bind_inv in H as (x & G & H). injection H as <-. eauto. Qed.

Lemma inv_unshow w w' s v d b l : Inv w -> nth_error (w_servers w) s = Some v -> s_freed v = false -> s_display v = Some d ->
  display_unref d w = Ok w' -> (b = true \/ l = None) -> forall cs, Inv (put_server s (mk_server b l cs) w').
Proof.
  intros I E F D U B cs. apply unref_inv in U as (x & G & ->). apply get_display_ok in G as [X Fx].
  assert (Sv : forall d', b2z (shows d' v) = b2z (Nat.eqb d d')) by (intros d'; unfold shows; rewrite F, D; reflexivity).
  assert (Sn : forall d', shows d' (mk_server b l cs) = false).
  { intros d'. unfold shows. cbn. destruct B as [->| ->]; [reflexivity|]. now rewrite Bool.andb_false_r. }
  destruct (i_ref w I d x X) as [R Q]. pose proof (count_nonneg d (w_servers w)) as Cn.
  split; cbn [put_server put_display w_servers w_displays].
  - intros d' x' X'. rewrite (count_set d' _ s v _ E), Sv, Sn. cbn [b2z].
    apply set_nth_inv in X' as [(-> & -> & _)|(N & X')].
    + rewrite Nat.eqb_refl. cbn [b2z]. destruct (Z.eqb_spec (d_ref x - 1) 0) as [Ez|Ez]; cbn; split; try lia; split; try lia; try congruence.
    + destruct (Nat.eqb_spec d d') as [->|_]; [contradiction|]. cbn [b2z]. destruct (i_ref w I d' x' X') as [R' Q']. split; [lia|exact Q'].
  - intros s' v' d' X' F' D'. assert (exists y, nth_error (w_displays w) d' = Some y) as [y Y].
    { apply set_nth_inv in X' as [(-> & -> & _)|(_ & X')]; [|exact (i_disp w I s' v' d' X' F' D')].
      cbn in F', D'. destruct B as [->| ->]; discriminate. }
    destruct (Nat.eq_dec d d') as [->|N]; [eexists; apply (set_nth_same _ _ _ _ X)|exists y; rewrite set_nth_other; auto].
Qed.

Lemma inv_noshow w s v b l : Inv w -> nth_error (w_servers w) s = Some v -> s_freed v = false -> s_display v = None ->
  Inv (put_server s (mk_server b None l) w).
Proof.
  intros I E F D. split; cbn [put_server w_servers w_displays].
  - intros d x X. rewrite (count_set d _ s v _ E). replace (shows d v) with false by (unfold shows; now rewrite D, Bool.andb_false_r).
    replace (shows d (mk_server b None l)) with false by (unfold shows; cbn; now rewrite Bool.andb_false_r).
    destruct (i_ref w I d x X) as [R Q]. split; [cbn [b2z]; lia|exact Q].
  - intros s' v' d X F' D'. apply set_nth_inv in X as [(-> & -> & _)|(_ & X)]; [discriminate|exact (i_disp w I s' v' d X F' D')].
Qed.

Lemma del_inv s n w w' : Inv w -> del s n w = Ok w' -> Inv w'.
Proof.
  intros I H. unfold del in H. apply bind_inv in H as (v & G & H). apply get_server_ok in G as [E F].
  apply bind_inv in H as (w1 & U & H). apply bind_inv in H as (w2 & C & H). injection H as <-.
  set (v1 := mk_server false (s_display v) _) in C.
  assert (S1 : w_servers w1 = w_servers w).
  { destruct (s_display v) as [d|]; [apply unref_inv in U as (x & _ & ->); reflexivity|injection U as <-; reflexivity]. }
  assert (exists l, w2 = put_server s (mk_server false (s_display v) l) w1) as [l ->].
  { destruct (existsb c_busy (s_clients v)).
    - assert (E1 : nth_error (w_servers (put_server s v1 w1)) s = Some v1) by (cbn; rewrite S1; apply (set_nth_same _ _ _ _ E)).
      destruct (connects_inv n s _ w2 v1 E1 eq_refl C) as [l ->].
      exists l. unfold put_server. cbn. now rewrite set_nth_set.
    - injection C as <-. eexists. reflexivity. }
  unfold put_server. cbn [w_servers w_displays]. rewrite set_nth_set.
  destruct (s_display v) as [d|] eqn:D.
  - apply (inv_unshow w w1 s v d true (Some d) I E F D U (or_introl eq_refl)).
  - injection U as <-. apply (inv_noshow w s v true [] I E F D).
Qed.

Lemma step_inv a w w' : Inv w -> allowed a w -> step a w = Ok w' -> Inv w'.
Proof.
  intros I A H. destruct a as [| |d|d|s d|s d|d n|s n|s|s i full|s i|s i]; cbn [step allowed] in *.
  - injection H as <-. split; cbn.
    + intros d x X. rewrite count_app_list. cbn. destruct (i_ref w I d x X) as [R Q]. split; [unfold b2z; cbn; lia|exact Q].
    + intros s v d E F D. destruct (Nat.lt_ge_cases s (length (w_servers w))) as [L|L].
      * rewrite nth_error_app1 in E by exact L. exact (i_disp w I s v d E F D).
      * rewrite nth_error_app2 in E by exact L. destruct (s - length (w_servers w))%nat as [|k]; [injection E as <-; discriminate|destruct k; discriminate].
  - injection H as <-. split; cbn.
    + intros d x X. destruct (Nat.lt_ge_cases d (length (w_displays w))) as [L|L].
      * rewrite nth_error_app1 in X by exact L. exact (i_ref w I d x X).
      * rewrite nth_error_app2 in X by exact L. destruct (d - length (w_displays w))%nat as [|k]; [|destruct k; discriminate]. injection X as <-. cbn.
        rewrite count_none; [split; [lia|split; [discriminate|lia]]|]. intros s v E. destruct (shows d v) eqn:Sh; [|reflexivity]. exfalso.
        unfold shows in Sh. apply Bool.andb_true_iff in Sh as [F Sh]. apply Bool.negb_true_iff in F.
        destruct (s_display v) as [d'|] eqn:D; [|discriminate]. apply Nat.eqb_eq in Sh as ->.
        destruct (i_disp w I s v d E F D) as [y Y]. assert (nth_error (w_displays w) d <> None) as L' by congruence. apply nth_error_Some in L'. lia.
    + intros s v d E F D. destruct (i_disp w I s v d E F D) as [x X]. exists x. rewrite nth_error_app1; [exact X|]. apply nth_error_Some. congruence.
  - apply bind_inv in H as (w1 & R & H). injection H as <-. unfold display_ref in R. apply bind_inv in R as (x & G & R). injection R as <-.
    apply get_display_ok in G as [X Fx]. unfold count_app. cbn [w_displays put_display]. rewrite (set_nth_same _ _ _ _ X).
    unfold put_display. cbn. rewrite set_nth_set. destruct (i_ref w I d x X) as [R Q]. split; cbn.
    + intros d' x' X'. apply set_nth_inv in X' as [(-> & -> & _)|(_ & X')]; [|exact (i_ref w I d' x' X')]. cbn [d_ref d_app d_freed].
      pose proof (count_nonneg d (w_servers w)). split; [lia|split; [discriminate|lia]].
    + intros s v d' E F D. destruct (i_disp w I s v d' E F D) as [y Y].
      destruct (Nat.eq_dec d d') as [->|N]; [eexists; apply (set_nth_same _ _ _ _ X)|exists y; rewrite set_nth_other; auto].
  - apply bind_inv in H as (w1 & R & H). injection H as <-. apply unref_inv in R as (x & G & ->). apply get_display_ok in G as [X Fx].
    destruct A as (x0 & X0 & P). assert (x0 = x) by congruence. subst x0. unfold count_app. cbn [w_displays put_display]. rewrite (set_nth_same _ _ _ _ X).
    unfold put_display. cbn. rewrite set_nth_set. destruct (i_ref w I d x X) as [R Q]. pose proof (count_nonneg d (w_servers w)). split; cbn.
    + intros d' x' X'. apply set_nth_inv in X' as [(-> & -> & _)|(_ & X')]; [|exact (i_ref w I d' x' X')].
      destruct (Z.eqb_spec (d_ref x - 1) 0) as [Ez|Ez]; cbn; split; try lia; split; try lia; try congruence.
    + intros s v d' E F D. destruct (i_disp w I s v d' E F D) as [y Y].
      destruct (Nat.eq_dec d d') as [->|N]; [eexists; apply (set_nth_same _ _ _ _ X)|exists y; rewrite set_nth_other; auto].
  - unfold add_display in H. apply bind_inv in H as (v & G & H). apply get_server_ok in G as [E F].
    destruct (s_display v) as [d'|] eqn:D; [discriminate|]. apply bind_inv in H as (x & G & H). apply get_display_ok in G as [X Fx].
    unfold display_ref in H. apply bind_inv in H as (x1 & G & H). injection H as <-. apply get_display_ok in G as [X1 F1].
    cbn in X1. rewrite (set_nth_same _ _ _ _ X) in X1. injection X1 as <-. cbn [d_ref d_server d_buffer d_app].
    unfold put_display, put_server. cbn. rewrite set_nth_set. destruct (i_ref w I d x X) as [R Q]. pose proof (count_nonneg d (w_servers w)). split; cbn.
    + intros d' x' X'. rewrite (count_set d' _ s v _ E). replace (shows d' v) with false by (unfold shows; now rewrite D, Bool.andb_false_r).
      unfold shows. cbn [s_freed s_display negb andb].
      apply set_nth_inv in X' as [(-> & -> & _)|(N & X')].
      * rewrite Nat.eqb_refl. cbn [b2z d_ref d_app d_freed]. split; [lia|split; [discriminate|lia]].
      * destruct (Nat.eqb_spec d d') as [->|_]; [contradiction|]. cbn [b2z]. destruct (i_ref w I d' x' X') as [R' Q']. split; [lia|exact Q'].
    + intros s' v' d' X' F' D'. assert (exists y, nth_error (w_displays w) d' = Some y) as [y Y].
      { apply set_nth_inv in X' as [(-> & -> & _)|(_ & X')]; [cbn in D'; injection D' as <-; eauto|exact (i_disp w I s' v' d' X' F' D')]. }
      destruct (Nat.eq_dec d d') as [->|N]; [eexists; apply (set_nth_same _ _ _ _ X)|exists y; rewrite set_nth_other; auto].
  - unfold remove_display in H. apply bind_inv in H as (v & G & H). apply get_server_ok in G as [E F].
    destruct (s_display v) as [d'|] eqn:D; [|injection H as <-; exact I]. destruct (Nat.eqb_spec d' d) as [->|N]; cbn [negb] in H; [|injection H as <-; exact I].
    apply bind_inv in H as (w1 & U & H). injection H as <-. apply (inv_unshow w w1 s v d false None I E F D U (or_intror eq_refl)).
  - unfold feed in H. apply bind_inv in H as (x & G & H). destruct (d_server x) as [s|] eqn:D; [|discriminate].
    apply bind_inv in H as (v & _ & H). apply damage_inv in H as [H _]; [exact H|]. now apply inv_display.
  - exact (del_inv s n w w' I H).
  - apply connect_inv in H as (v & l & G & ->). apply get_server_ok in G as [E F]. now apply inv_clients.
  - now apply on_client_inv in H.
  - now apply on_client_inv in H.
  - now apply on_client_inv in H.
Qed.

Lemma run_inv l w w' : Inv w -> obeys l w -> run l w = Ok w' -> Inv w'.
Proof.
  revert w. induction l as [|a l IH]; intros w I O H; cbn [run] in H; [injection H as <-; exact I|].
  apply bind_inv in H as (w1 & H1 & H). destruct O as [A O]. apply (IH w1); [exact (step_inv a w w1 I A H1)|exact (O w1 H1)|exact H].
Qed.

(** ** No fault *)
Lemma connect_fine s d w x : nth_error (w_servers w) s <> None -> (forall v, nth_error (w_servers w) s = Some v -> s_freed v = false /\ s_display v = Some d) ->
  get_display d w = Ok x -> exists w', connect s w = Ok w'.
Proof.
  intros N V G. destruct (nth_error (w_servers w) s) as [v|] eqn:E; [|contradiction]. destruct (V v eq_refl) as [F D].
  unfold connect. assert (Gs : get_server s w = Ok v) by (apply get_server_ok; auto). rewrite Gs. cbn [bind]. rewrite D, G. cbn [bind]. destruct (d_buffer x); eauto.
Qed.
Lemma connects_fine n s d x w v : nth_error (w_servers w) s = Some v -> s_freed v = false -> s_display v = Some d ->
  get_display d w = Ok x -> exists w', connects n s w = Ok w'.
Proof.
  revert w v. induction n as [|n IH]; intros w v E F D G; cbn [connects]; [eauto|].
  destruct (connect_fine s d w x) as [w1 H1]; [congruence|intros v' E'; assert (v' = v) as -> by congruence; auto|exact G|].
  rewrite H1. cbn [bind]. apply connect_inv in H1 as (v1 & l & G1 & ->). apply get_server_ok in G1 as [E1 F1]. assert (v1 = v) by congruence. subst v1.
  apply (IH _ (mk_server false (s_display v) l)); [cbn; apply (set_nth_same _ _ _ _ E)|reflexivity|exact D|]. exact G.
Qed.

Lemma step_fine a w : Inv w -> allowed a w -> careful_op a w -> exists w', step a w = Ok w'.
Proof.
  intros I A C. destruct a as [| |d|d|s d|s d|d n|s n|s|s i full|s i|s i]; cbn [step allowed careful_op] in *; try (eexists; reflexivity).
  - unfold display_ref. destruct (live_display w d I (or_intror A)) as [x ->]. cbn [bind]. eauto.
  - unfold display_unref. destruct (live_display w d I (or_intror A)) as [x ->]. cbn [bind]. eauto.
  - destruct A as ((v & E & F) & Hd & Nd). unfold add_display. assert (G : get_server s w = Ok v) by (apply get_server_ok; auto). rewrite G. cbn [bind].
    destruct (s_display v) as [d'|] eqn:D; [exfalso; apply (Nd d'); exists v; auto|]. destruct (live_display w d I (or_intror Hd)) as [x Gx].
    rewrite Gx. cbn [bind]. unfold display_ref, get_display. apply get_display_ok in Gx as [X Fx]. cbn. rewrite (set_nth_same _ _ _ _ X). cbn. eauto.
  - destruct A as (v & E & F). unfold remove_display. assert (G : get_server s w = Ok v) by (apply get_server_ok; auto). rewrite G. cbn [bind].
    destruct (s_display v) as [d'|] eqn:D; [|eauto]. destruct (Nat.eqb_spec d' d) as [->|N]; cbn [negb]; [|eauto].
    unfold display_unref. destruct (live_display w d I) as [x ->]; [left; exists s, v; auto|]. cbn [bind]. eauto.
  - destruct C as (x & s & X & D & (v & E & F)). destruct (live_display w d I (or_intror A)) as [x' Gx]. pose proof Gx as Gx0. apply get_display_ok in Gx as [X' Fx].
    assert (x' = x) by congruence. subst x'. unfold feed. rewrite Gx0. cbn [bind]. rewrite D.
    assert (G : get_server s w = Ok v) by (apply get_server_ok; auto). rewrite G. cbn [bind]. unfold damage_region.
    assert (G' : get_server s (put_display d (mk_display (d_ref x) false (Some s) (Some n) (d_app x)) w) = Ok v) by exact G.
    rewrite G'. cbn [bind]. destruct (shown_fine _ s v (inv_display w d x (Some s) (Some n) I Gx0) G') as [b ->].
    destruct (process_all_fine (map mark (s_clients v)) b) as [l ->]. cbn [bind]. eauto.
  - destruct A as (v & E & F). unfold del. assert (G : get_server s w = Ok v) by (apply get_server_ok; auto). rewrite G. cbn [bind].
    assert (exists w1, (match s_display v with Some d => display_unref d w | None => Ok w end) = Ok w1) as [w1 U].
    { destruct (s_display v) as [d|] eqn:D; [|eauto]. unfold display_unref. destruct (live_display w d I) as [x ->]; [left; exists s, v; auto|]. cbn [bind]. eauto. }
    rewrite U. cbn [bind]. destruct (existsb c_busy (s_clients v)); [|cbn [bind]; eauto]. destruct C as [->|(d & (v' & E' & F' & D) & (x & X & P))].
    + cbn [connects bind]. eauto.
    + assert (v' = v) by congruence. subst v'. rewrite D in U |- *. apply unref_inv in U as (x' & Gx & ->). apply get_display_ok in Gx as [X' Fx].
      assert (x' = x) by congruence. subst x'.
      assert (R2 : d_ref x - 1 <> 0).
      { rewrite (proj1 (i_ref w I d x X)). assert (0 < count d (w_servers w)); [|lia]. apply (count_pos d _ s v E). unfold shows. rewrite F, D, Nat.eqb_refl. reflexivity. }
      destruct (Z.eqb_spec (d_ref x - 1) 0) as [Ez|_]; [contradiction|].
      set (w1 := put_server s _ _). destruct (connects_fine n s d (mk_display (d_ref x - 1) false (d_server x) (d_buffer x) (d_app x)) w1
        (mk_server false (Some d) (map (fun c => mk_client false (c_waiting c) (c_busy c) (c_damage c) (c_seen c)) (s_clients v)))) as [w2 ->]; [cbn; apply (set_nth_same _ _ _ _ E)|reflexivity|reflexivity| |cbn [bind]; eauto].
      apply get_display_ok. split; [cbn; apply (set_nth_same _ _ _ _ X)|reflexivity].
  - destruct A as (v & E & F). destruct C as (d & v' & E' & F' & D). assert (v' = v) by congruence. subst v'.
    destruct (live_display w d I) as [x Gx]; [left; exists s, v; auto|]. apply (connect_fine s d w x); [congruence| |exact Gx].
    intros v' E''. assert (v' = v) as -> by congruence. auto.
  - now apply on_client_fine.
  - now apply on_client_fine.
  - now apply on_client_fine.
Qed.
Lemma run_fine l w : Inv w -> careful l w -> exists w', run l w = Ok w'.
Proof.
  revert w. induction l as [|a l IH]; intros w I C; cbn [run]; [eauto|]. destruct C as (A & C & R). destruct (step_fine a w I A C) as [w1 H1].
  rewrite H1. cbn [bind]. apply IH; [exact (step_inv a w w1 I A H1)|exact (R w1 H1)].
Qed.

Lemma nth_set_nth A (l : list A) n x y : nth_error l n = Some y -> nth_error (set_nth l n x) n = Some x.
Proof. revert n. induction l as [|a l IH]; intros [|n] H; try discriminate; [reflexivity|apply IH, H]. Qed.

Lemma on_client_reaches s i f w w' d x n c : on_client s i f w = Ok w' -> displayed_by s d w -> nth_error (w_displays w) d = Some x ->
  d_buffer x = Some n -> client_at s i w = Some c -> c_open (f c) = true ->
  client_at s i w' = Some (if c_busy (f c) || negb (c_waiting (f c)) || negb (c_damage (f c)) then f c
                           else mk_client true false true false (c_seen (f c) ++ [(d, n)])).
Proof.
  intros H (v & V & F & D) X B C O. unfold on_client, get_server in H. unfold client_at in *. rewrite V in *. rewrite F in H. cbn [bind] in H.
  rewrite C in H. unfold process, shown in H. rewrite O, D in H. cbn [negb] in H. unfold get_display in H. rewrite X in H.
  destruct (d_freed x); [discriminate|]. cbn [bind] in H. rewrite B in H.
  destruct (_ || _ || _); cbn [bind] in H; injection H as <-; cbn [put_server w_servers];
    rewrite (nth_set_nth _ _ _ _ _ V); cbn [s_clients]; apply (nth_set_nth _ _ _ _ _ C).
Qed.
