From Verif Require Import Common CommonProofs Attach_Model Attach_Spec Attach_Proofs.

(** ** What the buffers are *)
Definition buffers (p : list op) (w : world) : Prop :=
  forall d, match nth_error (w_displays w) d with
            | Some x => d_freed x = false -> d_buffer x = last_fed d p
            | None => last_fed d p = None
            end.
Lemma last_fed_snoc d p a : last_fed d (p ++ [a]) = match a with Feed d' n => if Nat.eqb d d' then Some n else last_fed d p | _ => last_fed d p end.
Proof. unfold last_fed. rewrite fold_left_app. reflexivity. Qed.

Lemma buffers_same p a w w' : buffers p w -> (forall d n, a <> Feed d n) -> w_displays w' = w_displays w -> buffers (p ++ [a]) w'.
Proof. intros B N E d. specialize (B d). rewrite E, last_fed_snoc. destruct a; try exact B. exfalso. eapply N. reflexivity. Qed.
Lemma buffers_put p a w d y x : buffers p w -> (forall d n, a <> Feed d n) -> nth_error (w_displays w) d = Some x -> d_freed x = false ->
  (d_freed y = false -> d_buffer y = d_buffer x) -> buffers (p ++ [a]) (put_display d y w).
Proof.
  intros B N X F Y d'. rewrite last_fed_snoc. cbn. pose proof (B d') as B'.
  assert (M : match (match a with Feed d0 n => if Nat.eqb d' d0 then Some n else last_fed d' p | _ => last_fed d' p end) with r => r end = last_fed d' p).
  { destruct a; try reflexivity. exfalso. eapply N. reflexivity. }
  rewrite M. destruct (Nat.eq_dec d' d) as [->|D].
  - rewrite (set_nth_same _ _ _ _ X). rewrite X in B'. intros Fy. rewrite (Y Fy). exact (B' F).
  - rewrite set_nth_other by auto. exact B'.
Qed.

Lemma buffers_unref p a w w' d : buffers p w -> (forall d n, a <> Feed d n) -> display_unref d w = Ok w' -> buffers (p ++ [a]) w'.
Proof.
  intros B N H. apply unref_inv in H as (x & G & ->). apply get_display_ok in G as [X F]. apply (buffers_put p a w d _ x B N X F).
  destruct (d_ref x - 1 =? 0); cbn; [discriminate|reflexivity].
Qed.
Lemma connects_displays n s w w' : connects n s w = Ok w' -> w_displays w' = w_displays w.
Proof.
  revert w. induction n as [|n IH]; intros w H; cbn [connects] in H; [injection H as <-; reflexivity|].
  apply bind_inv in H as (w1 & C & H). apply connect_inv in C as (v & l & _ & ->). now rewrite (IH _ H).
Qed.
Lemma on_client_displays s i f w w' : on_client s i f w = Ok w' -> w_displays w' = w_displays w.
Proof.
  intros H. unfold on_client in H. apply bind_inv in H as (v & G & H). destruct (nth_error (s_clients v) i); [|injection H as <-; reflexivity].
  apply bind_inv in H as (c' & _ & H). injection H as <-. reflexivity.
Qed.

Lemma buffers_step p a w w' : buffers p w -> step a w = Ok w' -> buffers (p ++ [a]) w'.
Proof.
  intros B H. destruct a as [| |d|d|s d|s d|d n|s n|s|s i full|s i|s i]; cbn [step] in H.
  - injection H as <-. apply (buffers_same p NewServer w); [exact B|discriminate|reflexivity].
  - injection H as <-. intros d. rewrite last_fed_snoc. cbn. specialize (B d). destruct (Nat.lt_ge_cases d (length (w_displays w))) as [L|L].
    + rewrite nth_error_app1 by exact L. exact B.
    + pose proof L as L'. apply nth_error_None in L'. rewrite L' in B. rewrite nth_error_app2 by exact L.
      destruct (d - length (w_displays w))%nat as [|k]; [cbn; intros _; now rewrite B|]. destruct k; exact B.
  - apply bind_inv in H as (w1 & R & H). injection H as <-. unfold display_ref in R. apply bind_inv in R as (x & G & R). injection R as <-.
    apply get_display_ok in G as [X F]. unfold count_app. cbn [w_displays put_display]. rewrite (set_nth_same _ _ _ _ X).
    unfold put_display. cbn. rewrite set_nth_set. apply (buffers_put p (Ref d) w d _ x B); [discriminate|exact X|exact F|reflexivity].
  - apply bind_inv in H as (w1 & R & H). injection H as <-. apply unref_inv in R as (x & G & ->). apply get_display_ok in G as [X F].
    unfold count_app. cbn [w_displays put_display]. rewrite (set_nth_same _ _ _ _ X).
    unfold put_display. cbn. rewrite set_nth_set. apply (buffers_put p (Unref d) w d _ x B); [discriminate|exact X|exact F|].
    destruct (d_ref x - 1 =? 0); cbn; [discriminate|reflexivity].
  - unfold add_display in H. apply bind_inv in H as (v & G & H). destruct (s_display v); [discriminate|].
    apply bind_inv in H as (x & Gx & H). apply get_display_ok in Gx as [X F]. unfold display_ref in H. apply bind_inv in H as (x1 & Gx & H). injection H as <-.
    apply get_display_ok in Gx as [X1 F1]. cbn in X1. rewrite (set_nth_same _ _ _ _ X) in X1. injection X1 as <-. cbn [d_ref d_server d_buffer d_app].
    unfold put_display, put_server. cbn. rewrite set_nth_set. pose proof (buffers_put p (Add s d) w d (mk_display (d_ref x + 1) false (Some s) (d_buffer x) (d_app x)) x B) as Q.
    exact (Q ltac:(discriminate) X F ltac:(reflexivity)).
  - unfold remove_display in H. apply bind_inv in H as (v & G & H). destruct (s_display v) as [d'|]; [|injection H as <-; apply (buffers_same p (Remove s d) w); [exact B|discriminate|reflexivity]].
    destruct (negb (Nat.eqb d' d)); [injection H as <-; apply (buffers_same p (Remove s d) w); [exact B|discriminate|reflexivity]|].
    apply bind_inv in H as (w1 & U & H). injection H as <-. pose proof (buffers_unref p (Remove s d) w w1 d B ltac:(discriminate) U) as Q. exact Q.
  - unfold feed in H. apply bind_inv in H as (x & G & H). destruct (d_server x) as [s|]; [|discriminate]. apply bind_inv in H as (v & _ & H).
    unfold damage_region in H. apply bind_inv in H as (v' & _ & H). apply bind_inv in H as (l & _ & H). injection H as <-.
    apply get_display_ok in G as [X F]. intros d'. rewrite last_fed_snoc. cbn. destruct (Nat.eqb_spec d' d) as [->|N].
    + rewrite (set_nth_same _ _ _ _ X). reflexivity.
    + rewrite set_nth_other by auto. exact (B d').
  - unfold del in H. apply bind_inv in H as (v & G & H). apply bind_inv in H as (w1 & U & H). apply bind_inv in H as (w2 & C & H). injection H as <-.
    assert (D2 : w_displays w2 = w_displays w1).
    { destruct (existsb c_busy (s_clients v)); [apply connects_displays in C; exact C|injection C as <-; reflexivity]. }
    destruct (s_display v) as [d|].
    + pose proof (buffers_unref p (Del s n) w w1 d B ltac:(discriminate) U) as Q. intros d'. specialize (Q d'). cbn. rewrite D2. exact Q.
    + injection U as <-. apply (buffers_same p (Del s n) w); [exact B|discriminate|exact D2].
  - apply connect_inv in H as (v & l & _ & ->). apply (buffers_same p (Connect s) w); [exact B|discriminate|reflexivity].
  - apply on_client_displays in H. apply (buffers_same p (Request s i full) w); [exact B|discriminate|exact H].
  - apply on_client_displays in H. apply (buffers_same p (Encoded s i) w); [exact B|discriminate|exact H].
  - apply on_client_displays in H. apply (buffers_same p (HungUp s i) w); [exact B|discriminate|exact H].
Qed.
Lemma buffers_run l p w w' : buffers p w -> run l w = Ok w' -> buffers (p ++ l) w'.
Proof.
  revert p w. induction l as [|a l IH]; intros p w B H; cbn [run] in H; [injection H as <-; now rewrite app_nil_r|].
  apply bind_inv in H as (w1 & H1 & H). replace (p ++ a :: l) with ((p ++ [a]) ++ l) by (rewrite <- app_assoc; reflexivity).
  exact (IH _ w1 (buffers_step p a w w1 B H1) H).
Qed.
Lemma buffers0 : buffers [] world0. Proof. intros [|d]; reflexivity. Qed.

(** ** What clients see *)
Lemma process_inv b c c' : process b c = Ok c' -> c' = c \/ exists d n, b = Ok (Some (d, n)) /\ c' = mk_client true false true false (c_seen c ++ [(d, n)]).
Proof.
  unfold process. destruct (c_open c) eqn:O; cbn [negb]; [|intros H; injection H as <-; auto].
  destruct b as [b|e]; cbn [bind]; [|discriminate]. destruct b as [[d n]|]; [|intros H; injection H as <-; auto].
  destruct (_ || _); intros H; injection H as <-; [auto|]. right. exists d, n. auto.
Qed.
Lemma process_all_inv b l l' : process_all b l = Ok l' -> forall i c', nth_error l' i = Some c' -> exists c, nth_error l i = Some c /\ process b c = Ok c'.
Proof.
  revert l'. induction l as [|c l IH]; intros l' H i c' N; cbn [process_all] in H.
  - injection H as <-. destruct i; discriminate.
  - apply bind_inv in H as (c1 & H1 & H). apply bind_inv in H as (l1 & H2 & H). injection H as <-. destruct i as [|i]; cbn in N.
    + injection N as <-. exists c. auto.
    + exact (IH l1 H2 i c' N).
Qed.
Lemma process_all_fwd b l l' : process_all b l = Ok l' -> forall i c, nth_error l i = Some c -> exists c', nth_error l' i = Some c' /\ process b c = Ok c'.
Proof.
  revert l'. induction l as [|c l IH]; intros l' H i c0 N; cbn [process_all] in H.
  - destruct i; discriminate.
  - apply bind_inv in H as (c1 & H1 & H). apply bind_inv in H as (l1 & H2 & H). injection H as <-. destruct i as [|i]; cbn in N.
    + injection N as <-. exists c1. auto.
    + exact (IH l1 H2 i c0 N).
Qed.
Lemma shown_inv v w d n : shown v w = Ok (Some (d, n)) -> s_display v = Some d /\ exists x, get_display d w = Ok x /\ d_buffer x = Some n.
Proof.
  unfold shown. destruct (s_display v) as [d'|]; [|discriminate]. intros H. apply bind_inv in H as (x & G & H). destruct (d_buffer x) as [m|] eqn:B; [|discriminate].
  injection H as <- <-. eauto.
Qed.
Lemma mark_seen c : c_seen (mark c) = c_seen c. Proof. unfold mark. destruct (c_open c); reflexivity. Qed.

Definition same_or_shown (s : nat) (w : world) (c c' : client) : Prop :=
  c_seen c' = c_seen c \/
  exists d n, c_seen c' = c_seen c ++ [(d, n)] /\ displayed_by s d w /\ exists x, get_display d w = Ok x /\ d_buffer x = Some n.

(* one server's clients are replaced *)
Lemma client_at_put s s' i v l w : nth_error (w_servers w) s = Some v ->
  client_at s' i (put_server s (mk_server false (s_display v) l) w) = if Nat.eqb s' s then nth_error l i else client_at s' i w.
Proof.
  intros E. unfold client_at. cbn. destruct (Nat.eqb_spec s' s) as [->|N]; [now rewrite (set_nth_same _ _ _ _ E)|now rewrite set_nth_other by auto].
Qed.
Lemma processed_shown s v w l c c0 c' b : nth_error (w_servers w) s = Some v -> s_freed v = false -> b = shown v w -> c_seen c0 = c_seen c -> process b c0 = Ok c' ->
  same_or_shown s (put_server s (mk_server false (s_display v) l) w) c c'.
Proof.
  intros E F -> S P. apply process_inv in P as [->|(d & n & Sh & ->)]; [left; exact S|]. right. apply shown_inv in Sh as (D & x & G & B).
  exists d, n. cbn. rewrite S. split; [reflexivity|]. split; [exists (mk_server false (s_display v) l); cbn; rewrite (set_nth_same _ _ _ _ E); auto|]. exists x. auto.
Qed.

Lemma step_shown a w w' s i c c' : step a w = Ok w' -> (forall s, a <> Connect s) -> (forall s n, a <> Del s n) ->
  client_at s i w = Some c -> client_at s i w' = Some c' -> same_or_shown s w' c c'.
Proof.
  intros H NC ND C C'. destruct a as [| |d|d|s0 d|s0 d|d n|s0 n|s0|s0 j full|s0 j|s0 j]; cbn [step] in H;
    try (exfalso; eapply NC; reflexivity); try (exfalso; eapply ND; reflexivity).
  - injection H as <-. left. unfold client_at in *. cbn in C'. destruct (nth_error (w_servers w) s) as [v|] eqn:E; [|discriminate].
    rewrite nth_error_app1, E in C'; [congruence|]. apply nth_error_Some. congruence.
  - injection H as <-. left. unfold client_at in *. cbn in C'. congruence.
  - apply bind_inv in H as (w1 & R & H). injection H as <-. left. unfold display_ref in R. apply bind_inv in R as (x & G & R). injection R as <-.
    unfold client_at, count_app in *. destruct (nth_error (w_displays _) d); cbn in C'; congruence.
  - apply bind_inv in H as (w1 & R & H). injection H as <-. left. apply unref_inv in R as (x & G & ->).
    unfold client_at, count_app in *. destruct (nth_error (w_displays _) d); cbn in C'; congruence.
  - left. unfold add_display in H. apply bind_inv in H as (v & G & H). apply get_server_ok in G as [E F]. destruct (s_display v); [discriminate|].
    apply bind_inv in H as (x & Gx & H). unfold display_ref in H. apply bind_inv in H as (x1 & _ & H). injection H as <-.
    unfold client_at in *. cbn in C'. destruct (Nat.eq_dec s0 s) as [->|N]; [rewrite (set_nth_same _ _ _ _ E) in C'; rewrite E in C; cbn in C'; congruence|].
    rewrite set_nth_other in C' by auto. congruence.
  - left. unfold remove_display in H. apply bind_inv in H as (v & G & H). apply get_server_ok in G as [E F]. destruct (s_display v) as [d'|]; [|injection H as <-; congruence].
    destruct (negb (Nat.eqb d' d)); [injection H as <-; congruence|]. apply bind_inv in H as (w1 & U & H). injection H as <-. apply unref_inv in U as (x & _ & ->).
    unfold client_at in *. cbn in C'. destruct (Nat.eq_dec s0 s) as [->|N]; [rewrite (set_nth_same _ _ _ _ E) in C'; rewrite E in C; cbn in C'; congruence|].
    rewrite set_nth_other in C' by auto. congruence.
  - unfold feed in H. apply bind_inv in H as (x & G & H). destruct (d_server x) as [s1|]; [|discriminate]. apply bind_inv in H as (v0 & _ & H).
    unfold damage_region in H. apply bind_inv in H as (v & Gv & H). apply bind_inv in H as (l & P & H). injection H as <-.
    apply get_server_ok in Gv as [E F]. rewrite (client_at_put _ _ _ _ _ _ E) in C'. destruct (Nat.eqb_spec s s1) as [->|N].
    + apply (process_all_inv _ _ _ P) in C' as (c0 & N0 & Pc). pose proof E as E0. unfold client_at in C. cbn in E0. rewrite E0 in C. rewrite nth_error_map, C in N0. cbn in N0. injection N0 as <-.
      exact (processed_shown s1 v _ l c (mark c) c' _ E F eq_refl (mark_seen c) Pc).
    + left. unfold client_at in C, C'. cbn in C'. congruence.
  - unfold on_client in H. apply bind_inv in H as (v & Gv & H). apply get_server_ok in Gv as [E F]. destruct (nth_error (s_clients v) j) as [c0|] eqn:J; [|injection H as <-; left; congruence].
    apply bind_inv in H as (c1 & P & H). injection H as <-. rewrite (client_at_put _ _ _ _ _ _ E) in C'. destruct (Nat.eqb_spec s s0) as [->|N]; [|left; congruence].
    unfold client_at in C. rewrite E in C. apply set_nth_inv in C' as [(-> & -> & _)|(_ & C')]; [|left; congruence]. assert (c0 = c) by congruence. subst c0.
    refine (processed_shown s0 v w _ c _ c1 _ E F eq_refl _ P). reflexivity.
  - unfold on_client in H. apply bind_inv in H as (v & Gv & H). apply get_server_ok in Gv as [E F]. destruct (nth_error (s_clients v) j) as [c0|] eqn:J; [|injection H as <-; left; congruence].
    apply bind_inv in H as (c1 & P & H). injection H as <-. rewrite (client_at_put _ _ _ _ _ _ E) in C'. destruct (Nat.eqb_spec s s0) as [->|N]; [|left; congruence].
    unfold client_at in C. rewrite E in C. apply set_nth_inv in C' as [(-> & -> & _)|(_ & C')]; [|left; congruence]. assert (c0 = c) by congruence. subst c0.
    refine (processed_shown s0 v w _ c _ c1 _ E F eq_refl _ P). reflexivity.
  - unfold on_client in H. apply bind_inv in H as (v & Gv & H). apply get_server_ok in Gv as [E F]. destruct (nth_error (s_clients v) j) as [c0|] eqn:J; [|injection H as <-; left; congruence].
    apply bind_inv in H as (c1 & P & H). injection H as <-. rewrite (client_at_put _ _ _ _ _ _ E) in C'. destruct (Nat.eqb_spec s s0) as [->|N]; [|left; congruence].
    unfold client_at in C. rewrite E in C. apply set_nth_inv in C' as [(-> & -> & _)|(_ & C')]; [|left; congruence]. assert (c0 = c) by congruence. subst c0.
    refine (processed_shown s0 v w _ c _ c1 _ E F eq_refl _ P). reflexivity.
Qed.

(* a buffer fed to the display of a server *)
Lemma feed_reaches w w' d n x s i c : step (Feed d n) w = Ok w' -> nth_error (w_displays w) d = Some x -> d_server x = Some s -> displayed_by s d w ->
  client_at s i w = Some c -> c_open c = true ->
  client_at s i w' = Some (if c_waiting c && negb (c_busy c) then mk_client true false true false (c_seen c ++ [(d, n)])
                           else mk_client true (c_waiting c) (c_busy c) true (c_seen c)).
Proof.
  intros H X D (v & E & F & Dv) C O. cbn [step] in H. unfold feed in H. apply bind_inv in H as (x0 & G & H). apply get_display_ok in G as [X0 Fx].
  assert (x0 = x) by congruence. subst x0. rewrite D in H. apply bind_inv in H as (v0 & _ & H). unfold damage_region in H.
  apply bind_inv in H as (v1 & Gv & H). apply bind_inv in H as (l & P & H). injection H as <-. apply get_server_ok in Gv as [E1 F1]. cbn in E1. assert (v1 = v) by congruence. subst v1.
  rewrite (client_at_put s s i v l (put_display d (mk_display (d_ref x) false (Some s) (Some n) (d_app x)) w) E), Nat.eqb_refl.
  unfold client_at in C. rewrite E in C.
  destruct (process_all_fwd _ _ _ P i (mark c)) as (c' & N' & Pc); [rewrite nth_error_map, C; reflexivity|]. rewrite N'. f_equal.
  unfold process, mark in Pc. rewrite O in Pc. cbn [c_open negb] in Pc. apply bind_inv in Pc as (b & Sh & Pc).
  assert (b = Some (d, n)) as ->.
  { unfold shown in Sh. rewrite Dv in Sh. unfold get_display in Sh. cbn in Sh. rewrite (set_nth_same _ _ _ _ X) in Sh. cbn in Sh. congruence. }
  cbn [c_busy c_waiting c_damage negb c_seen] in Pc. destruct (c_busy c), (c_waiting c); cbn in *; congruence.
Qed.
