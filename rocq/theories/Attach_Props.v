(** C136: displays and servers. *)
From Verif Require Import Common CommonProofs Attach_Model Attach_Spec Attach_Proofs Attach2_Proofs.

(* a server with a display and a client that waits *)
Definition setup : list op := [NewServer; NewDisplay; Add 0 0; Feed 0 7; Connect 0; Request 0 0 true; Encoded 0 0; Request 0 0 false].

Ltac ex_server := eexists; split; reflexivity.
Ltac has_disp := eexists; split; [reflexivity|cbn; lia].
Ltac allow := cbn [allowed]; first [exact I | ex_server | has_disp |
  (split; [ex_server|split; [has_disp|intros ? (? & E & F & D); cbn in E; injection E as <-; discriminate]])].
Ltac next := let w := fresh "w" in let H := fresh "H" in intros w H; vm_compute in H; first [discriminate | injection H as <-].
Ltac obey := cbn [setup app obeys]; repeat (split; [allow|next]); try exact I.
Ltac care := cbn [setup app careful]; repeat (split; [allow|split; [cbn [careful_op]; first [exact I | (left; reflexivity) |
  (eexists _, _; split; [reflexivity|split; [reflexivity|ex_server]]) | (eexists _, _; repeat split; reflexivity) |
  (right; eexists; split; [eexists; repeat split; reflexivity|has_disp])]|next]]); try exact I.

(** A display exists exactly as long as the application or a server has it. *)
Theorem C136_displays_exist_as_long_as_needed :
  forall l w d x, obeys l world0 -> run l world0 = Ok w -> nth_error (w_displays w) d = Some x ->
    (is_freed d w <-> ~ has_display d w /\ forall s, ~ displayed_by s d w).
Proof.
  intros l w d x Ob R X. pose proof (run_inv l world0 w inv0 Ob R) as I. destruct (i_ref w I d x X) as [Rf Q].
  pose proof (count_nonneg d (w_servers w)) as N. split.
  - intros (y & Y & F). assert (y = x) by congruence. subst y. apply Q in F. split.
    + intros (y & Y' & P). assert (y = x) by congruence. subst y. lia.
    + intros s (v & E & Fv & D). assert (Sh : shows d v = true) by (unfold shows; rewrite Fv, D, Nat.eqb_refl; reflexivity).
      pose proof (count_pos d _ s v E Sh). lia.
  - intros [A S]. exists x. split; [exact X|]. apply Q. rewrite Rf.
    assert (d_app x = 0%nat) as ->. { destruct (d_app x) as [|k] eqn:K; [reflexivity|]. exfalso. apply A. exists x. rewrite K. split; [exact X|lia]. }
    rewrite count_none; [reflexivity|]. intros s v E. destruct (shows d v) eqn:Sh; [|reflexivity]. exfalso. apply (S s). exists v.
    unfold shows in Sh. destruct (s_freed v); [discriminate|]. destruct (s_display v) as [d'|]; [|discriminate]. cbn in Sh. apply Nat.eqb_eq in Sh as ->. auto.
Qed.
Print Assumptions C136_displays_exist_as_long_as_needed.
Example C136_exist_ex : obeys (setup ++ [Unref 0; Remove 0 0]) world0 /\ exists w, run (setup ++ [Unref 0; Remove 0 0]) world0 = Ok w /\ is_freed 0 w.
Proof.
  split; [obey|]. eexists. split; [vm_compute; reflexivity|]. eexists. split; reflexivity.
Qed.

(** An application that uses only what it has does not make the library fail.  (Partial:
    that feeds a display only while the server exists to which it was added last, has
    clients connect only while there is a display, and gives its own display reference up
    only after it has deleted a server that is still accepting connections.) *)
Theorem C136_no_failure_partial :
  forall l, careful l world0 -> exists w, run l world0 = Ok w.
Proof. intros l. apply run_fine. exact inv0. Qed.
Print Assumptions C136_no_failure_partial.
Example C136_no_failure_ex : careful (setup ++ [Feed 0 8; Del 0 3; Unref 0]) world0.
Proof.
  care.
Qed.

(** In general it does: a display may not outlive its server; a display may not be fed
    before it is added; a server without a display may not be connected to; and a server
    may not be deleted, with the application's reference to the display given up, while a
    frame is being encoded. *)
Theorem C136_no_failure_refuted :
  (exists l, obeys l world0 /\ run l world0 = Fault UseAfterFree /\ l = setup ++ [Del 0 0; Feed 0 8]) /\
  (exists l, obeys l world0 /\ run l world0 = Fault AssertFail /\ l = [NewDisplay; Feed 0 8]) /\
  (exists l, obeys l world0 /\ run l world0 = Fault NullDeref /\ l = setup ++ [Remove 0 0; Connect 0]) /\
  (exists l, obeys l world0 /\ run l world0 = Fault UseAfterFree /\ l = setup ++ [Feed 0 8; Unref 0; Del 0 1]).
Proof.
  split; [|split; [|split]]; eexists; (split; [|split; [|reflexivity]]); try (vm_compute; reflexivity); obey.
Qed.
Print Assumptions C136_no_failure_refuted.

(** Not only there: every display that the application keeps when its server is deleted
    fails when it is fed next, unless another server has taken it. *)
Theorem C136_feeding_after_deletion_fails :
  forall d n w x s v, nth_error (w_displays w) d = Some x -> d_freed x = false -> d_server x = Some s ->
    nth_error (w_servers w) s = Some v -> s_freed v = true -> step (Feed d n) w = Fault UseAfterFree.
Proof.
  intros d n w x s v X F D E Fv. cbn [step]. unfold feed, get_display, get_server. rewrite X, F. cbn [bind]. rewrite D, E, Fv. reflexivity.
Qed.
Print Assumptions C136_feeding_after_deletion_fails.
Example C136_deletion_ex : exists w x v, run (setup ++ [Del 0 0]) world0 = Ok w /\ nth_error (w_displays w) 0 = Some x /\ d_freed x = false /\ d_server x = Some 0%nat /\
  nth_error (w_servers w) 0 = Some v /\ s_freed v = true.
Proof. eexists _, _, _. split; [vm_compute; reflexivity|]. repeat split; reflexivity. Qed.

(** nvnc_display_get_server gives the server that shows the display, or NULL. *)
Theorem C136_get_server_refuted :
  (exists l w s, obeys l world0 /\ run l world0 = Ok w /\ display_get_server 0 w = Ok (Some s) /\ ~ exists_server s w) /\
  (exists l w s, obeys l world0 /\ run l world0 = Ok w /\ display_get_server 0 w = Ok (Some s) /\ exists_server s w /\ ~ displayed_by s 0 w).
Proof.
  split.
  - exists (setup ++ [Del 0 0]). eexists _, _. split; [obey|]. split; [vm_compute; reflexivity|]. split; [reflexivity|].
    intros (v & E & F). cbn in E. injection E as <-. discriminate.
  - exists (setup ++ [Remove 0 0]). eexists _, _. split; [obey|]. split; [vm_compute; reflexivity|]. split; [reflexivity|].
    split; [eexists; split; reflexivity|]. intros (v & E & F & D). cbn in E. injection E as <-. discriminate.
Qed.
Print Assumptions C136_get_server_refuted.

(** What a client gets is always the buffer fed last to the display that its server shows.
    ([l] is everything that happened before; connecting adds a client in front.) *)
Theorem C136_clients_see_the_display :
  forall l w a w' s i c c', run l world0 = Ok w -> step a w = Ok w' -> (forall s, a <> Connect s) -> (forall s n, a <> Del s n) ->
    client_at s i w = Some c -> client_at s i w' = Some c' ->
    c_seen c' = c_seen c \/
    exists d n, c_seen c' = c_seen c ++ [(d, n)] /\ displayed_by s d w' /\ last_fed d (l ++ [a]) = Some n.
Proof.
  intros l w a w' s i c c' R H NC ND C C'. destruct (step_shown a w w' s i c c' H NC ND C C') as [E|(d & n & E & D & x & G & B)]; [now left|]. right.
  exists d, n. split; [exact E|]. split; [exact D|]. pose proof (buffers_step l a w w' (buffers_run l [] world0 w buffers0 R) H) as Bf.
  apply get_display_ok in G as [X F]. specialize (Bf d). rewrite X in Bf. rewrite <- (Bf F). exact B.
Qed.
Print Assumptions C136_clients_see_the_display.
Theorem C136_connecting_changes_no_client :
  forall w w' s, step (Connect s) w = Ok w' -> (forall s' i, client_at s' i w' = client_at s' i w) \/
    (client_at s 0 w' = Some (mk_client true false false false []) /\ (forall i, client_at s (S i) w' = client_at s i w) /\
     forall s' i, s' <> s -> client_at s' i w' = client_at s' i w).
Proof.
  intros w w' s H. cbn [step] in H. unfold connect in H. apply bind_inv in H as (v & G & H). apply get_server_ok in G as [E F].
  destruct (s_display v) as [d|] eqn:D; [|discriminate]. apply bind_inv in H as (x & _ & H). destruct (d_buffer x); injection H as <-; [right|now left].
  rewrite <- D. split; [|split].
  - rewrite (client_at_put s s 0 v _ w E), Nat.eqb_refl. reflexivity.
  - intros i. rewrite (client_at_put s s (S i) v _ w E), Nat.eqb_refl. unfold client_at. rewrite E. reflexivity.
  - intros s' i N. rewrite (client_at_put s s' i v _ w E). destruct (Nat.eqb_spec s' s); [congruence|reflexivity].
Qed.
Print Assumptions C136_connecting_changes_no_client.
Example C136_see_ex : exists w w' c', run setup world0 = Ok w /\ step (Feed 0 8) w = Ok w' /\ client_at 0 0 w' = Some c' /\ c_seen c' = [(0, 7); (0, 8)]%nat.
Proof. eexists _, _, _. split; [vm_compute; reflexivity|]. split; [vm_compute; reflexivity|]. split; reflexivity. Qed.

(** A buffer that is fed reaches every client that waits for an update, and is pending for
    the others.  (Partial: clients of the server to which the display was added last.) *)
Theorem C136_fed_buffers_reach_clients_partial :
  forall w w' d n x s i c, step (Feed d n) w = Ok w' -> nth_error (w_displays w) d = Some x -> d_server x = Some s -> displayed_by s d w ->
    client_at s i w = Some c -> c_open c = true ->
    exists c', client_at s i w' = Some c' /\
      if c_waiting c && negb (c_busy c) then c_seen c' = c_seen c ++ [(d, n)] /\ c_waiting c' = false /\ c_busy c' = true
      else c_seen c' = c_seen c /\ c_damage c' = true /\ c_waiting c' = c_waiting c /\ c_busy c' = c_busy c.
Proof.
  intros w w' d n x s i c H X D Ds C O. eexists. split; [exact (feed_reaches w w' d n x s i c H X D Ds C O)|].
  destruct (c_waiting c && negb (c_busy c)); cbn; auto.
Qed.
Print Assumptions C136_fed_buffers_reach_clients_partial.
Example C136_reach_ex : exists w w' x c, run setup world0 = Ok w /\ step (Feed 0 8) w = Ok w' /\ nth_error (w_displays w) 0 = Some x /\ d_server x = Some 0%nat /\
  displayed_by 0 0 w /\ client_at 0 0 w = Some c /\ c_open c = true /\ c_waiting c = true /\ c_busy c = false.
Proof. eexists _, _, _, _. split; [vm_compute; reflexivity|]. split; [vm_compute; reflexivity|]. repeat split; try reflexivity. eexists. repeat split; reflexivity. Qed.

(** A request is answered at once if there is something to show, in any case if it asks for
    everything; otherwise it waits.  What came while an update was being made is sent when
    that one is done. *)
Theorem C136_requests_are_answered :
  forall w w' s i full d x n c, step (Request s i full) w = Ok w' -> displayed_by s d w -> nth_error (w_displays w) d = Some x ->
    d_buffer x = Some n -> client_at s i w = Some c -> c_open c = true ->
    exists c', client_at s i w' = Some c' /\ c_open c' = true /\
      if negb (c_busy c) && (c_damage c || full) then c_seen c' = c_seen c ++ [(d, n)] /\ c_waiting c' = false /\ c_busy c' = true
      else c_seen c' = c_seen c /\ c_damage c' = (c_damage c || full)%bool /\ c_waiting c' = true /\ c_busy c' = c_busy c.
Proof.
  intros w w' s i full d x n c H D X B C O. eexists. split; [exact (on_client_reaches _ _ _ _ _ _ _ _ _ H D X B C O)|].
  cbn [c_open c_waiting c_busy c_damage c_seen]. destruct (c_busy c), (c_damage c), full; cbn; auto.
Qed.
Print Assumptions C136_requests_are_answered.

Theorem C136_pending_updates_follow :
  forall w w' s i d x n c, step (Encoded s i) w = Ok w' -> displayed_by s d w -> nth_error (w_displays w) d = Some x ->
    d_buffer x = Some n -> client_at s i w = Some c -> c_open c = true ->
    exists c', client_at s i w' = Some c' /\ c_open c' = true /\
      if c_waiting c && c_damage c then c_seen c' = c_seen c ++ [(d, n)] /\ c_waiting c' = false /\ c_busy c' = true
      else c_seen c' = c_seen c /\ c_damage c' = c_damage c /\ c_waiting c' = c_waiting c /\ c_busy c' = false.
Proof.
  intros w w' s i d x n c H D X B C O. eexists. split; [exact (on_client_reaches _ _ _ _ _ _ _ _ _ H D X B C O)|].
  cbn [c_open c_waiting c_busy c_damage c_seen]. destruct (c_waiting c), (c_damage c); cbn; auto.
Qed.
Print Assumptions C136_pending_updates_follow.
Example C136_answered_ex : exists w w1 w2 x c1 c2, run (setup ++ [Feed 0 8; Request 0 0 true]) world0 = Ok w /\
  displayed_by 0 0 w /\ nth_error (w_displays w) 0 = Some x /\ d_buffer x = Some 8%nat /\
  step (Request 0 0 true) w = Ok w1 /\ client_at 0 0 w1 = Some c1 /\ c_busy c1 = true /\ c_waiting c1 = true /\
  step (Encoded 0 0) w1 = Ok w2 /\ client_at 0 0 w2 = Some c2 /\ c_seen c2 = c_seen c1 ++ [(0, 8)]%nat.
Proof.
  eexists _, _, _, _, _, _. split; [vm_compute; reflexivity|]. split; [eexists; repeat split; reflexivity|]. split; [reflexivity|].
  split; [reflexivity|]. split; [vm_compute; reflexivity|]. split; [reflexivity|]. split; [reflexivity|]. split; [reflexivity|].
  split; [vm_compute; reflexivity|]. split; reflexivity.
Qed.

(** A display that two servers show reaches the clients of one only. *)
Theorem C136_fed_buffers_reach_clients_refuted :
  exists l w w' c, obeys l world0 /\ run l world0 = Ok w /\ step (Feed 0 8) w = Ok w' /\ displayed_by 0 0 w /\
    client_at 0 0 w = Some c /\ c_open c = true /\ c_waiting c = true /\ c_busy c = false /\ client_at 0 0 w' = Some c.
Proof.
  exists (setup ++ [NewServer; Add 1 0]). eexists _, _, _. split; [obey|].
  split; [vm_compute; reflexivity|]. split; [vm_compute; reflexivity|]. split; [eexists; repeat split; reflexivity|]. repeat split; reflexivity.
Qed.
Print Assumptions C136_fed_buffers_reach_clients_refuted.

(** Feeding a display that was removed from a server does nothing to the clients of it. *)
Theorem C136_removed_displays_are_silent_refuted :
  exists l w w' c c', obeys l world0 /\ run l world0 = Ok w /\ ~ displayed_by 0 0 w /\ step (Feed 0 8) w = Ok w' /\
    client_at 0 0 w = Some c /\ client_at 0 0 w' = Some c' /\ c_seen c' <> c_seen c.
Proof.
  exists (setup ++ [Remove 0 0; NewDisplay; Add 0 1; Feed 1 9; Encoded 0 0; Request 0 0 false]). eexists _, _, _, _. split; [obey|].
  split; [vm_compute; reflexivity|]. split; [intros (v & E & F & D); cbn in E; injection E as <-; discriminate|]. split; [vm_compute; reflexivity|].
  split; [reflexivity|]. split; [reflexivity|]. discriminate.
Qed.
Print Assumptions C136_removed_displays_are_silent_refuted.
