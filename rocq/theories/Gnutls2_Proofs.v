(** More proofs about the TLS stream: output is not forgotten, failed connections,
    prompt input. *)
From Verif Require Import Common CommonProofs Gnutls_Model Gnutls_Spec Gnutls_Proofs.

(** ** Queued output is watched *)
Definition Q (s : tls) : Prop := N s /\ (closed (snd_half s) = false -> freed s = false /\
  match ph s with
  | Handshake => queue (snd_half s) = [] /\ rd (snd_half s) && wr (snd_half s) = false
  | Ready => settled (snd_half s) /\ watched (snd_half s) = true
  end).

Lemma accept_Q h s : Q s -> ph s = Handshake -> closed (snd_half s) = false -> h <> HFatal -> watched (snd_half s) = true ->
  Q (accept h s) /\ watched (snd_half (accept h s)) = true.
Proof.
  intros [A B] P C Hh W. split; [|destruct h; [exact W|congruence|exact W]]. split; [apply accept_N, A|].
  destruct (B C) as [F Hq]. rewrite P in Hq. intros _. destruct Hq as [Hq _]. destruct h as [| |w]; [|congruence|].
  - cbn. split; [exact F|]. split; [|exact W]. intros _. cbn. rewrite Hq. auto.
  - cbn. destruct w; auto.
Qed.

Lemma accept_fatal_Q s : Q s -> ph s = Handshake -> Q (accept HFatal s).
Proof. intros [A B] P. split; [apply accept_N, A|]. cbn. rewrite P in *. exact B. Qed.

Lemma on_readable_Q h size l s s' : Q s -> freed s = false -> watched (snd_half s) = true -> on_readable h size l s = Ok s' ->
  Q s' /\ (ph s = Ready -> ph s' = Ready).
Proof.
  intros [A B] F W. unfold on_readable. destruct (closed (snd_half s)) eqn:C.
  { intros E; inversion E; subst. split; [split; [exact A|congruence]|auto]. }
  destruct (B eq_refl) as [_ Hq]. destruct (ph s) eqn:P.
  - intros E; inversion E; subst. split; [|discriminate].
    assert (HQ : Q s) by (split; [exact A|rewrite C, P; exact B]).
    destruct h; [|apply accept_fatal_Q; assumption|]; apply accept_Q; auto; discriminate.
  - destruct (on_read_ok size l s A C F) as (u & R & X & D & E & _ & G). rewrite R. intros H; inversion H; subst u.
    split; [|intros _; rewrite E; exact P]. split; [exact X|]. intros C'. split.
    { destruct X as (_ & _ & _ & X). destruct (freed s'); [rewrite X in C' by reflexivity; discriminate|reflexivity]. }
    rewrite E, P. destruct Hq as [Hq _]. split; [apply G, Hq|]. destruct D as (_ & _ & _ & _ & D & _). rewrite (D C'). exact W.
Qed.

Lemma on_writable_Q h s s' : Q s -> freed s = false -> watched (snd_half s) = true -> on_writable h s = Ok s' ->
  Q s' /\ (ph s = Ready -> ph s' = Ready).
Proof.
  intros [A B] F W. unfold on_writable. rewrite F. destruct (closed (snd_half s)) eqn:C.
  { intros E; inversion E; subst. split; [split; [exact A|congruence]|auto]. }
  destruct (B eq_refl) as [_ Hq]. destruct (ph s) eqn:P.
  - intros E; inversion E; subst. split; [|discriminate].
    assert (HQ : Q s) by (split; [exact A|rewrite C, P; exact B]).
    destruct h; [|apply accept_fatal_Q; assumption|]; apply accept_Q; auto; discriminate.
  - destruct A as (HJ & H1 & H2 & H3).
    destruct (flush_now_ok (snd_half s) HJ) as (o & R & X & D & E & _). rewrite R. cbn [bind]. intros H; inversion H; subst s'.
    split; [|intros _; cbn; rewrite P; reflexivity]. split.
    { split; [exact X|]. cbn. split; [exact H1|]. split; [|congruence]. intros Y. rewrite (H2 Y) in C. discriminate. }
    cbn. intros C'. split; [exact F|]. rewrite P. split; [exact E|]. destruct D as (_ & _ & _ & _ & D & _). rewrite (D C'). exact W.
Qed.

Lemma step_Q a s s' : Q s -> (ph s = Ready \/ no_send a) -> step a s = Ok s' -> Q s' /\ (ph s = Ready -> ph s' = Ready).
Proof.
  intros HQ Hn. unfold step. destruct (freed s) eqn:F.
  { intros E; inversion E; subst; auto. }
  assert (HQ0 := HQ). destruct HQ as [HN B]. destruct a as [p cb sc|l|t sc|].
  - destruct HN as (HJ & H1 & H2 & H3).
    destruct (send_ok p cb (set_script sc (snd_half s)) HJ) as (o & R & X & D & E & _). rewrite R. cbn [bind]. intros H; inversion H; subst s'.
    split; [|auto]. split.
    { split; [exact X|]. cbn. split; [exact H1|]. assert (Y := T_mono _ _ D). cbn in Y. auto. }
    cbn. intros C'. split; [exact F|]. destruct Hn as [P|[]]. rewrite P in *.
    assert (C : closed (snd_half s) = false).
    { destruct (closed (snd_half s)) eqn:C; [|reflexivity]. rewrite (T_mono _ _ D C) in C'. discriminate. }
    destruct (B C) as [_ [_ W]]. destruct (E C) as [E1 _]. split; [exact E1|]. destruct D as (_ & _ & _ & _ & D & _). rewrite (D C'). exact W.
  - intros H; inversion H; subst s'. split; [|auto]. split; [|cbn; rewrite F in B; exact B].
    destruct HN as (HJ & H1 & H2 & H3). split; [exact HJ|]. cbn. rewrite F in H3. auto.
  - intros H. unfold on_event in H. cbn [snd_half set_out watched set_script rd wr] in H.
    set (s0 := set_out (set_script sc (snd_half s)) s) in *.
    assert (Q0 : Q s0) by exact HQ0.
    destruct (watched (snd_half s)) eqn:W.
    2:{ inversion H; subst s'. split; [exact Q0|]. auto. }
    assert (W0 : watched (snd_half s0) = true) by exact W.
    assert (F0 : freed s0 = false) by exact F.
    destruct (can_r t && rd (snd_half s)) eqn:Er.
    + destruct (on_readable_ok (h_r t) (space t) (says t) s0 HN F0) as (s1 & A1 & _).
      rewrite A1 in H. cbn [bind] in H.
      destruct (on_readable_Q _ _ _ _ _ Q0 F0 W0 A1) as [Q1 P1].
      destruct (can_w t && wr (snd_half s)) eqn:Ew.
      * destruct (freed s1) eqn:F1; [unfold on_writable in H; rewrite F1 in H; discriminate|].
        destruct (watched (snd_half s1)) eqn:W1.
        { destruct (on_writable_Q _ _ _ Q1 F1 W1 H) as [Q2 P2]. auto. }
        (* the handler was stopped while reading *)
        unfold on_writable in H. rewrite F1 in H. destruct (closed (snd_half s1)) eqn:C1.
        { inversion H; subst. auto. }
        exfalso. destruct Q1 as [N1 B1]. destruct (B1 C1) as [_ X]. destruct (ph s1) eqn:P1'; [|destruct X as [_ X]; congruence].
        destruct (ph s) eqn:P0; [|pose proof (P1 P0); congruence].
        assert (C : closed (snd_half s) = false).
        { unfold on_readable in A1. destruct (closed (snd_half s0)) eqn:Y; [inversion A1; subst s1; congruence|exact Y]. }
        destruct (B C) as [_ [_ Z]]. apply andb_prop in Er, Ew. destruct Er as [_ Er], Ew as [_ Ew]. rewrite Er, Ew in Z. discriminate.
      * inversion H; subst. auto.
    + cbn [bind] in H. destruct (can_w t && wr (snd_half s)).
      * exact (on_writable_Q _ _ _ Q0 F0 W0 H).
      * inversion H; subst. split; [exact Q0|auto].
  - intros H; inversion H; subst s'. split; [|auto]. destruct HN as (HJ & H1 & H2 & H3). split.
    { split; [apply close_J, HJ|]. split; [exact H1|]. split; intros; apply close_closed. }
    cbn. rewrite close_closed. discriminate.
Qed.

Lemma run_Q ops : forall s s', Q s -> (ph s = Ready \/ Forall no_send ops) -> run ops s = Ok s' ->
  Q s' /\ (ph s = Ready -> ph s' = Ready).
Proof.
  induction ops as [|a ops IH]; intros s s' HQ Hn H; cbn in H.
  - inversion H; subst. auto.
  - destruct (step a s) as [s1|] eqn:E; [|discriminate]. cbn in H.
    assert (Ha : ph s = Ready \/ no_send a) by (destruct Hn as [X|X]; [left; exact X|right; inversion X; assumption]).
    destruct (step_Q a s s1 HQ Ha E) as [Q1 P1].
    assert (Hn1 : ph s1 = Ready \/ Forall no_send ops) by (destruct Hn as [X|X]; [left; auto|right; inversion X; assumption]).
    destruct (IH s1 s' Q1 Hn1 H) as [Q2 P2]. auto.
Qed.

Lemma upgrade_Q h : Q (upgrade [] h).
Proof.
  split; [apply upgrade_N|]. intros _. destruct h as [| |w]; cbn.
  - split; [reflexivity|]. split; [|reflexivity]. intros _. cbn. auto.
  - auto.
  - destruct w; auto.
Qed.

(** ** A stopped stream stays stopped *)
Lemma stopped_step a s s' : freed s = false -> watched (snd_half s) = false -> passive a -> step a s = Ok s' ->
  snd_half s' = snd_half (match a with OTurn _ sc => set_out (set_script sc (snd_half s)) s | _ => s end) /\
  freed s' = false /\ told s' = told s.
Proof.
  intros F W P. unfold step. rewrite F. destruct a as [| |t sc|]; try destruct P.
  - intros H; inversion H; subst; auto.
  - unfold on_event. cbn [snd_half set_out watched set_script]. rewrite W. intros H; inversion H; subst; auto.
Qed.

Lemma deaf_run ops : forall s s', deaf s -> Forall passive ops -> run ops s = Ok s' -> deaf s'.
Proof.
  induction ops as [|a ops IH]; intros s s' HD HP H; cbn in H; [inversion H; subst; exact HD|].
  destruct (step a s) as [s1|] eqn:E; [|discriminate]. cbn in H. inversion HP as [|? ? P1 P2]; subst.
  destruct HD as (A & B & C & D). destruct (stopped_step a s s1 C B P1 E) as (X & Y & Z).
  apply (IH s1 s'); [|exact P2|exact H]. unfold deaf. rewrite X, Y, Z. destruct a; cbn; auto.
Qed.

(** A stream closed without a report is never reported. *)
Lemma dead_step a s s' : J (snd_half s) -> closed (snd_half s) = true -> freed s = false -> step a s = Ok s' ->
  J (snd_half s') /\ closed (snd_half s') = true /\ freed s' = false /\ told s' = told s.
Proof.
  intros HJ C F. assert (W : watched (snd_half s) = false).
  { destruct HJ as (k & part & _ & _ & _ & H). rewrite C in H. tauto. }
  unfold step. rewrite F. destruct a as [p cb sc|l|t sc|].
  - unfold send. cbn [closed set_script]. rewrite C. cbn [bind]. intros H; inversion H; subst. auto.
  - intros H; inversion H; subst. auto.
  - unfold on_event. cbn [snd_half set_out watched set_script]. rewrite W. intros H; inversion H; subst. auto.
  - unfold close. rewrite C. intros H; inversion H; subst. auto.
Qed.

Lemma dead_run ops : forall s s', J (snd_half s) -> closed (snd_half s) = true -> freed s = false -> run ops s = Ok s' ->
  closed (snd_half s') = true /\ freed s' = false /\ told s' = told s.
Proof.
  induction ops as [|a ops IH]; intros s s' HJ C F H; cbn in H; [inversion H; subst; auto|].
  destruct (step a s) as [s1|] eqn:E; [|discriminate]. cbn in H.
  destruct (dead_step a s s1 HJ C F E) as (A & B & D & G). destruct (IH s1 s' A B D H) as (X & Y & Z).
  split; [exact X|]. split; [exact Y|]. congruence.
Qed.

(** ** The end of the connection is seen by the next read *)
Lemma end_seen s t sc s' : N s -> ph s = Ready -> closed (snd_half s) = false -> freed s = false ->
  watched (snd_half s) = true -> rd (snd_half s) = true -> pending s = [] ->
  (exists rest, input s = Eof :: rest \/ input s = Broken :: rest) ->
  can_r t = true -> can_w t && wr (snd_half s) = false -> (space t > 0)%nat ->
  step (OTurn t sc) s = Ok s' -> over s'.
Proof.
  intros HN P C F W R Pe (rest & I) Hr Hw Hs. unfold step. rewrite F. unfold on_event.
  cbn [snd_half set_out watched set_script rd wr]. rewrite W, Hr, R, Hw. cbn [andb].
  unfold on_readable. cbn [snd_half set_out ph closed set_script]. rewrite C, P.
  unfold on_read, recv. cbn [pending input set_out]. destruct (space t) as [|n]; [lia|]. rewrite Pe.
  destruct I as [I|I]; rewrite I; cbn [fst snd]; intros H; apply (f_equal (fun x => match x with Ok y => y | _ => s end)) in H; subst s'.
  - split; [apply close_closed|]. right. apply le_n_S, Nat.le_0_l.
  - split; [apply close_closed|]. left. reflexivity.
Qed.

(** ** Records that fit *)
Lemma recv_fits n size s : (n <= size)%nat -> pending s = [] ->
  Forall (fun x => (length (bytes_of x) <= n)%nat) (input s) ->
  pending (snd (recv size s)) = [] /\ Forall (fun x => (length (bytes_of x) <= n)%nat) (input (snd (recv size s))).
Proof.
  intros Hn P I. unfold recv. destruct size as [|size]; [auto|]. rewrite P.
  destruct (input s) as [|x rest] eqn:E; [cbn; rewrite E; auto|]. inversion I as [|? ? I1 I2]; subst.
  destruct x as [[|b bs]| | | |]; cbn -[skipn]; auto. split; [|exact I2]. apply skipn_all2. cbn in I1. cbn. lia.
Qed.

Definition small_in (n : nat) (s : tls) : Prop :=
  pending s = [] /\ Forall (fun x => (length (bytes_of x) <= n)%nat) (input s).

Lemma step_fits n a s s' : fits n a -> small_in n s -> step a s = Ok s' -> small_in n s'.
Proof.
  intros Hf [P I]. unfold step. destruct (freed s) eqn:F; [intros H; inversion H; subst; split; assumption|].
  destruct a as [p cb sc|l|t sc|].
  - destruct (send p cb _); [|discriminate]. cbn. intros H; inversion H; subst. split; assumption.
  - intros H; inversion H; subst. split; [exact P|]. cbn. apply Forall_app. split; assumption.
  - unfold on_event. cbn [snd_half set_out watched set_script rd wr].
    set (s0 := set_out (set_script sc (snd_half s)) s). assert (S0 : small_in n s0) by (split; assumption).
    destruct (watched (snd_half s)); [|intros H; inversion H; subst; exact S0].
    assert (Hr : forall s1, on_readable (h_r t) (space t) (says t) s0 = Ok s1 -> small_in n s1).
    { intros s1. unfold on_readable. destruct (closed (snd_half s0)); [intros H; inversion H; subst; exact S0|].
      destruct (ph s0).
      - intros H; inversion H; subst. destruct (h_r t); exact S0.
      - unfold on_read. destruct (recv_fits n (space t) s0 Hf P I) as [A B].
        destruct (fst (recv (space t) s0)); [destruct (answer (says t) _); [|discriminate]| | |]; cbn [bind]; intros H; inversion H; subst; split; assumption. }
    assert (Hw : forall s1 s2, small_in n s1 -> on_writable (h_w t) s1 = Ok s2 -> small_in n s2).
    { intros s1 s2 X. unfold on_writable. destruct (freed s1); [discriminate|].
      destruct (closed (snd_half s1)); [intros H; inversion H; subst; exact X|]. destruct (ph s1).
      - intros H; inversion H; subst. destruct (h_w t); exact X.
      - destruct (flush_now (snd_half s1)); [|discriminate]. cbn. intros H; inversion H; subst; exact X. }
    destruct (can_r t && rd (snd_half s)).
    + destruct (on_readable (h_r t) (space t) (says t) s0) as [s1|] eqn:E; [|discriminate]. cbn [bind].
      specialize (Hr s1 eq_refl). destruct (can_w t && wr (snd_half s)); [apply Hw, Hr|intros H; inversion H; subst; exact Hr].
    + cbn [bind]. destruct (can_w t && wr (snd_half s)); [apply Hw, S0|intros H; inversion H; subst; exact S0].
  - intros H; inversion H; subst. split; assumption.
Qed.

Lemma run_fits n ops : forall s s', Forall (fits n) ops -> small_in n s -> run ops s = Ok s' -> small_in n s'.
Proof.
  induction ops as [|a ops IH]; intros s s' Hf Hs H; cbn in H; [inversion H; subst; exact Hs|].
  destruct (step a s) as [s1|] eqn:E; [|discriminate]. cbn in H. inversion Hf; subst.
  apply (IH s1 s'); [assumption| |exact H]. apply (step_fits n a s s1); assumption.
Qed.

(** ** With the network quiet nothing more is read *)
Lemma quiet_run ts : forall s s', quiet s -> Forall (fun x => can_r (fst x) = false) ts ->
  run (map (fun x => OTurn (fst x) (snd x)) ts) s = Ok s' -> quiet s' /\ got s' = got s /\ pending s' = pending s.
Proof.
  induction ts as [|[t sc] ts IH]; intros s s' Hq Hp H; cbn in H; [inversion H; subst; auto|].
  inversion Hp as [|? ? P1 P2]; subst. cbn in P1.
  destruct (step (OTurn t sc) s) as [s1|] eqn:E; [|discriminate]. cbn in H.
  assert (X : quiet s1 /\ got s1 = got s /\ pending s1 = pending s).
  { unfold step in E. destruct (freed s) eqn:F; [inversion E; subst; auto|]. unfold on_event in E.
    cbn [snd_half set_out watched set_script rd wr] in E. rewrite P1 in E. cbn [andb bind] in E.
    destruct (watched (snd_half s)); [|inversion E; subst; auto].
    destruct (can_w t && wr (snd_half s)); [|inversion E; subst; auto].
    unfold on_writable in E. cbn [freed set_out] in E. rewrite F in E. cbn [snd_half set_out closed set_script ph] in E.
    destruct (closed (snd_half s)); [inversion E; subst; auto|]. destruct (ph s).
    - inversion E; subst. destruct (h_w t); auto.
    - destruct (flush_now _); [|discriminate]. inversion E; subst; auto. }
  destruct X as (A & B & C). destruct (IH s1 s' A P2 H) as (A' & B' & C'). split; [exact A'|]. split; congruence.
Qed.

(** ** Nothing ends the session while nothing is wrong *)
Definition good (s : tls) : Prop := N s /\ closed (snd_half s) = false /\ freed s = false /\ kind (snd_half s) /\
  Forall (fun x => exists b, x = Rec b) (input s).

Lemma recv_good size s : (size > 0)%nat -> Forall (fun x => exists b, x = Rec b) (input s) ->
  (exists b, fst (recv size s) = Data b) \/ fst (recv size s) = TryAgain.
Proof.
  intros Hs I. unfold recv. destruct size as [|size]; [lia|]. destruct (pending s); [|left; eexists; reflexivity].
  destruct (input s) as [|x rest]; [right; reflexivity|]. inversion I as [|? ? (b & E) I2]; subst.
  destruct b; [right; reflexivity|left; eexists; reflexivity].
Qed.

Lemma recv_input size s P : Forall P (input s) -> Forall P (input (snd (recv size s))).
Proof.
  intros I. unfold recv. destruct size as [|size]; [exact I|]. destruct (pending s); [|exact I].
  destruct (input s) as [|x rest] eqn:E; [cbn; rewrite E; constructor|]. inversion I; subst.
  destruct x as [[|b bs]| | | |]; assumption.
Qed.

Lemma accept_good h s : good s -> good (accept h s).
Proof.
  intros (A & B & C & D & E). split; [apply accept_N, A|]. destruct h; auto.
Qed.

Lemma step_good a s : good s -> harmless a -> data_only a -> gentle_op a -> exists s', step a s = Ok s' /\ good s'.
Proof.
  intros HG Hh Hd Hg. assert (HG0 := HG). destruct HG as (HN & C & F & K & I). unfold step. rewrite F.
  destruct a as [p cb sc|l|t sc|]; [| | |destruct Hh].
  - assert (HN' := HN). destruct HN as (HJ & H1 & H2 & H3).
    destruct (send_ok p cb (set_script sc (snd_half s)) HJ) as (o & R & X & D & _ & G). rewrite R. cbn [bind].
    destruct (G K Hg Hh C) as [K' C']. eexists. split; [reflexivity|]. split; [|split; [exact C'|auto]].
    split; [exact X|]. cbn. split; [exact H1|]. split; [intros Y; rewrite (H2 Y) in C; discriminate|congruence].
  - eexists. split; [reflexivity|]. split; [|cbn; split; [exact C|]; split; [reflexivity|]; split; [exact K|]; apply Forall_app; split; assumption].
    destruct HN as (HJ & H1 & H2 & H3). split; [exact HJ|]. cbn. repeat split; auto. discriminate.
  - destruct Hh as (Hf & Hhr & Hhw & Hs). unfold on_event. cbn [snd_half set_out watched set_script rd wr].
    set (s0 := set_out (set_script sc (snd_half s)) s). assert (G0 : good s0 /\ (forall x, In x (script (snd_half s0)) -> In x sc)) by (split; [exact HG0|auto]).
    destruct (watched (snd_half s)); [|eexists; split; [reflexivity|apply G0]].
    assert (Hw : forall s1, good s1 /\ (forall x, In x (script (snd_half s1)) -> In x sc) -> exists s2, on_writable (h_w t) s1 = Ok s2 /\ good s2).
    { intros s1 [(HN1 & C1 & F1 & K1 & I1) Hsc]. unfold on_writable. rewrite F1, C1. destruct (ph s1).
      - eexists. split; [reflexivity|]. apply accept_good. split; [exact HN1|auto].
      - destruct HN1 as (HJ & H1 & H2 & H3). destruct (flush_now_ok (snd_half s1) HJ) as (o & R & X & D & _ & G). rewrite R. cbn [bind].
        destruct (G K1 (fun Z => Hf (Hsc _ Z)) C1) as [K' C']. eexists. split; [reflexivity|]. split; [|split; [exact C'|auto]].
        split; [exact X|]. cbn. split; [exact H1|]. split; [intros Y; rewrite (H2 Y) in C1; discriminate|congruence]. }
    assert (Hr : exists s1, on_readable (h_r t) (space t) (says t) s0 = Ok s1 /\ good s1 /\ (forall x, In x (script (snd_half s1)) -> In x sc)).
    { destruct G0 as [(HN0 & C0 & F0 & K0 & I0) Hsc]. unfold on_readable. rewrite C0. destruct (ph s0).
      - eexists. split; [reflexivity|]. split; [apply accept_good; split; [exact HN0|auto]|]. intros x Hx. apply Hsc. destruct (h_r t); exact Hx.
      - unfold on_read. destruct (recv_snd (space t) s0) as (R1 & R2 & R3 & R4 & R5).
        pose proof (recv_input (space t) s0 _ I0) as RI.
        destruct (recv_good (space t) s0 Hs I0) as [[b E]|E]; rewrite E.
        + destruct HN0 as (HJ & H1 & H2 & H3).
          destruct (answer_ok (says t) (snd_half (snd (recv (space t) s0)))) as (o & A & B & D & _ & G); [rewrite R1; exact HJ|].
          rewrite A. cbn [bind]. rewrite R1 in *. destruct (G K0 (fun Z => Hf (Hsc _ Z)) C0) as [K' C'].
          eexists. split; [reflexivity|]. split; [|cbn; intros x Hx; apply Hsc; destruct D as (_ & _ & _ & _ & _ & D); apply D, Hx].
          split; [|cbn; rewrite R4; split; [exact C'|auto]]. split; [exact B|]. cbn. rewrite R3, R4.
          split; [exact H1|]. split; [intros Y; rewrite (H2 Y) in C0; discriminate|congruence].
        + eexists. split; [reflexivity|]. split; [|rewrite R1; exact Hsc]. split; [|rewrite R1, R4; auto].
          destruct HN0 as (HJ & H1 & H2 & H3). split; [rewrite R1; exact HJ|]. rewrite R1, R3, R4. auto. }
    destruct (can_r t && rd (snd_half s)).
    + destruct Hr as (s1 & A & B). rewrite A. cbn [bind]. destruct (can_w t && wr (snd_half s)); [apply Hw, B|exists s1; split; [reflexivity|apply B]].
    + cbn [bind]. destruct (can_w t && wr (snd_half s)); [apply Hw, G0|exists s0; split; [reflexivity|apply G0]].
Qed.

Lemma run_good ops : forall s, good s -> Forall harmless ops -> Forall data_only ops -> Forall gentle_op ops ->
  exists s', run ops s = Ok s' /\ good s'.
Proof.
  induction ops as [|a ops IH]; intros s G H D E; [exists s; split; [reflexivity|exact G]|].
  inversion H; inversion D; inversion E; subst. cbn.
  destruct (step_good a s G) as (s1 & A & B); try assumption. rewrite A. cbn [bind]. apply IH; assumption.
Qed.

Lemma left_over_gentle ps : forall i, forallb (fun r => forallb gentle (rcb r)) (left_over i ps) = true.
Proof. induction ps; intros i; cbn; auto. Qed.

Lemma upgrade_good ps h : good (upgrade ps h).
Proof.
  split; [apply upgrade_N|]. destruct h; cbn; (split; [reflexivity|]; split; [reflexivity|]; split; [unfold kind; cbn; apply left_over_gentle|constructor]).
Qed.

(** The invariant in the terms of the specification. *)
Lemma J_readable o : J o -> exists k, carries k (accepted o) (wire o) /\ (k <= length (accepted o))%nat /\
    (closed o = false -> (k + length (queue o) = length (accepted o))%nat) /\
    NoDup (map fst (finished o)) /\
    (forall i, In (i, DONE) (finished o) <-> (i < k)%nat) /\
    (forall i, In (i, FAILED) (finished o) <-> closed o = true /\ (k <= i < length (accepted o))%nat).
Proof.
  intros (k & part & L & W & P & H). exists k. split; [exists part; auto|]. split; [exact L|].
  assert (Hd : forall i, In (i, DONE) (dones k) <-> (i < k)%nat).
  { intros i. unfold dones. rewrite in_map_iff. split.
    - intros (x & E & Hx). inversion E; subst. apply in_seq in Hx. lia.
    - intros Hi. exists i. split; [reflexivity|]. apply in_seq. lia. }
  assert (Hd' : forall i, ~ In (i, FAILED) (dones k)).
  { intros i Hi. unfold dones in Hi. apply in_map_iff in Hi. destruct Hi as (x & E & _). discriminate. }
  destruct (closed o).
  - destruct H as (H1 & H2 & F). split; [discriminate|]. rewrite F.
    assert (Hf : forall i x, In (i, x) (fails k (length (accepted o) - k)) <-> x = FAILED /\ (k <= i < length (accepted o))%nat).
    { intros i x. unfold fails. rewrite in_map_iff. split.
      - intros (y & E & Hy). inversion E; subst. apply in_seq in Hy. split; [reflexivity|lia].
      - intros [E Hi]. exists i. subst. split; [reflexivity|]. apply in_seq. lia. }
    split; [|split].
    + unfold dones, fails. rewrite map_app, !map_map. cbn [fst]. rewrite !map_id, <- seq_app. apply seq_NoDup.
    + intros i. rewrite in_app_iff, Hd, Hf. split; [intros [A|[A _]]; [exact A|discriminate]|auto].
    + intros i. rewrite in_app_iff, Hf. split; [intros [A|A]; [exfalso; exact (Hd' i A)|split; [reflexivity|apply A]]|].
      intros [_ A]. right. auto.
  - destruct H as (F & R & _). split; [intros _; rewrite <- (map_length rid), R, seq_length; lia|]. rewrite F.
    split; [|split].
    + unfold dones. rewrite map_map. cbn [fst]. rewrite map_id. apply seq_NoDup.
    + exact Hd.
    + intros i. split; [intros A; exfalso; exact (Hd' i A)|intros [A _]; discriminate].
Qed.
