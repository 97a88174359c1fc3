(** TLS stream: C98 - C103. *)
From Verif Require Import Common CommonProofs Gnutls_Model Gnutls_Spec Gnutls_Proofs Gnutls2_Proofs.

(** C98.  Over TLS, after any sequence of sends, events, arrivals and closes, with
    any behaviour of GnuTLS and of the network and any callbacks (that may send and
    close while the queue is being worked on): the session was given the payloads
    in the order in which they were accepted, whole and once, and perhaps a first
    part of the next one; each was finished exactly once, as done exactly if it was
    given whole, as failed only when the stream was closed. *)
Theorem C98_tls_in_order_once : forall ps h ops s, run ops (upgrade ps h) = Ok s ->
  let o := snd_half s in
  exists k, carries k (accepted o) (wire o) /\ (k <= length (accepted o))%nat /\
    (closed o = false -> (k + length (queue o) = length (accepted o))%nat) /\
    NoDup (map fst (finished o)) /\
    (forall i, In (i, DONE) (finished o) <-> (i < k)%nat) /\
    (forall i, In (i, FAILED) (finished o) <-> closed o = true /\ (k <= i < length (accepted o))%nat).
Proof.
  intros ps h ops s H. pose proof (run_ok ops (upgrade ps h) (upgrade_N ps h)) as R. rewrite H in R.
  destruct R as ((HJ & _) & _). exact (J_readable _ HJ).
Qed.
Print Assumptions C98_tls_in_order_once.

(** A payload offered to an open stream is accepted, after those accepted before. *)
Theorem C98_send_accepts : forall ps h ops s p cb sc s', run ops (upgrade ps h) = Ok s ->
  closed (snd_half s) = false -> step (OSend p cb sc) s = Ok s' ->
  exists more, accepted (snd_half s') = accepted (snd_half s) ++ p :: more.
Proof.
  intros ps h ops s p cb sc s' H C E. pose proof (run_ok ops (upgrade ps h) (upgrade_N ps h)) as R. rewrite H in R.
  destruct R as ((HJ & _ & _ & H3) & _). unfold step in E.
  destruct (freed s); [rewrite H3 in C by reflexivity; discriminate|].
  destruct (send_ok p cb (set_script sc (snd_half s)) HJ) as (o & A & _ & _ & G & _). rewrite A in E. inversion E; subst.
  apply (G C).
Qed.
Print Assumptions C98_send_accepts.

(** Sending and closing never fail, whatever the callbacks do. *)
Theorem C98_send_no_fault : forall ps h ops s a, run ops (upgrade ps h) = Ok s ->
  (exists p cb sc, a = OSend p cb sc) \/ a = OClose -> exists s', step a s = Ok s'.
Proof.
  intros ps h ops s a H Ha. pose proof (run_ok ops (upgrade ps h) (upgrade_N ps h)) as R. rewrite H in R.
  destruct R as (HN & _). pose proof (step_ok a s HN) as X. destruct (step a s) as [s'|e]; [exists s'; reflexivity|].
  exfalso. destruct X as [_ X]. apply X. destruct Ha as [(p & cb & sc & E)|E]; subst; exact I.
Qed.
Print Assumptions C98_send_no_fault.

(* a send cut in the middle; a callback that sends, whose callback closes *)
Example C98_case : exists s, run
  [OSend [1; 2; 3] [ASend [4] [AClose]; ASend [5] []] [Sent 2];
   OTurn (mk_turn false true HOk HOk 1 []) [Sent 1; Sent 1]; OSend [6] [] []] (upgrade [] HOk) = Ok s /\
  wire (snd_half s) = [1; 2; 3; 4] /\ finished (snd_half s) = [(0%nat, DONE); (1%nat, DONE)] /\ closed (snd_half s) = true.
Proof. eexists. split; [vm_compute; reflexivity|]. repeat split. Qed.
Example C98_case_failed : exists s, run
  [OSend [1; 2; 3] [] [Sent 2]; OSend [4] [] [Again]; OClose] (upgrade [] HOk) = Ok s /\
  wire (snd_half s) = [1; 2] /\ finished (snd_half s) = [(0%nat, FAILED); (1%nat, FAILED)].
Proof. eexists. split; [vm_compute; reflexivity|]. split; reflexivity. Qed.

(** C99.  Full claim: while data is queued on an open TLS stream the event loop is
    asked for write events.  False when something was sent while the handshake was
    under way: its end switches write events off. *)
Theorem C99_handshake_forgets_refuted : exists ops s, run ops (upgrade [] (HAgain false)) = Ok s /\
  ph s = Ready /\ closed (snd_half s) = false /\ queue (snd_half s) <> [] /\ wr (snd_half s) = false.
Proof.
  exists [OSend [9] [] [Again]; OTurn (mk_turn true false HOk HOk 1 []) []]. eexists.
  split; [vm_compute; reflexivity|]. repeat split. discriminate.
Qed.
Print Assumptions C99_handshake_forgets_refuted.

(** What the unencrypted stream still had queued when the encryption started is
    handed to the TLS session, so that a client expecting it in the clear before
    the handshake never sees it. *)
Theorem C99_left_over_refuted : exists ops s, run ops (upgrade [[1]] (HAgain false)) = Ok s /\
  ph s = Ready /\ wire (snd_half s) = [1; 7].
Proof.
  exists [OTurn (mk_turn true false HOk HOk 1 []) []; OSend [7] [] [Sent 1; Sent 1]]. eexists.
  split; [vm_compute; reflexivity|]. split; reflexivity.
Qed.
Print Assumptions C99_left_over_refuted.

(** It holds when nothing was queued at the upgrade and nothing is sent until the
    handshake is done ([before]); afterwards anything may happen.  The stream also
    keeps listening. *)
Theorem C99_output_watched_partial : forall h before s1 after s,
  run before (upgrade [] h) = Ok s1 -> Forall no_send before -> ph s1 = Ready ->
  run after s1 = Ok s -> closed (snd_half s) = false ->
  watched (snd_half s) = true /\ rd (snd_half s) = true /\ (queue (snd_half s) <> [] <-> wr (snd_half s) = true).
Proof.
  intros h before s1 after s H1 Hn P H2 C.
  destruct (run_Q before _ _ (upgrade_Q h) (or_intror Hn) H1) as [Q1 _].
  destruct (run_Q after _ _ Q1 (or_introl P) H2) as [[_ Q2] P2]. rewrite (P2 P) in Q2.
  destruct (Q2 C) as (_ & Q3 & W). destruct (Q3 C) as [A B]. split; [exact W|]. split; [exact A|].
  destruct (queue (snd_half s)); rewrite B; split; intros; try congruence; discriminate.
Qed.
Print Assumptions C99_output_watched_partial.

Example C99_case : exists s1 s, run [OTurn (mk_turn true false (HAgain true) HOk 1 []) []; OTurn (mk_turn false true HOk HOk 1 []) []] (upgrade [] (HAgain false)) = Ok s1 /\
  ph s1 = Ready /\ run [OSend [1; 2] [ASend [3] []] [Sent 1]; OSend [4] [] [Sent 1; Again]] s1 = Ok s /\
  closed (snd_half s) = false /\ length (queue (snd_half s)) = 2%nat.
Proof. eexists. eexists. split; [vm_compute; reflexivity|]. split; [reflexivity|]. split; [vm_compute; reflexivity|]. split; reflexivity. Qed.

(** C100.  Full claim: a connection that has failed is closed and the server told,
    so that the client is removed.  False in two ways.  A handshake that fails
    after its first step leaves the connection open and unwatched for ever. *)
Theorem C100_failed_handshake_refuted : exists ops s, run ops (upgrade [] (HAgain false)) = Ok s /\
  deaf s /\ forall more s', Forall passive more -> run more s = Ok s' -> deaf s'.
Proof.
  exists [OTurn (mk_turn true false HFatal HFatal 1 []) []]. eexists. split; [vm_compute; reflexivity|].
  assert (D : deaf (mk_tls (mk_out false [] [] true false false [] [] []) Handshake [] [] [] 0 false)) by (repeat split).
  split; [exact D|]. intros more s' P R. exact (deaf_run more _ s' D P R).
Qed.
Print Assumptions C100_failed_handshake_refuted.

(** A fatal error while sending closes the stream, but nobody is told, then or later. *)
Theorem C100_failed_send_refuted : exists ops s, run ops (upgrade [] HOk) = Ok s /\
  closed (snd_half s) = true /\ freed s = false /\ told s = 0%nat /\
  forall more s', run more s = Ok s' -> freed s' = false /\ told s' = 0%nat.
Proof.
  exists [OSend [1] [] [Fatal]]. eexists. split; [vm_compute; reflexivity|].
  repeat (split; [reflexivity|]). intros more s' R.
  pose proof (run_ok [OSend [1] [] [Fatal]] (upgrade [] HOk) (upgrade_N [] HOk)) as X. cbn in X. destruct X as ((HJ & _) & _).
  destruct (dead_run more _ s' HJ eq_refl eq_refl R) as (_ & A & B). split; [exact A|exact B].
Qed.
Print Assumptions C100_failed_send_refuted.

(** The end of the session, or a fatal error, met by a read is reported and the
    stream closed. *)
Theorem C100_end_reported_partial : forall ps h ops s t sc s',
  run ops (upgrade ps h) = Ok s -> ph s = Ready -> closed (snd_half s) = false ->
  watched (snd_half s) = true -> rd (snd_half s) = true -> pending s = [] ->
  (exists rest, input s = Eof :: rest \/ input s = Broken :: rest) ->
  can_r t = true -> can_w t && wr (snd_half s) = false -> (space t > 0)%nat ->
  step (OTurn t sc) s = Ok s' -> over s'.
Proof.
  intros ps h ops s t sc s' H P C W R Pe I Hr Hw Hs E.
  pose proof (run_ok ops (upgrade ps h) (upgrade_N ps h)) as X. rewrite H in X. destruct X as (HN & _).
  assert (F : freed s = false). { destruct HN as (_ & _ & _ & Y). destruct (freed s); [rewrite Y in C by reflexivity; discriminate|reflexivity]. }
  exact (end_seen s t sc s' HN P C F W R Pe I Hr Hw Hs E).
Qed.
Print Assumptions C100_end_reported_partial.

(** It is reported at most once, and only for a closed stream. *)
Theorem C100_told_once : forall ps h ops s, run ops (upgrade ps h) = Ok s ->
  (told s <= 1)%nat /\ (told s = 1%nat \/ freed s = true -> closed (snd_half s) = true).
Proof.
  intros ps h ops s H. pose proof (run_ok ops (upgrade ps h) (upgrade_N ps h)) as X. rewrite H in X.
  destruct X as ((_ & A & B & C) & _). split; [exact A|]. intros [D|D]; auto.
Qed.
Print Assumptions C100_told_once.

Example C100_case : exists s s', run [OArrive [Rec [5]; Eof]; OTurn (mk_turn true false HOk HOk 9 [[8]]) [Sent 1]] (upgrade [] HOk) = Ok s /\
  step (OTurn (mk_turn true false HOk HOk 9 []) []) s = Ok s' /\ told s = 0%nat /\ told s' = 1%nat /\ over s'.
Proof. eexists. eexists. split; [vm_compute; reflexivity|]. split; [vm_compute; reflexivity|]. repeat split. right. cbn. lia. Qed.

(** C101.  What the server reads from a TLS connection is what arrived, in order,
    nothing lost or repeated: the bytes read, those decrypted and waiting, and those
    still on the network are together all the bytes that arrived. *)
Theorem C101_tls_input_in_order : forall ps h ops s, run ops (upgrade ps h) = Ok s ->
  is_prefix (got s) (flat_map arrived ops) /\
  (freed s = false -> got s ++ pending s ++ concat (map bytes_of (input s)) = flat_map arrived ops).
Proof.
  intros ps h ops s H. pose proof (run_ok ops (upgrade ps h) (upgrade_N ps h)) as X. rewrite H in X.
  assert (E0 : all_in (upgrade ps h) = []) by (destruct h; reflexivity). rewrite E0 in X.
  destruct X as (_ & A & (m & B & r & D) & _). cbn in A, B. split; [|exact A].
  rewrite D, <- B. unfold all_in. eexists. rewrite <- app_assoc. reflexivity.
Qed.
Print Assumptions C101_tls_input_in_order.

(** Full claim: once the network is quiet all that arrived has been read.  False: of
    a record longer than the space the server offers only the first part is read;
    the rest waits inside the TLS session, where the event loop does not see it,
    until the client sends more.  This is so for every record and every space (at
    most 4096 bytes; a TLS record holds up to 16384). *)
Theorem C101_long_record_waits : forall n b, (0 < n < length b)%nat -> exists s,
  run [OArrive [Rec b]; OTurn (mk_turn true false HOk HOk n []) []] (upgrade [] HOk) = Ok s /\
  closed (snd_half s) = false /\ quiet s /\ got s = firstn n b /\
  forall ts s', Forall (fun x => can_r (fst x) = false) ts ->
    run (map (fun x => OTurn (fst x) (snd x)) ts) s = Ok s' -> got s' = firstn n b.
Proof.
  intros n b Hn. destruct n as [|n]; [lia|]. destruct b as [|x b]; [cbn in Hn; lia|].
  exists (mk_tls (mk_out false [] [] true false true [] [] []) Ready [] (skipn (S n) (x :: b)) (firstn (S n) (x :: b)) 0 false).
  split; [reflexivity|]. split; [reflexivity|]. split; [reflexivity|]. split; [reflexivity|].
  intros ts s' P R. refine (proj1 (proj2 (quiet_run ts _ s' _ P R))). reflexivity.
Qed.
Print Assumptions C101_long_record_waits.

Theorem C101_record_stuck_refuted : exists ops s, run ops (upgrade [] HOk) = Ok s /\
  closed (snd_half s) = false /\ quiet s /\ got s <> flat_map arrived ops.
Proof.
  exists [OArrive [Rec [1; 2; 3]]; OTurn (mk_turn true false HOk HOk 2 []) []]. eexists.
  split; [reflexivity|]. split; [reflexivity|]. split; [reflexivity|]. vm_compute. discriminate.
Qed.
Print Assumptions C101_record_stuck_refuted.

(** It holds when every record fits into the space offered to each read. *)
Theorem C101_prompt_partial : forall ps h n ops s, run ops (upgrade ps h) = Ok s -> Forall (fits n) ops ->
  quiet s -> freed s = false -> got s = flat_map arrived ops.
Proof.
  intros ps h n ops s H Hf Hq F. destruct (C101_tls_input_in_order ps h ops s H) as [_ A]. specialize (A F).
  assert (S0 : small_in n (upgrade ps h)) by (destruct h; split; (reflexivity || constructor)).
  destruct (run_fits n ops _ s Hf S0 H) as [P _]. unfold quiet in Hq. rewrite P, Hq in A. cbn in A.
  rewrite app_nil_r in A. exact A.
Qed.
Print Assumptions C101_prompt_partial.

Example C101_case : exists s,
  run [OArrive [Rec [1; 2]; Rec [3]]; OTurn (mk_turn true false HOk HOk 2 []) []; OTurn (mk_turn true false HOk HOk 2 [[9]]) [Sent 1]] (upgrade [] HOk) = Ok s /\
  quiet s /\ freed s = false /\ got s = [1; 2; 3] /\ wire (snd_half s) = [9].
Proof. eexists. split; [vm_compute; reflexivity|]. repeat split. Qed.

(** C102.  Full claim: what GnuTLS does not call fatal - a signal during a read, a
    warning alert - does not end the session.  False: any error from a read other
    than GNUTLS_E_AGAIN makes the server drop the client. *)
Theorem C102_notice_drops_client_refuted : exists ops s, Forall harmless ops /\
  run ops (upgrade [] HOk) = Ok s /\ freed s = true.
Proof.
  exists [OArrive [Notice; Rec [1]]; OTurn (mk_turn true false HOk HOk 64 []) []]. eexists.
  split; [repeat constructor; cbn; try discriminate; intuition lia|]. split; [vm_compute; reflexivity|reflexivity].
Qed.
Print Assumptions C102_notice_drops_client_refuted.

Theorem C102_signal_drops_client_refuted : exists ops s, Forall harmless ops /\
  run ops (upgrade [] HOk) = Ok s /\ freed s = true.
Proof.
  exists [OArrive [Signal; Rec [1]]; OTurn (mk_turn true false HOk HOk 64 []) []]. eexists.
  split; [repeat constructor; cbn; try discriminate; intuition lia|]. split; [vm_compute; reflexivity|reflexivity].
Qed.
Print Assumptions C102_signal_drops_client_refuted.

(** When only application data arrives and nothing fatal happens, the session goes
    on and no operation fails. *)
Theorem C102_session_goes_on_partial : forall ps h ops, h <> HFatal ->
  Forall harmless ops -> Forall data_only ops -> Forall gentle_op ops ->
  exists s, run ops (upgrade ps h) = Ok s /\ closed (snd_half s) = false /\ freed s = false.
Proof.
  intros ps h ops _ A B C. destruct (run_good ops (upgrade ps h) (upgrade_good ps h) A B C) as (s & R & G).
  exists s. split; [exact R|]. destruct G as (_ & X & Y & _). auto.
Qed.
Print Assumptions C102_session_goes_on_partial.

Example C102_case : Forall harmless [OArrive [Rec [1]; Rec []]; OTurn (mk_turn true true HOk (HAgain true) 3 [[2]]) [Sent 0; Again]; OSend [3] [ASend [4] []] []] /\
  Forall gentle_op [OArrive [Rec [1]; Rec []]; OTurn (mk_turn true true HOk (HAgain true) 3 [[2]]) [Sent 0; Again]; OSend [3] [ASend [4] []] []].
Proof. split; repeat constructor; cbn; try discriminate; intuition (try lia; discriminate). Qed.

(** C103.  Full claim: no turn of the event loop uses a stream that was freed.
    False: when a read fails while output is queued, the client and its stream are
    freed and the stream is then asked whether it can write. *)
Theorem C103_write_after_free_refuted : exists ops, run ops (upgrade [] HOk) = Fault UseAfterFree.
Proof.
  exists [OSend [1; 2] [] [Sent 1]; OArrive [Broken]; OTurn (mk_turn true true HOk HOk 64 []) []].
  vm_compute. reflexivity.
Qed.
Print Assumptions C103_write_after_free_refuted.

(** No other failure is possible, and this one only in a turn that finds the
    connection readable and writable at once. *)
Theorem C103_one_event_partial : forall ps h ops, Forall one_event ops -> exists s, run ops (upgrade ps h) = Ok s.
Proof.
  intros ps h ops H. pose proof (run_ok ops (upgrade ps h) (upgrade_N ps h)) as X.
  destruct (run ops (upgrade ps h)) as [s|e]; [exists s; reflexivity|]. destruct X as [_ X]. contradiction.
Qed.
Print Assumptions C103_one_event_partial.

Theorem C103_only_fault : forall ps h ops e, run ops (upgrade ps h) = Fault e -> e = UseAfterFree.
Proof.
  intros ps h ops e H. pose proof (run_ok ops (upgrade ps h) (upgrade_N ps h)) as X. rewrite H in X. apply X.
Qed.
Print Assumptions C103_only_fault.

Example C103_case : Forall one_event [OSend [1; 2] [] [Sent 1]; OArrive [Broken]; OTurn (mk_turn true false HOk HOk 64 []) []] /\
  exists s, run [OSend [1; 2] [] [Sent 1]; OArrive [Broken]; OTurn (mk_turn true false HOk HOk 64 []) []] (upgrade [] HOk) = Ok s /\ freed s = true.
Proof. split; [repeat constructor|]. eexists. split; [vm_compute; reflexivity|reflexivity]. Qed.
