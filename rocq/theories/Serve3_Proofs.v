(** Whole connections over each kind of stream, and what they need. *)
From Verif Require Import Common CommonProofs Pixels_Model Init_Model Auth_Model Msg_Model Msg_Spec Msg_Proofs
  Talk_Model Talk_Spec Serve_Model Serve_Spec Serve2_Proofs.
From Verif Require Auth_Spec Auth_Proofs Auth2_Proofs Hand_Spec Hand_Proofs Hand2_Proofs Serve_Proofs Talk2_Proofs Talk3_Proofs Talk4_Proofs
  WsStream_Model WsStream_Spec RsaAes_Model Gnutls_Model.

Lemma road_heard seal unseal mac cfg e E shown seq n bytes go : road seal unseal mac cfg e E shown seq n bytes go -> 1 <= n <= 4096 ->
  forall fuel c0 h H f l m pf ms rest c',
  Hand2_Proofs.loop cfg e c0 (map (pair f) H) = Ok (h, []) -> st c0 <> SReady -> st c0 <> SError -> st h = SReady ->
  Hand2_Proofs.loop cfg e c0 [] = Ok (c0, []) ->
  encrypted (ch c0) = f -> encrypted (ch h) = f ->
  Auth_Model.log h = l ++ [Auth_Model.Sent (ch h) m; NewClient] ->
  send_server_init_message (server_name e) (displayed e l) = Some (m, pf) ->
  zlen H <= n -> all_bytes bytes -> Forall (short n) ms -> begins n rest -> bytes = H ++ concat ms ++ rest ->
  handled E (ready pf shown seq) ms c' -> go fuel (Shaking c0 []) = Ok (Serving h (set_buf rest c')).
Proof.
  intros W N fuel c0 h H f l m pf ms rest c' HL NR NE HR H0 K0 K LG IN HF AB SH BE B HA.
  assert (HN : H <> []).
  { intros ->. cbn [map] in HL. rewrite HL in H0. apply ok_inj in H0. congruence. }
  assert (R0 : reached cfg e E shown seq fuel c0 h H f pf [] (Shaking c0 [])).
  { left. exists c0, [], H. split; [reflexivity|]. split; [reflexivity|]. split; [exact HN|]. split; [exact H0|].
    split; [exact NR|]. split; [exact NE|exact HL]. }
  destruct W as [segs F|hs eagain fs segs BS F WI CU|k rs segs KP CI G F WI|s0 segs I P F].
  - rewrite B in AB.
    destruct (attend_on cfg e E shown seq fuel n c0 h H f l m pf ms rest c' HL HR K0 K LG IN HF AB SH BE HA
      tcp_read (Talk4_Proofs.tcp_course n (concat segs))) with (s := @nil Z) (segs := segs) (out := @nil Z) (g := Shaking c0 []) as (s' & T).
    + intros. apply Talk4_Proofs.tcp_next; auto; lia.
    + intros s out sg (_ & _ & T). exists (concat sg). congruence.
    + intros s out (_ & _ & T). cbn [concat] in T. rewrite app_nil_r in T. congruence.
    + split; [exact F|]. split; reflexivity.
    + exact R0.
    + rewrite T. reflexivity.
  - assert (AB' := AB). rewrite B in AB'.
    destruct (attend_on cfg e E shown seq fuel n c0 h H f l m pf ms rest c' HL HR K0 K LG IN HF AB' SH BE HA
      (web_read hs eagain) (Talk2_Proofs.on_course n fs (WsStream_Spec.data fs)))
      with (s := WsStream_Model.ws_ready0) (segs := segs) (out := @nil Z) (g := Shaking c0 []) as (s' & T).
    + intros. apply Talk2_Proofs.web_next; auto; lia.
    + intros s out sg X. rewrite <- B. exact (Talk2_Proofs.web_inside _ _ _ _ _ _ X).
    + intros s out X. rewrite <- B. exact (Talk2_Proofs.web_done _ _ _ _ _ X).
    + apply Talk2_Proofs.web_start with (rest := []); auto; [rewrite app_nil_r; exact WI|].
      rewrite WI. destruct (Talk4_Proofs.cut_end fs) as (b & C & ->). exact C.
    + exact R0.
    + rewrite T. reflexivity.
  - assert (AB' := AB). rewrite B in AB'.
    destruct (attend_on cfg e E shown seq fuel n c0 h H f l m pf ms rest c' HL HR K0 K LG IN HF AB' SH BE HA
      (rsa_read unseal mac) (Talk3_Proofs.rsa_course seal mac n k rs))
      with (s := (RsaAes_Model.rstate0, @nil Z)) (segs := segs) (out := @nil Z) (g := Shaking c0 []) as (s' & T).
    + intros. eapply Talk3_Proofs.rsa_next; eauto; lia.
    + intros s out sg X. rewrite <- B. exact (Talk3_Proofs.rsa_inside _ _ _ _ _ _ _ _ X).
    + intros s out X. rewrite <- B. exact (Talk3_Proofs.rsa_done _ _ _ _ _ _ _ X).
    + eapply Talk3_Proofs.rsa_start; eauto.
    + exact R0.
    + rewrite T. reflexivity.
  - assert (AB' := AB). rewrite B in AB'.
    destruct (attend_on cfg e E shown seq fuel n c0 h H f l m pf ms rest c' HL HR K0 K LG IN HF AB' SH BE HA
      tls_read (Talk4_Proofs.tls_course n (concat segs))) with (s := s0) (segs := segs) (out := @nil Z) (g := Shaking c0 []) as (s' & T).
    + intros. apply Talk4_Proofs.tls_next; auto; lia.
    + intros s out sg (_ & _ & _ & T). exists (concat sg). congruence.
    + intros s out (_ & _ & _ & T). cbn [concat] in T. rewrite app_nil_r in T. congruence.
    + split; [exact F|]. split; [exact I|]. split; [exact P|reflexivity].
    + exact R0.
    + rewrite T. reflexivity.
Qed.

(* nothing to read: nothing happens *)
Lemma loop_nil cfg e c0 c1 : Hand2_Proofs.loop cfg e c0 [] = Ok (c1, []) -> st c1 = SReady -> st c0 = SReady.
Proof.
  unfold Hand2_Proofs.loop. cbn [length read_loop]. destruct (try_read cfg e c0 []) as [[[c n]|]|] eqn:T; cbn [bind]; try discriminate.
  intros H R.
  assert (NR : n = 0 /\ c = c1).
  { destruct (n =? 0) eqn:Z; [|destruct (avail [] <? n); discriminate]. apply ok_inj in H. injection H as ->. split; [lia|reflexivity]. }
  destruct NR as [-> ->].
  destruct (Hand2_Proofs.stuck cfg e c0 [] c1 T) as [->|X]; [constructor| |exact R|congruence].
  intros X. unfold try_read in T. rewrite X in T. apply ok_inj in T. congruence.
Qed.

Lemma try_nil cfg e c : try_read cfg e c [] = Ok (Some (c, 0)).
Proof.
  unfold try_read. destruct (st c); try reflexivity.
  unfold on_rsa_aes_client_hash, hash_len. destruct (sha256 c); reflexivity.
Qed.
Lemma loop_at_rest cfg e c : Hand2_Proofs.loop cfg e c [] = Ok (c, []).
Proof. unfold Hand2_Proofs.loop. cbn [length read_loop]. rewrite try_nil. reflexivity. Qed.

Lemma session_told cfg e c0 reads h : Forall all_bytes reads -> session cfg e (c0, []) reads = Ok (h, []) ->
  st c0 <> SReady -> st h = SReady -> encrypted (ch h) = encrypted (ch c0) -> zlen (concat reads) <= 4096 ->
  Hand2_Proofs.loop cfg e c0 (map (pair (encrypted (ch c0))) (concat reads)) = Ok (h, []) /\ st c0 <> SError /\
  Serve_Proofs.initialised e h.
Proof.
  intros F HS NR HR K L.
  assert (Q : Hand2_Proofs.loop cfg e c0 (map (pair (encrypted (ch c0))) (concat reads)) = Ok (h, [])).
  { apply (Serve_Proofs.session_loop cfg e (encrypted (ch c0)) reads c0 [] h []); auto; try congruence; [constructor|apply loop_at_rest|].
    unfold zlen in L. cbn [length]. lia. }
  assert (CB : all_bytes (concat reads)) by (clear -F; induction F; cbn [concat]; [constructor|apply Forall_app; auto]).
  split; [exact Q|]. split.
  - intros X. rewrite (Serve_Proofs.loop_stays_error cfg e _ c0 _ h [] (le_n _) (Serve_Proofs.rx_tag _ _ CB) X Q) in HR. congruence.
  - apply (Serve_Proofs.init_loop cfg e _ c0 _ h [] (le_n _) (Serve_Proofs.rx_tag _ _ CB) NR Q HR).
Qed.

(** ** Who gets in *)
Section Access.
Variables (cfg : config) (e : Auth_Model.env) (E : Msg_Model.env) (shown : fb) (seq : Z).
Context {St : Type}.
Variable read : St -> Z -> list Z -> res (St * list Z * bool).
Variable inv : St -> Prop.
Hypothesis RB : reads_bytes read inv.

(* the handshake part of a connection is that of some reads *)
Definition known (cached : list Z) (g : stage) : Prop :=
  match g with
  | Shaking c b => exists reads, Forall all_bytes reads /\ session cfg e (connect cached, []) reads = Ok (c, b)
  | Serving c _ => st c = SReady /\ exists reads b, Forall all_bytes reads /\ session cfg e (connect cached, []) reads = Ok (c, b)
  | Gone c => exists reads b, Forall all_bytes reads /\ session cfg e (connect cached, []) reads = Ok (c, b)
  end.

Lemma session_snoc reads d : forall s s' s'', session cfg e s reads = Ok s' -> Auth_Model.on_client_event cfg e s' d = Ok s'' ->
  session cfg e s (reads ++ [d]) = Ok s''.
Proof.
  induction reads as [|x reads IH]; intros s s' s'' H D.
  - cbn [session] in H. apply ok_inj in H. subst s'. cbn [app session]. rewrite D. reflexivity.
  - cbn [app session] in *. destruct (Auth_Model.on_client_event cfg e s x) as [s1|]; [|discriminate]. cbn [bind] in *. eauto.
Qed.

Lemma known_hear fuel cached g d g' : known cached g -> all_bytes d -> hear cfg e E shown seq fuel g d = Ok g' -> known cached g'.
Proof.
  intros K D H. destruct g as [c b|h c|c]; cbn [hear] in H.
  - destruct K as (reads & F & S).
    destruct (Auth_Model.on_client_event cfg e (c, b) d) as [[c1 b1]|] eqn:Q; [|discriminate]. cbn [bind] in H.
    pose proof (session_snoc reads d _ _ _ S Q) as S1.
    assert (F1 : Forall all_bytes (reads ++ [d])) by (apply Forall_app; auto).
    assert (KS : known cached (Shaking c1 b1)) by (exists (reads ++ [d]); auto).
    destruct (st c1) eqn:SC; try (apply ok_inj in H; subst g'; exact KS).
    destruct (newcomer _ _ _ _) as [m|]; [|discriminate]. cbn [bind] in H.
    destruct (receive _ _ _ _) as [m1|]; [|discriminate]. cbn [bind] in H. apply ok_inj in H. subst g'.
    split; [exact SC|]. exists (reads ++ [d]), b1. auto.
  - destruct (receive _ _ _ _) as [m1|]; [|discriminate]. cbn [bind] in H. apply ok_inj in H. subst g'. exact K.
  - apply ok_inj in H. subst g'. exact K.
Qed.

Lemma known_hang_up cached g : known cached g -> known cached (hang_up g).
Proof. destruct g as [c b|h c|c]; cbn [hang_up known]; auto. intros (reads & F & S). exists reads, b. auto. Qed.

Lemma known_attend fuel cached segs : forall s g s' g', inv s -> Forall all_bytes segs -> known cached g ->
  attend cfg e E shown seq read fuel s g segs = Ok (s', g') -> known cached g'.
Proof.
  induction segs as [|x segs IH]; intros s g s' g' I F K H; cbn [attend] in H.
  - apply ok_inj in H. injection H as <- <-. exact K.
  - apply Forall_cons_iff in F as [F1 F2]. destruct (read s (room_for g) x) as [[[s1 d] over]|] eqn:R; [|discriminate].
    cbn [bind] in H. destruct (RB _ _ _ _ _ _ I F1 R) as [I1 D1].
    destruct (hear cfg e E shown seq fuel g d) as [g1|] eqn:G; [|discriminate]. cbn [bind] in H.
    pose proof (known_hear _ _ _ _ _ K D1 G) as K1.
    destruct over; [apply ok_inj in H; injection H as <- <-; now apply known_hang_up|]. eauto.
Qed.
End Access.

Lemma tcp_bytes : reads_bytes tcp_read all_bytes.
Proof.
  intros s size x s' d over I X H. unfold tcp_read in H. apply ok_inj in H. injection H as <- <- _.
  split; [apply Forall_skipn, Forall_app; auto|apply Forall_firstn, Forall_app; auto].
Qed.

(** ** The shortest handshake *)
Lemma event_whole cfg e c d c' : d <> [] -> all_bytes d -> zlen d <= 4096 ->
  try_read cfg e c (map (pair (encrypted (ch c))) d) = Ok (Some (c', zlen d)) ->
  Auth_Model.on_client_event cfg e (c, []) d = Ok (c', []).
Proof.
  intros N B L T. rewrite Serve_Proofs.event_loop by (auto; unfold zlen in L; cbn [length]; lia). cbn [app].
  unfold Auth_Spec.tag. rewrite Hand2_Proofs.loop_eq by (apply Serve_Proofs.rx_tag, B). rewrite T. cbn [bind].
  assert (0 < zlen d) by (destruct d; [congruence|unfold zlen; cbn [length]; lia]).
  replace (zlen d =? 0) with false by lia.
  unfold avail. rewrite map_length. fold (zlen d). rewrite Z.ltb_irrefl.
  rewrite skipn_all2 by (rewrite map_length; unfold zlen; lia). apply loop_at_rest.
Qed.

Lemma plain_handshake cfg e cached shared w h0 code mm pf : require_auth cfg = false -> Auth_Spec.consistent cfg cached -> is_byte shared ->
  (forall l, displayed e l = Some (w, h0, code)) -> send_server_init_message (server_name e) (Some (w, h0, code)) = Some (mm, pf) ->
  exists c, session cfg e (connect cached, []) [Hand_Spec.greeting; [1]; [shared]] = Ok (c, []) /\ st c = SReady /\ ch c = Clear.
Proof.
  intros A C B D I.
  assert (IN : init_security_types cfg [] = Ok [1]) by (unfold init_security_types; rewrite A; reflexivity).
  assert (IC : init_security_types cfg cached = Ok [1]).
  { destruct C as [->|C]; [exact IN|]. rewrite IN in C. apply ok_inj in C. subst cached. reflexivity. }
  assert (T1 : exists c1, Auth_Model.on_client_event cfg e (connect cached, []) Hand_Spec.greeting = Ok (c1, []) /\
    st c1 = SSecurity /\ ch c1 = Clear /\ types c1 = [1]).
  { eexists. split.
    - apply event_whole; [discriminate|repeat constructor; unfold is_byte; lia|vm_compute; discriminate|].
      unfold try_read. change (st (connect cached)) with SVersion. cbv iota beta. unfold on_version_message.
      change (avail _ <? 12) with false. cbv iota. rewrite Auth_Proofs.bytes_tag.
      destruct (list_eq_dec Z.eq_dec _ _) as [_|X]; [|exfalso; apply X; reflexivity]. cbn [negb].
      change (types (connect cached)) with cached. rewrite IC. cbn [bind]. reflexivity.
    - repeat split. }
  destruct T1 as (c1 & T1 & S1 & K1 & Y1).
  assert (T2 : exists c2, Auth_Model.on_client_event cfg e (c1, []) [1] = Ok (c2, []) /\ st c2 = SInit /\ ch c2 = Clear).
  { eexists. split.
    - apply event_whole; [discriminate|repeat constructor; unfold is_byte; lia|vm_compute; discriminate|].
      unfold try_read. rewrite S1. unfold on_security_message. rewrite Auth_Proofs.bytes_tag, Y1. reflexivity.
    - split; [reflexivity|exact K1]. }
  destruct T2 as (c2 & T2 & S2 & K2).
  assert (T3 : exists c3, Auth_Model.on_client_event cfg e (c2, []) [shared] = Ok (c3, []) /\ st c3 = SReady /\ ch c3 = Clear).
  { eexists. split.
    - apply event_whole; [discriminate|apply Forall_cons; [exact B|constructor]|vm_compute; discriminate|].
      unfold try_read. rewrite S2. unfold on_init_message. rewrite Auth_Proofs.bytes_tag, D, I. reflexivity.
    - split; [reflexivity|]. destruct (shared =? 0); exact K2. }
  destruct T3 as (c3 & T3 & S3 & K3).
  exists c3. cbn [session]. rewrite T1. cbn [bind]. rewrite T2. cbn [bind]. rewrite T3. cbn [bind]. auto.
Qed.
