(** Requests and frames are counted right as long as no fence is requested, or
    nothing has arrived when the answer to a fence makes the server read again. *)
From Verif Require Import Common CommonProofs Pixels_Model Msg_Model Msg_Proofs Upd_Spec Upd_Proofs.

Lemma count_app p l1 l2 : count p (l1 ++ l2) = count p l1 + count p l2.
Proof. unfold count. rewrite filter_app, app_length. lia. Qed.

Lemma count_one p o : count p [o] = Z.b2z (p o).
Proof. unfold count. cbn. destruct (p o); reflexivity. Qed.

Lemma count_nonneg p l : 0 <= count p l.
Proof. unfold count. lia. Qed.

Lemma in_flight_snoc l o : in_flight (l ++ [o]) = flight (in_flight l) o.
Proof. unfold in_flight. apply fold_left_app. Qed.

Definition balance (l : list out) : Z :=
  count is_request l + count is_drop l - count is_reply l - count is_frame l.
Definition no_cu (l : list out) : Prop := count is_cu_on l = 0.
Definition no_fence (l : list out) : Prop := count is_fence l = 0.

(* the weight of one event *)
Definition weigh (o : out) : Z :=
  Z.b2z (is_request o) + Z.b2z (is_drop o) - Z.b2z (is_reply o) - Z.b2z (is_frame o).

#[local] Arguments in_flight : simpl never.
#[local] Arguments balance : simpl never.
#[local] Arguments count : simpl never.
#[local] Arguments no_cu : simpl never.

Lemma balance_snoc l o : balance (l ++ [o]) = balance l + weigh o.
Proof. unfold balance, weigh. rewrite !count_app, !count_one. lia. Qed.

Lemma no_cu_snoc l o : no_cu (l ++ [o]) -> no_cu l /\ is_cu_on o = false.
Proof.
  unfold no_cu. rewrite count_app, count_one. pose proof (count_nonneg is_cu_on l).
  destruct (is_cu_on o); cbn; split; try reflexivity; try lia.
Qed.

Lemma no_fence_prefix l l2 : no_fence (l ++ l2) -> no_fence l.
Proof.
  unfold no_fence. rewrite count_app. pose proof (count_nonneg is_fence l).
  pose proof (count_nonneg is_fence l2). lia.
Qed.

(* [md] tells that nothing arrives for nested reads.  [d] requests are counted that are not answered yet *)
Record J (md : bool) (d : Z) (c : client) : Prop := {
  j_fence : md = true \/ pf_n c = 0;
  j_pending : 0 <= pending c;
  j_room : cu_on c = false -> d <= pending c;
  j_flight : in_flight (log c) = Some (updating c);
  j_off : no_cu (log c) -> cu_on c = false;
  j_count : no_cu (log c) -> pending c - d = balance (log c)
}.

Lemma J_same md d c c' : J md d c -> pf_n c' = pf_n c -> pending c' = pending c ->
  updating c' = updating c -> cu_on c' = cu_on c -> log c' = log c -> J md d c'.
Proof. intros [] P1 P2 P3 P4 P5. split; rewrite ?P1, ?P2, ?P3, ?P4, ?P5; auto. Qed.

Lemma J_say md d o c c' : J md d c -> pf_n c' = pf_n c -> pending c' = pending c ->
  updating c' = updating c -> cu_on c' = cu_on c -> log c' = log c ++ [o] ->
  weigh o = 0 -> flight (Some (updating c)) o = Some (updating c) -> J md d c'.
Proof.
  intros [] P1 P2 P3 P4 P5 W F. split; rewrite ?P1, ?P2, ?P3, ?P4, ?P5; auto.
  - rewrite in_flight_snoc, j_flight0. exact F.
  - intros N. apply no_cu_snoc in N as [N _]. auto.
  - intros N. apply no_cu_snoc in N as [N _]. rewrite balance_snoc. rewrite j_count0 by exact N. lia.
Qed.

Section K.
Variable E : env.
Variable r : client -> res client.
Hypothesis R : forall c c', r c = Ok c' -> mv c c'.

Variable md : bool.
Hypothesis RQ : md = true -> forall c c', r c = Ok c' ->
  pf_n c' = pf_n c /\ pending c' = pending c /\ updating c' = updating c /\ cu_on c' = cu_on c /\
  log c' = log c.

Lemma ppf_J d c c' : J md d c -> process_pending_fence r c = Ok c' ->
  J md d c' /\ updating c' = updating c /\ cu_on c' = cu_on c /\ pending c' = pending c.
Proof.
  intros A. unfold process_pending_fence. destruct (pf_n c =? 0) eqn:P.
  - destruct (blocked c); [discriminate|]. intros [= <-]. auto.
  - destruct (j_fence _ _ _ A) as [M|M]; [|lia].
    destruct (negb _).
    + intros [= <-]. split; [|auto]. destruct A. split; auto.
    + intros H. destruct (RQ M _ _ H) as (Q1 & Q2 & Q3 & Q4 & Q5). split; [|auto].
      set (o := Sent (fence_bytes (pf_flags c) (pf_payload c))).
      assert (X : J md d (say o (set_pf_n 0 c))).
      { eapply (J_say md d o (set_pf_n 0 c)); try reflexivity. destruct A. split; auto. }
      eapply J_same; [exact X|..]; [rewrite Q1|rewrite Q2|rewrite Q3|rewrite Q4|rewrite Q5]; reflexivity.
Qed.

(* before something that answers a request *)
Definition asked (c : client) : Prop :=
  J md 0 c /\ updating c = false /\ (cu_on c = false -> 1 <= pending c).

Lemma asked_same c c' : asked c -> pf_n c' = pf_n c -> pending c' = pending c ->
  updating c' = updating c -> cu_on c' = cu_on c -> log c' = log c -> asked c'.
Proof.
  intros (A & B & C) P1 P2 P3 P4 P5. split; [eapply J_same; eauto|].
  rewrite P3, P4, P2. auto.
Qed.

(* an answer is sent: it is in the log but not taken off [pending] yet *)
Lemma reply_J o c c' : asked c -> pf_n c' = pf_n c -> pending c' = pending c ->
  updating c' = updating c -> cu_on c' = cu_on c -> log c' = log c ++ [o] ->
  is_reply o = true -> J md 1 c' /\ updating c' = false.
Proof.
  intros ([] & U & A) P1 P2 P3 P4 P5 W.
  assert (X : weigh o = -1 /\ flight (Some (updating c)) o = Some (updating c)).
  { destruct o; try discriminate W; [destruct k; try discriminate W|]; split; reflexivity. }
  destruct X as [X F]. split; [|congruence].
  split; rewrite ?P1, ?P2, ?P3, ?P4, ?P5; auto.
  - rewrite in_flight_snoc, j_flight0. exact F.
  - intros N. apply no_cu_snoc in N as [N _]. auto.
  - intros N. apply no_cu_snoc in N as [N _]. rewrite balance_snoc, X.
    rewrite <- j_count0 by exact N. lia.
Qed.

Lemma decrement_J c c' n : J md 1 c -> updating c = false ->
  decrement_pending r c = Ok (c', n) ->
  (0 < n -> asked c') /\ J md 0 c'.
Proof.
  intros [] U. unfold decrement_pending. rewrite U. destruct (cu_on c) eqn:C.
  - intros [= <- <-].
    assert (X : J md 0 c).
    { split; auto; try (intros N; specialize (j_off0 N); congruence). }
    split; [|exact X]. intros _. split; [exact X|]. split; [exact U|congruence].
  - intros H. apply bind_ok in H as (c1 & H & H2).
    apply (ppf_J 1) in H; [|split; auto; intros; congruence].
    destruct H as ([] & U1 & C1 & P1). rewrite U in U1. rewrite C in C1.
    apply ok_inj in H2.
    assert (C' : c' = set_pending (pending c1 - 1) c1) by congruence.
    assert (N' : n = pending c1 - 1) by (apply (f_equal snd) in H2; exact (eq_sym H2)).
    specialize (j_room1 C1).
    assert (X : J md 0 c').
    { subst c'. split; cbn; auto; try lia. }
    split; [|exact X]. intros M. split; [exact X|]. subst c'. cbn. split; [exact U1|]. lia.
Qed.

Lemma answered_J (s : bool) c k c' :
  (if s then J md 1 c /\ updating c = false else asked c) ->
  (forall c1, asked c1 -> k c1 = Ok c' -> J md 0 c') ->
  answered r s c k = Ok c' -> J md 0 c'.
Proof.
  unfold answered. intros P K. destruct s; [|apply K; exact P].
  intros H. apply bind_ok in H as ([c1 n] & H & H2). destruct P as [P U].
  apply decrement_J in H; [|exact P|exact U]. destruct H as [A B].
  destruct (n <=? 0) eqn:N; [apply ok_inj in H2; subst; exact B|].
  eapply K; [apply A; lia|exact H2].
Qed.

Lemma start_encoding_J f c c' : asked c -> start_encoding E f c = Ok c' -> J md 0 c'.
Proof.
  intros A. unfold start_encoding. destruct (ensure_encoder E f c) as [c1 ok] eqn:EN.
  assert (A1 : asked c1).
  { unfold ensure_encoder in EN. destruct (match encoder c with Some k => _ | None => _ end);
      [injection EN as <- <-; auto|].
    destruct (e_encoder _ _ _); injection EN as <- <-; (eapply asked_same; [exact A|reflexivity..]). }
  clear EN A. destruct (negb ok).
  { intros [= <-]. apply A1. }
  destruct A1 as ([] & U & A). intros H.
  destruct (e_encode _ _) eqn:EE; cbv beta zeta in H; apply ok_inj in H.
  - set (o := Encode _ _ _ true) in H.
    assert (X : pf_n c' = pf_n c1 /\ updating c' = true /\ cu_on c' = cu_on c1 /\
                log c' = log c1 ++ [o] /\
                pending c' = if 0 <? pending c1 then pending c1 - 1 else pending c1).
    { subst c'. change (pending (say _ _)) with (pending c1). destruct (0 <? pending c1); auto. }
    destruct X as (X1 & X2 & X3 & X4 & X5).
    split; rewrite ?X1, ?X2, ?X3, ?X4, ?X5; auto.
    + destruct (0 <? pending c1) eqn:Q; [apply Z.ltb_lt in Q|]; lia.
    + intros C. specialize (A C). rewrite (proj2 (Z.ltb_lt 0 _)) by lia. lia.
    + rewrite in_flight_snoc, j_flight0, U. reflexivity.
    + intros N. apply no_cu_snoc in N as [N _]. auto.
    + intros N. apply no_cu_snoc in N as [N _]. specialize (A (j_off0 N)).
      rewrite balance_snoc. rewrite <- j_count0 by exact N. rewrite (proj2 (Z.ltb_lt 0 _)) by lia.
      change (weigh o) with (-1). lia.
  - set (o := Encode _ _ _ false) in H. subst c'.
    split; cbn; auto; fold o.
    + rewrite in_flight_snoc, j_flight0, U. reflexivity.
    + intros N. apply no_cu_snoc in N as [N _]. auto.
    + intros N. apply no_cu_snoc in N as [N _].
      rewrite balance_snoc. rewrite <- j_count0 by exact N. change (weigh o) with 0. lia.
Qed.

Lemma send_frame_J f c c' : asked c -> send_frame E f c = Ok c' -> J md 0 c'.
Proof.
  intros A. unfold send_frame. destruct (negb _); [intros [= <-]; apply A|].
  destruct (e_limited _ _ _ _); [intros [= <-]; apply A|].
  apply start_encoding_J. exact A.
Qed.

Lemma process_J c c' : J md 0 c -> process_requests E r c = Ok c' -> J md 0 c'.
Proof.
  intros A. unfold process_requests. destruct (closed c); [intros [= <-]; exact A|].
  destruct (disp c) as [f|]; [|intros [= <-]; exact A].
  destruct (updating c) eqn:U; [intros [= <-]; exact A|].
  destruct (negb (cu_on c) && (pending c =? 0)) eqn:G; [intros [= <-]; exact A|].
  assert (Q : asked c).
  { split; [exact A|]. split; [exact U|]. intros C. rewrite C in G. cbn in G.
    pose proof (j_pending _ _ _ A). lia. }
  clear A U G.
  destruct (if ext_notified c then _ else _) as [c1 s1] eqn:E1.
  apply answered_J.
  { destruct (ext_notified c); [injection E1 as <- <-; exact Q|].
    unfold send_ext_support in E1. destruct (_ && _); injection E1 as <- <-.
    - eapply asked_same; [exact Q|reflexivity..].
    - eapply reply_J; [exact Q|reflexivity..]. }
  clear c s1 c1 E1 Q. intros c Q.
  set (cur := _ && _). apply answered_J.
  { destruct cur; [|exact Q]. unfold send_cursor_update. destruct (e_cursor _ _ _);
    (eapply reply_J; [exact Q|reflexivity..]). }
  clear Q. clearbody cur. clear c. intros c Q.
  destruct (send_led_state c) as [c1 s1] eqn:E1. apply answered_J.
  { unfold send_led_state in E1. destruct (_ =? _); [injection E1 as <- <-; exact Q|].
    destruct (_ && _); [injection E1 as <- <-; exact Q|]. injection E1 as <- <-.
    eapply reply_J; [exact Q|reflexivity..]. }
  intros c2 Q2. apply send_frame_J. exact Q2.
Qed.

Ltac same H := eapply J_same; [exact H|reflexivity..].
Ltac said H := eapply J_say; [exact H|reflexivity..].

Lemma fbur_J c m c' n : J md 0 c -> on_fb_update_request E r c m = Ok (c', n) -> J md 0 c'.
Proof.
  intros A. unfold on_fb_update_request. destruct (_ <? _); [intros [= <- <-]; exact A|].
  destruct (_ && _); [intros [= <- <-]; exact A|].
  intros H. apply bind_ok in H as (c1 & H & H2). apply ok_inj in H2. injection H2 as <- _.
  revert H. apply process_J.
  set (c3 := if u8 m 1 =? 0 then _ else set_pending (pending c + 1) c).
  assert (X : J md 1 c3).
  { assert (Y : J md 1 (set_pending (pending c + 1) c)).
    { destruct A. split; cbn; auto; try lia. }
    subst c3. destruct (u8 m 1 =? 0); [|exact Y].
    cbv zeta. change (encoder (set_damage _ _)) with (encoder c).
    destruct (encoder c); [said Y|same Y]. }
  clearbody c3. set (c4 := say _ c3).
  assert (X4 : J md 0 c4).
  { subst c4. destruct X. split; cbn; auto; try lia.
    - rewrite in_flight_snoc, j_flight0. reflexivity.
    - intros N. apply no_cu_snoc in N as [N _]. auto.
    - intros N. apply no_cu_snoc in N as [N _]. rewrite balance_snoc.
      rewrite <- j_count0 by exact N. cbn. lia. }
  clearbody c4. destruct (_ && _); [same X4|exact X4].
Qed.

Lemma clipboard_J z c c' : J md 0 c -> clipboard_provide E z c = Ok c' -> J md 0 c'.
Proof.
  intros A. unfold clipboard_provide. destruct (e_inflate E z) as [o st].
  destruct (zlen o <=? 4).
  { destruct st as [[]|]; [intros [= <-]; exact A| |intros [= <-]; exact A].
    destruct z; [intros [= <-]; exact A|]. destruct (zlen o <? 4); [discriminate|].
    destruct (unbe o <=? 1); intros [= <-]; exact A. }
  destruct (unbe (firstn 4 o) <=? 1); [intros [= <-]; exact A|].
  destruct (zlen o - 4 <? unbe (firstn 4 o)).
  { destruct st; [discriminate|intros [= <-]; exact A]. }
  destruct (negb _); intros [= <-]; [exact A|]. said A.
Qed.

Ltac one A := intros [= <- <-]; first [ exact A | same A | said A ].

Lemma ext_clipboard_J c m c' n : J md 0 c -> on_ext_clipboard E c m = Ok (c', n) -> J md 0 c'.
Proof.
  intros A. unfold on_ext_clipboard. destruct (_ <? _); [one A|].
  destruct (_ <? _); [discriminate|]. destruct (_ && _); [one A|].
  destruct (_ <? _); [discriminate|]. destruct (zlen m <? _).
  { destruct (cut c); [discriminate|]. one A. }
  intros H. apply bind_ok in H as (c1 & H & H2). apply ok_inj in H2. injection H2 as <- _.
  revert H. destruct (flag (u32 m 8) CB_CAPS).
  { intros [= <-]. destruct (4 <=? _); same A. }
  destruct (_ && _ && _ && _).
  { unfold send_clipboard_provide. destruct (provide c); [|discriminate]. intros [= <-]. said A. }
  destruct (_ && _); [intros [= <-]; said A|].
  destruct (_ && _ && _); [intros [= <-]; said A|].
  destruct (_ && _); [|intros [= <-]; exact A].
  destruct (_ <? 0); [discriminate|]. apply clipboard_J. exact A.
Qed.

Lemma fence_J c m c' n : J md 0 c -> md = true \/ no_fence (log c') -> on_fence E r c m = Ok (c', n) -> J md 0 c'.
Proof.
  intros A NF. unfold on_fence. destruct (_ <? _); [one A|]. destruct (_ <? _); [discriminate|].
  destruct (_ <? _); [one A|]. destruct (_ <? _); [discriminate|].
  destruct (_ <=? _).
  - destruct (_ <? _); [discriminate|].
    destruct (on_fence_request _ _ c) as [c1 ok] eqn:F. intros H. apply ok_inj in H.
    apply (f_equal fst) in H. cbn in H. subst c1. revert F. unfold on_fence_request.
    destruct (0 <? pending c); [one A|]. intros F.
    set (fl := Z.land _ 7) in F. set (p := firstn _ _) in F. set (c2 := say (FenceReq fl p) c) in F.
    assert (A2 : J md 0 c2) by (said A).
    assert (X : log c2 = log c ++ [FenceReq fl p]) by reflexivity. clearbody c2.
    set (c3 := if _ && (0 <? _) then _ else _) in F.
    assert (X3 : log c3 = log c2).
    { subst c3. destruct (_ && _); [reflexivity|]. destruct (_ && _); reflexivity. }
    assert (NP : md = true \/ no_fence (log c2)).
    { destruct NF as [NF|NF]; [auto|right]. rewrite <- X3.
      destruct (pf_n c3 =? 0); apply (f_equal fst) in F; cbn in F; subst c'.
      - cbn in NF. eapply no_fence_prefix. exact NF.
      - exact NF. }
    destruct NP as [M|N].
    + assert (A3 : J md 0 c3).
      { clear F X3. subst c3. destruct A2. destruct (_ && _); [split; auto|].
        destruct (_ && _); split; auto. }
      clearbody c3. destruct (pf_n c3 =? 0); apply (f_equal fst) in F; cbn in F; subst c'.
      * said A3.
      * same A3.
    + exfalso. rewrite X in N. unfold no_fence in N. rewrite count_app, count_one in N.
      change (is_fence (FenceReq _ _)) with true in N. cbn in N.
      pose proof (count_nonneg is_fence (log c)). lia.
  - intros H. apply bind_ok in H as (c1 & H & H2). apply ok_inj in H2. apply (f_equal fst) in H2.
    cbn in H2. subst c1.
    revert H. unfold on_fence_response. destruct (_ <? _); [discriminate|].
    destruct (_ =? 0); [intros [= <-]; exact A|].
    destruct (_ || _); [discriminate|]. destruct (_ <? 0); [intros [= <-]; exact A|].
    apply process_J. destruct (_ <? min_rtt c); same A.
Qed.

Lemma set_encodings_J c m c' n : J md 0 c -> on_set_encodings E c m = (c', n) -> J md 0 c'.
Proof.
  intros A. unfold on_set_encodings. destruct (_ <? _); [one A|]. destruct (_ <? _); [one A|].
  destruct (scan_encodings _ _ _ _) as [kept q]. intros H.
  set (c1 := set_fmt_changed true _) in H.
  assert (M1 : J md 0 c1) by same A.
  clearbody c1. clear A. set (c2 := if negb (cu_notified c1) && _ then _ else _) in H.
  assert (M2 : J md 0 c2).
  { clear H. subst c2. destruct (_ && _); [|exact M1]. said M1. }
  clearbody c2. set (c3 := if has_encoding c2 ENC_EXT_CLIPBOARD then _ else _) in H.
  assert (M3 : J md 0 c3).
  { clear H. subst c3. destruct (has_encoding _ _); [|exact M2]. said M2. }
  clearbody c3. injection H as <- _.
  destruct (has_encoding c3 ENC_FENCE); [|exact M3]. unfold send_ping.
  destruct (negb _); [exact M3|]. said M3.
Qed.

Lemma on_message_J c m c' n : J md 0 c -> md = true \/ no_fence (log c') -> on_message E r c m = Ok (c', n) -> J md 0 c'.
Proof.
  intros A NF. apply on_message_cases; [one A|..|discriminate].
  - unfold on_set_pixel_format. destruct (_ <? _); [one A|]. destruct (_ =? 0); one A.
  - intros H. apply ok_inj in H. apply set_encodings_J in H; assumption.
  - apply fbur_J. exact A.
  - unfold on_key. destruct (_ <? _); one A.
  - unfold on_pointer. destruct (_ <? _); one A.
  - unfold on_cut_text. destruct (_ <? _); [one A|]. destruct (_ && _); [apply ext_clipboard_J; exact A|].
    unfold on_plain_cut_text. destruct (_ <? _); [discriminate|]. destruct (_ <=? _); [one A|].
    destruct (cut c); [discriminate|]. one A.
  - unfold on_enable_continuous_updates. destruct (_ <? _); [one A|].
    set (on := negb _). set (c1 := say _ _).
    assert (X : J md 0 c1).
    { subst c1. destruct A. split; cbn; auto; try lia.
      - rewrite in_flight_snoc, j_flight0. reflexivity.
      - intros N. apply no_cu_snoc in N as [_ N]. exact N.
      - intros N. apply no_cu_snoc in N as [N _]. rewrite balance_snoc.
        rewrite <- j_count0 by exact N. cbn. lia. }
    clearbody c1. destruct on.
    + intros H. apply bind_ok in H as (c2 & H & H2). apply ok_inj in H2. injection H2 as <- _.
      revert H. apply process_J. same X.
    + one X.
  - unfold on_qemu. destruct (_ <? _); [one A|]. destruct (_ =? 0); [|discriminate].
    unfold on_qemu_key. destruct (_ <? _); [one A|]. destruct (nth_error _ _); [one A|discriminate].
  - unfold on_set_desktop_size. destruct (_ <? _); [one A|]. destruct (_ <? _); [one A|].
    destruct (check_layout E _ _ _ c) as [c1 st] eqn:L. intros [= <- <-].
    assert (M : J md 0 c1).
    { revert L. unfold check_layout. destruct (existsb _ _); [one A|]. destruct (e_layout E); one A. }
    said M.
  - unfold on_ntp. destruct (_ <? _); [one A|]. destruct (negb _).
    + destruct (_ && _); [one A|discriminate].
    + one A.
  - apply fence_J; assumption.
Qed.

Lemma loop_J fuel : forall c c', J md 0 c -> md = true \/ no_fence (log c') -> message_loop E r fuel c = Ok c' -> J md 0 c'.
Proof.
  induction fuel as [|fuel IH]; [discriminate|]. intros c c' A NF. cbn [message_loop].
  destruct (blocked c); [intros [= <-]; exact A|]. destruct (_ <? _); [discriminate|].
  set (c1 := set_block_next _ _). assert (M1 : J md 0 c1) by same A.
  clearbody c1. clear A. intros H. apply bind_ok in H as ([c2 n] & H & H2).
  assert (L : exists l, log c' = log c2 ++ l).
  { destruct (n =? 0); [injection H2 as <-; exists []; symmetry; apply app_nil_r|].
    apply (loop_mv E r R) in H2. apply mv_log in H2. exact H2. }
  destruct L as [l L].
  apply on_message_J in H; [|exact M1|destruct NF as [NF|NF]; [auto|right; rewrite L in NF; eapply no_fence_prefix; exact NF]].
  destruct (n =? 0); [injection H2 as <-; exact H|].
  eapply IH; [|exact NF|exact H2]. same H.
Qed.

Lemma event_J c d c' : J md 0 c -> md = true \/ no_fence (log c') -> on_client_event E r c d = Ok c' -> J md 0 c'.
Proof.
  intros A NF. unfold on_client_event. destruct (cut c) as [t|].
  - destruct d as [[|x d]|]; [intros [= <-]; exact A| |intros [= <-]; exact A].
    destruct (_ <? _); [intros [= <-]; exact A|].
    unfold big_cut_text. destruct (_ <=? _); [discriminate|].
    destruct (negb _); [intros [= <-]; same A|].
    intros H. apply bind_ok in H as (c1 & H & H2). apply ok_inj in H2. subst c'.
    assert (M : J md 0 c1).
    { revert H. destruct (ct_zlib t).
      - destruct (ct_provide t); [apply clipboard_J; exact A|intros [= <-]; exact A].
      - intros [= <-]. said A. }
    same M.
  - destruct (negb _); [discriminate|]. destruct (_ <=? 0); [intros [= <-]; same A|].
    destruct d as [[|x d]|]; [intros [= <-]; exact A| |intros [= <-]; exact A].
    destruct (_ <? _); [intros [= <-]; exact A|].
    intros H. apply bind_ok in H as (c1 & H & H2).
    destruct (_ <? _); [discriminate|]. apply ok_inj in H2. subst c'.
    apply loop_J in H; [same H| |exact NF]. same A.
Qed.

Lemma complete_J c c' : J md 0 c -> complete_update E r c = Ok c' -> J md 0 c'.
Proof.
  intros A. unfold complete_update. destruct (updating c) eqn:U; cbn [negb]; [|intros [= <-]; exact A].
  apply process_J. destruct A. split; cbn; auto.
  - rewrite in_flight_snoc, j_flight0, U. reflexivity.
  - intros N. apply no_cu_snoc in N as [N _]. auto.
  - intros N. apply no_cu_snoc in N as [N _]. rewrite balance_snoc.
    rewrite <- j_count0 by exact N. cbn. lia.
Qed.

Lemma finish_J f c c' : J md 0 c -> finish_update E r f c = Ok c' -> J md 0 c'.
Proof.
  intros A. unfold finish_update. destruct (closed c); [apply complete_J; exact A|].
  destruct (_ && _).
  { apply complete_J. destruct A. split; cbn; auto; try lia.
    - rewrite in_flight_snoc, j_flight0. reflexivity.
    - intros N. apply no_cu_snoc in N as [N _]. auto.
    - intros N. apply no_cu_snoc in N as [N _]. rewrite balance_snoc.
      rewrite <- j_count0 by exact N. cbn. lia. }
  set (resized := negb _). destruct (resized && _); [discriminate|].
  set (c1 := if resized then set_damage _ _ else c).
  assert (M1 : J md 0 c1).
  { subst c1. destruct resized; [|exact A]. same A. }
  clearbody c1. set (c2 := say _ c1).
  assert (M2 : J md 0 c2) by said M1.
  clearbody c2. intros H.
  apply bind_ok in H as (c3 & H & H2).
  assert (M3 : J md 0 c3).
  { revert H. destruct (e_sync _ _); [apply complete_J; exact M2|intros [= <-]; exact M2]. }
  assert (M4 : J md 0 (send_ping E (zlen (f_data f)) c3)).
  { unfold send_ping. destruct (negb (has_encoding c3 _)); [exact M3|]. said M3. }
  apply (ppf_J 0) in H2; [|exact M4]. apply H2.
Qed.

End K.

(* a nested read that finds nothing *)
Lemma receive_none E fuel c c' : receive E fuel c None = Ok c' ->
  pf_n c' = pf_n c /\ pending c' = pending c /\ updating c' = updating c /\ cu_on c' = cu_on c /\
  log c' = log c.
Proof.
  destruct fuel; [discriminate|]. cbn [receive]. unfold on_client_event.
  destruct (cut c); [intros [= <-]; auto|]. destruct (negb _); [discriminate|].
  destruct (_ <=? 0); intros [= <-]; auto.
Qed.

Definition lonely (E : env) : Prop := forall l, e_more E l = None.

Lemma step_J E fuel c i c' md : (md = true -> lonely E) -> J md 0 c ->
  md = true \/ no_fence (log c') -> step E fuel c i = Ok c' -> J md 0 c'.
Proof.
  intros LE A NF.
  assert (R : forall c c', receive E fuel c (e_more E (log c)) = Ok c' -> mv c c').
  { intros. eapply receive_mv; eauto. }
  assert (RQ : md = true -> forall c c', receive E fuel c (e_more E (log c)) = Ok c' ->
    pf_n c' = pf_n c /\ pending c' = pending c /\ updating c' = updating c /\
    cu_on c' = cu_on c /\ log c' = log c).
  { intros M a b. rewrite (LE M). apply receive_none. }
  unfold step. cbv zeta. destruct i; intros H.
  - destruct (closed c); [apply ok_inj in H; subst; exact A|]. cbn [receive] in H.
    eapply event_J; [exact R|exact RQ|exact A|exact NF|exact H].
  - eapply process_J; [exact R|exact RQ| |exact H]. change (closed (set_disp (Some f) c)) with (closed c).
    destruct (closed c); (apply (J_same md 0 c); [exact A|reflexivity..]).
  - eapply finish_J; [exact R|exact RQ| |exact H]. exact A.
  - eapply complete_J; [exact R|exact RQ| |exact H]. exact A.
  - eapply process_J; [exact R|exact RQ| |exact H]. apply (J_same md 0 c); [exact A|reflexivity..].
  - eapply process_J; [exact R|exact RQ| |exact H]. apply (J_same md 0 c); [exact A|reflexivity..].
  - apply ok_inj in H. subst c'. apply (J_same md 0 c); [exact A|reflexivity..].
Qed.

Lemma run_log E fuel l c c' : run E fuel c l = Ok c' -> exists l, log c' = log c ++ l.
Proof.
  intros H. apply (moves_log (fun _ => True)). eapply run_moves; [exact H|..].
  - intros f _. exact I.
  - apply Forall_forall. intros; exact I.
Qed.

Lemma run_J E fuel l md : (md = true -> lonely E) -> forall c c', J md 0 c ->
  md = true \/ no_fence (log c') -> run E fuel c l = Ok c' -> J md 0 c'.
Proof.
  intros LE. induction l as [|i l IH]; intros c c' A NF; cbn [run]; [intros [= <-]; exact A|].
  intros H. apply bind_ok in H as (c1 & H & H2). destruct (run_log _ _ _ _ _ H2) as [l2 L].
  eapply IH; [|exact NF|exact H2]. eapply step_J; [exact LE|exact A| |exact H].
  destruct NF as [NF|NF]; [auto|right]. rewrite L in NF. eapply no_fence_prefix. exact NF.
Qed.

Lemma ready_J md f d seq : J md 0 (ready f d seq).
Proof. split; cbn; auto; lia. Qed.
