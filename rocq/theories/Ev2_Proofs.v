(** The kinds of changes a client goes through, nested calls included. *)
From Verif Require Import Common CommonProofs Pixels_Model Msg_Model Msg_Spec Msg_Proofs Upd_Spec Upd_Proofs Ev_Spec.

Definition plain (o : out) : Prop :=
  match o with
  | Encode _ _ _ _ | FbReq _ _ _ _ _ | CuMode _ | Completed | Update KFrame _ => False
  | Sent b => b <> [150]
  | _ => True
  end.

Inductive atom : client -> client -> Prop :=
| a_plain c c' l : Forall plain l -> log c' = log c ++ l -> damage c' = damage c -> disp c' = disp c ->
    known c' = known c -> cu_notified c' = cu_notified c -> updating c' = updating c ->
    (fmt_changed c = true -> fmt_changed c' = true) -> encs c' = encs c -> atom c c'
| a_ask0 c c' x y w h l : Forall plain l -> log c' = log c ++ l ++ [FbReq 0 x y w h] ->
    damage c' = union_rect (damage c) x y w h -> disp c' = disp c ->
    known c' = known c \/ known c' = (0, 0) -> cu_notified c' = cu_notified c -> updating c' = updating c ->
    (fmt_changed c = true -> fmt_changed c' = true) -> encs c' = encs c -> atom c c'
| a_ask1 c c' inc x y w h : inc <> 0 -> log c' = log c ++ [FbReq inc x y w h] ->
    damage c' = damage c -> disp c' = disp c -> known c' = known c -> cu_notified c' = cu_notified c ->
    updating c' = updating c -> (fmt_changed c = true -> fmt_changed c' = true) -> encs c' = encs c -> atom c c'
| a_encode c c' f ok : disp c = Some f ->
    log c' = log c ++ [Encode (intersect_rect (damage c) 0 0 (fb_w f) (fb_h f)) (fb_w f) (fb_h f) ok] ->
    damage c' = [] -> disp c' = disp c -> known c' = known c -> cu_notified c' = cu_notified c -> encs c' = encs c -> atom c c'
| a_done c c' : log c' = log c ++ [Completed] -> damage c' = damage c -> disp c' = disp c ->
    known c' = known c -> cu_notified c' = cu_notified c -> encs c' = encs c -> atom c c'
| a_cu c c' (on : bool) : log c' = log c ++ CuMode on :: (if on then [] else [Sent [150]]) ->
    damage c' = damage c -> disp c' = disp c -> known c' = known c -> cu_notified c' = cu_notified c ->
    updating c' = updating c -> (fmt_changed c = true -> fmt_changed c' = true) -> encs c' = encs c -> atom c c'
| a_notify c c' : cu_notified c = false -> cu_notified c' = true -> log c' = log c ++ [Sent [150]] ->
    damage c' = damage c -> disp c' = disp c -> known c' = known c ->
    updating c' = updating c -> (fmt_changed c = true -> fmt_changed c' = true) -> atom c c'
| a_encs c c' : (has_encoding c' ENC_CU = true -> cu_notified c = true) -> cu_notified c' = cu_notified c ->
    log c' = log c -> damage c' = damage c -> disp c' = disp c -> known c' = known c ->
    updating c' = updating c -> (fmt_changed c = true -> fmt_changed c' = true) -> atom c c'.

Inductive tr : client -> client -> Prop :=
| tr_refl c : tr c c
| tr_step a b c : atom a b -> tr b c -> tr a c.

Lemma tr_trans a b c : tr a b -> tr b c -> tr a c.
Proof. induction 1; intros; [assumption|]. econstructor; eauto. Qed.
Lemma tr_one a b : atom a b -> tr a b.
Proof. intros. econstructor; [eassumption|constructor]. Qed.
Lemma tr_disp a b : tr a b -> disp b = disp a.
Proof. induction 1 as [|a b c A _ IH]; [reflexivity|]. rewrite IH. destruct A; assumption. Qed.

Lemma same_tr c c' : damage c' = damage c -> log c' = log c -> disp c' = disp c -> known c' = known c ->
  cu_notified c' = cu_notified c -> updating c' = updating c -> fmt_changed c' = fmt_changed c -> encs c' = encs c -> tr c c'.
Proof. intros. apply tr_one. apply (a_plain _ _ []); auto; [rewrite app_nil_r; assumption|congruence]. Qed.
Lemma mark_tr c c' : damage c' = damage c -> log c' = log c -> disp c' = disp c -> known c' = known c ->
  cu_notified c' = cu_notified c -> updating c' = updating c -> fmt_changed c' = true -> encs c' = encs c -> tr c c'.
Proof. intros. apply tr_one. apply (a_plain _ _ []); auto; rewrite app_nil_r; assumption. Qed.
Lemma say_tr c o c' : plain o -> damage c' = damage c -> log c' = log c ++ [o] -> disp c' = disp c -> known c' = known c ->
  cu_notified c' = cu_notified c -> updating c' = updating c -> fmt_changed c' = fmt_changed c -> encs c' = encs c -> tr c c'.
Proof. intros. apply tr_one. apply (a_plain _ _ [o]); auto; congruence. Qed.

Ltac sp := first [exact I | discriminate].

Section M.
Variable E : env.
Variable r : client -> res client.
Hypothesis R : forall c c', r c = Ok c' -> tr c c'.

Lemma ppf_tr c c' : process_pending_fence r c = Ok c' -> tr c c'.
Proof.
  unfold process_pending_fence. destruct (pf_n c =? 0).
  - destruct (blocked c); [discriminate|]. intros [= <-]. apply tr_refl.
  - destruct (negb _).
    + intros [= <-]. apply same_tr; reflexivity.
    + intros H. apply R in H. eapply tr_trans; [|exact H].
      eapply say_tr; [|reflexivity..]. sp.
Qed.

Lemma decrement_tr c c' n : decrement_pending r c = Ok (c', n) -> tr c c'.
Proof.
  unfold decrement_pending. destruct (updating c); [discriminate|].
  destruct (cu_on c); [intros [= <- <-]; apply tr_refl|].
  intros H. apply bind_ok in H as (c1 & H & H2). apply ok_inj in H2. injection H2 as <- <-.
  apply ppf_tr in H. eapply tr_trans; [exact H|]. apply same_tr; reflexivity.
Qed.

Lemma answered_tr s c k c' : (forall c1 c', disp c1 = disp c -> k c1 = Ok c' -> tr c1 c') ->
  answered r s c k = Ok c' -> tr c c'.
Proof.
  intros K. unfold answered. destruct s; [|apply K; reflexivity].
  intros H. apply bind_ok in H as ([c1 n] & H & H2). apply decrement_tr in H.
  destruct (n <=? 0); [apply ok_inj in H2; subst; exact H|].
  eapply tr_trans; [exact H|]. apply K; [apply tr_disp; exact H|exact H2].
Qed.

Lemma start_encoding_tr f c c' : disp c = Some f -> start_encoding E f c = Ok c' -> tr c c'.
Proof.
  intros D. unfold start_encoding. destruct (ensure_encoder E f c) as [c1 ok] eqn:EN.
  assert (X : tr c c1).
  { unfold ensure_encoder in EN. destruct (match encoder c with Some k => _ | None => _ end);
      [injection EN as <- <-; apply tr_refl|]. destruct (e_encoder _ _ _); injection EN as <- <-; apply same_tr; reflexivity. }
  destruct (negb ok); [intros [= <-]; exact X|]. intros H. eapply tr_trans; [exact X|].
  pose proof (tr_disp _ _ X) as D1. rewrite D in D1. apply tr_one.
  destruct (e_encode _ _) eqn:EE; cbv beta zeta in H; apply ok_inj in H; subst c'.
  - destruct (0 <? _); eapply (a_encode _ _ f true); try reflexivity; exact D1.
  - eapply (a_encode _ _ f false); try reflexivity; exact D1.
Qed.

Lemma send_frame_tr f c c' : disp c = Some f -> send_frame E f c = Ok c' -> tr c c'.
Proof.
  intros D. unfold send_frame. destruct (negb _); [intros [= <-]; apply tr_refl|].
  destruct (e_limited _ _ _ _); [intros [= <-]; apply tr_refl|].
  apply start_encoding_tr. exact D.
Qed.

Lemma ext_tr c c' s : send_ext_support c = (c', s) -> tr c c'.
Proof.
  unfold send_ext_support. destruct (_ && _); intros [= <- <-]; [apply tr_refl|].
  eapply say_tr; [|reflexivity..]. sp.
Qed.

Lemma cursor_tr c : tr c (send_cursor_update E c).
Proof.
  unfold send_cursor_update. destruct (e_cursor _ _ _);
  (eapply say_tr; [|reflexivity..]; sp).
Qed.

Lemma led_tr c c' s : send_led_state c = (c', s) -> tr c c'.
Proof.
  unfold send_led_state. destruct (_ =? _); [intros [= <- <-]; apply tr_refl|].
  destruct (_ && _); [intros [= <- <-]; apply tr_refl|]. intros [= <- <-].
  eapply say_tr; [|reflexivity..]. sp.
Qed.

Lemma process_tr c c' : process_requests E r c = Ok c' -> tr c c'.
Proof.
  unfold process_requests. destruct (closed c); [intros [= <-]; apply tr_refl|].
  destruct (disp c) as [f|] eqn:D; [|intros [= <-]; apply tr_refl].
  destruct (updating c); [intros [= <-]; apply tr_refl|].
  destruct (_ && _); [intros [= <-]; apply tr_refl|].
  destruct (if ext_notified c then _ else _) as [c1 s1] eqn:E1.
  assert (M1 : tr c c1).
  { destruct (ext_notified c); [injection E1 as <- <-; apply tr_refl|].
    apply ext_tr in E1. eapply tr_trans; [|exact E1]. apply same_tr; reflexivity. }
  intros H. eapply tr_trans; [exact M1|]. revert H. apply answered_tr.
  intros c2 c'' D2. pose proof (tr_disp _ _ M1) as D1.
  set (cur := _ && _). intros H.
  assert (M3 : tr c2 (if cur then send_cursor_update E c2 else c2)).
  { destruct cur; [apply cursor_tr|apply tr_refl]. }
  eapply tr_trans; [exact M3|]. revert H. apply answered_tr.
  intros c4 c''' D4. pose proof (tr_disp _ _ M3) as D3.
  destruct (send_led_state c4) as [c5 s5] eqn:E5. apply led_tr in E5.
  intros H. eapply tr_trans; [exact E5|]. revert H. apply answered_tr.
  intros c6 c7 D6. pose proof (tr_disp _ _ E5) as D5. apply send_frame_tr. congruence.
Qed.

Lemma fbur_tr c m c' n : on_fb_update_request E r c m = Ok (c', n) -> tr c c'.
Proof.
  unfold on_fb_update_request. destruct (_ <? _); [intros [= <- <-]; apply tr_refl|].
  destruct (negb (u8 m 1 =? 0) && cu_on c); [intros [= <- <-]; apply tr_refl|]. cbv zeta.
  intros H. apply bind_ok in H as (c1 & H & H2). injection H2 as <- <-.
  apply process_tr in H. eapply tr_trans; [|exact H]. clear H. apply tr_one.
  destruct (u8 m 1 =? 0) eqn:I0.
  - apply Z.eqb_eq in I0. rewrite I0. cbn [encoder set_damage set_pending andb].
    destruct (encoder c); destruct (has_encoding _ _);
      [apply (a_ask0 _ _ (u16 m 2) (u16 m 4) (u16 m 6) (u16 m 8) [KeyFrame])
      |apply (a_ask0 _ _ (u16 m 2) (u16 m 4) (u16 m 6) (u16 m 8) [KeyFrame])
      |apply (a_ask0 _ _ (u16 m 2) (u16 m 4) (u16 m 6) (u16 m 8) [])
      |apply (a_ask0 _ _ (u16 m 2) (u16 m 4) (u16 m 6) (u16 m 8) [])];
      try reflexivity; try (repeat constructor; fail); try (cbn; rewrite <- app_assoc; reflexivity); cbn; auto.
  - cbn [andb]. apply Z.eqb_neq in I0. apply (a_ask1 _ _ (u8 m 1) (u16 m 2) (u16 m 4) (u16 m 6) (u16 m 8)); try reflexivity; auto.
Qed.

Lemma clipboard_tr z c c' : clipboard_provide E z c = Ok c' -> tr c c'.
Proof.
  unfold clipboard_provide. destruct (e_inflate E z) as [o st].
  destruct (zlen o <=? 4).
  { destruct st as [[]|]; [intros [= <-]; apply tr_refl| |intros [= <-]; apply tr_refl].
    destruct z; [intros [= <-]; apply tr_refl|]. destruct (zlen o <? 4); [discriminate|].
    destruct (unbe o <=? 1); intros [= <-]; apply tr_refl. }
  destruct (unbe (firstn 4 o) <=? 1); [intros [= <-]; apply tr_refl|].
  destruct (zlen o - 4 <? unbe (firstn 4 o)).
  { destruct st; [discriminate|intros [= <-]; apply tr_refl]. }
  destruct (negb _); intros [= <-]; [apply tr_refl|].
  eapply say_tr; [|reflexivity..]; sp.
Qed.

Ltac one := intros [= <- <-]; first
  [ apply tr_refl | apply same_tr; reflexivity
  | eapply say_tr; [|reflexivity..]; sp ].

Lemma ext_clipboard_tr c m c' n : on_ext_clipboard E c m = Ok (c', n) -> tr c c'.
Proof.
  unfold on_ext_clipboard. destruct (_ <? _); [one|].
  destruct (_ <? _); [discriminate|]. destruct (_ && _); [one|].
  destruct (_ <? _); [discriminate|]. destruct (zlen m <? _).
  { destruct (cut c); [discriminate|]. one. }
  intros H. apply bind_ok in H as (c1 & H & H2). apply ok_inj in H2. injection H2 as <- _.
  revert H. destruct (flag (u32 m 8) CB_CAPS).
  { intros [= <-]. destruct (4 <=? _); apply same_tr; reflexivity. }
  destruct (_ && _ && _ && _).
  { unfold send_clipboard_provide. destruct (provide c); [|discriminate]. intros [= <-].
    eapply say_tr; [|reflexivity..]; sp. }
  destruct (_ && _).
  { intros [= <-]. eapply say_tr; [|reflexivity..]; sp. }
  destruct (_ && _ && _).
  { intros [= <-]. eapply say_tr; [|reflexivity..]; sp. }
  destruct (_ && _); [|intros [= <-]; apply tr_refl].
  destruct (_ <? 0); [discriminate|]. apply clipboard_tr.
Qed.

Lemma fence_tr c m c' n : on_fence E r c m = Ok (c', n) -> tr c c'.
Proof.
  unfold on_fence. destruct (_ <? _); [one|]. destruct (_ <? _); [discriminate|].
  destruct (_ <? _); [one|]. destruct (_ <? _); [discriminate|].
  destruct (_ <=? _).
  - destruct (_ <? _); [discriminate|].
    destruct (on_fence_request _ _ c) as [c1 ok] eqn:F. intros [= <- _].
    revert F. unfold on_fence_request. destruct (0 <? pending c).
    { intros [= <- _]. apply same_tr; reflexivity. }
    set (fl := Z.land _ 7). set (p := firstn _ _). set (c2 := say (FenceReq fl p) c).
    assert (M2 : tr c c2) by (eapply say_tr; [|reflexivity..]; sp).
    clearbody c2. set (c3 := if _ && (0 <? _) then _ else _).
    assert (M3 : tr c2 c3).
    { subst c3. destruct (_ && _); [apply same_tr; reflexivity|].
      destruct (_ && _); [apply same_tr; reflexivity|apply tr_refl]. }
    clearbody c3. intros F. eapply tr_trans; [exact M2|]. eapply tr_trans; [exact M3|]. revert F.
    destruct (pf_n c3 =? 0); one.
  - intros H. apply bind_ok in H as (c1 & H & H2). apply ok_inj in H2. injection H2 as <- _.
    revert H. unfold on_fence_response. destruct (_ <? _); [discriminate|].
    destruct (_ =? 0); [intros [= <-]; apply tr_refl|].
    destruct (_ || _); [discriminate|]. destruct (_ <? 0); [intros [= <-]; apply tr_refl|].
    intros H. apply process_tr in H. eapply tr_trans; [|exact H].
    destruct (_ <? min_rtt c); apply same_tr; reflexivity.
Qed.

Lemma set_encodings_tr c m c' n : on_set_encodings E c m = (c', n) -> tr c c'.
Proof.
  unfold on_set_encodings. destruct (_ <? _); [one|]. destruct (_ <? _); [one|].
  destruct (scan_encodings _ _ _ _) as [kept q]. intros H.
  set (c1 := set_fmt_changed true _) in H.
  set (c2 := if negb (cu_notified c1) && _ then _ else _) in H.
  assert (M2 : tr c c2).
  { clear H. subst c2. assert (CN1 : cu_notified c1 = cu_notified c) by reflexivity. rewrite CN1.
    destruct (cu_notified c) eqn:CN; cbn [negb andb].
    - apply tr_one. apply a_encs; try reflexivity; auto.
    - destruct (has_encoding c1 ENC_CU) eqn:HE.
      + apply tr_one. apply a_notify; try reflexivity; auto.
      + apply tr_one. apply a_encs; try reflexivity; auto. intros H. rewrite H in HE. discriminate. }
  clearbody c2. set (c3 := if has_encoding c2 ENC_EXT_CLIPBOARD then _ else _) in H.
  assert (M3 : tr c2 c3).
  { clear H. subst c3. destruct (has_encoding _ _); [|apply tr_refl].
    eapply say_tr; [|reflexivity..]; sp. }
  clearbody c3. injection H as <- _.
  eapply tr_trans; [exact M2|]. eapply tr_trans; [exact M3|].
  destruct (has_encoding c3 ENC_FENCE); [|apply tr_refl]. unfold send_ping.
  destruct (negb _); [apply tr_refl|].
  eapply say_tr; [|reflexivity..]; sp.
Qed.

Lemma ping_tr c n : tr c (send_ping E n c).
Proof.
  unfold send_ping. destruct (negb _); [apply tr_refl|].
  eapply say_tr; [|reflexivity..]; sp.
Qed.

Lemma on_message_cases c m (P : res (client * Z) -> Prop) :
  P (Ok (c, 0)) -> P (Ok (on_set_pixel_format c m)) -> P (Ok (on_set_encodings E c m)) ->
  P (on_fb_update_request E r c m) -> P (Ok (on_key c m)) -> P (Ok (on_pointer c m)) ->
  P (on_cut_text E c m) -> P (on_enable_continuous_updates E r c m) -> P (on_qemu c m) ->
  P (Ok (on_set_desktop_size E c m)) -> P (on_ntp E c m) -> P (on_fence E r c m) ->
  P (Fault UseAfterFree) -> P (on_message E r c m).
Proof.
  intros. unfold on_message. destruct m as [|t m]; [assumption|].
  destruct t as [|p|p]; [assumption| |assumption].
  repeat first [assumption | destruct p as [p|p|]].
Qed.

Lemma on_message_tr c m c' n : on_message E r c m = Ok (c', n) -> tr c c'.
Proof.
  apply on_message_cases; [one|..|discriminate].
  - unfold on_set_pixel_format. destruct (_ <? _); [one|]. intros [= <- <-].
    set (c1 := set_fmt _ c). assert (M : tr c c1) by (apply same_tr; reflexivity). eapply tr_trans; [exact M|]. clearbody c1.
    set (c2 := if _ =? 0 then _ else c1). assert (M2 : tr c1 c2).
    { subst c2. destruct (_ =? 0); [|apply tr_refl]. eapply say_tr; [|reflexivity..]; sp. }
    eapply tr_trans; [exact M2|]. clearbody c2. apply mark_tr; reflexivity.
  - intros H. apply ok_inj in H. apply set_encodings_tr in H. exact H.
  - apply fbur_tr.
  - unfold on_key. destruct (_ <? _); one.
  - unfold on_pointer. destruct (_ <? _); one.
  - unfold on_cut_text. destruct (_ <? _); [one|]. destruct (_ && _); [apply ext_clipboard_tr|].
    unfold on_plain_cut_text. destruct (_ <? _); [discriminate|]. destruct (_ <=? _); [one|].
    destruct (cut c); [discriminate|]. one.
  - unfold on_enable_continuous_updates. destruct (_ <? _); [one|]. destruct (negb _).
    + intros H. apply bind_ok in H as (c1 & H & H2). injection H2 as <- <-.
      apply process_tr in H. eapply tr_trans; [|exact H]. apply tr_one. apply (a_cu _ _ true); try reflexivity; auto.
    + intros [= <- <-]. apply tr_one. apply (a_cu _ _ false); try reflexivity; auto. cbn. rewrite <- app_assoc. reflexivity.
  - unfold on_qemu. destruct (_ <? _); [one|]. destruct (_ =? 0); [|discriminate].
    unfold on_qemu_key. destruct (_ <? _); [one|]. destruct (nth_error _ _); [one|discriminate].
  - unfold on_set_desktop_size. destruct (_ <? _); [one|]. destruct (_ <? _); [one|].
    destruct (check_layout E _ _ _ c) as [c1 st] eqn:L. intros [= <- <-].
    assert (M : tr c c1).
    { revert L. unfold check_layout. destruct (existsb _ _); [one|]. destruct (e_layout E); one. }
    eapply tr_trans; [exact M|]. eapply say_tr; [|reflexivity..]; sp.
  - unfold on_ntp. destruct (_ <? _); [one|]. destruct (negb _).
    + destruct (_ && _); [one|discriminate].
    + one.
  - apply fence_tr.
Qed.

Lemma loop_tr fuel : forall c c', message_loop E r fuel c = Ok c' -> tr c c'.
Proof.
  induction fuel as [|fuel IH]; [discriminate|]. intros c c'. cbn [message_loop].
  destruct (blocked c); [intros [= <-]; apply tr_refl|]. destruct (_ <? _); [discriminate|].
  set (c1 := set_block_next _ _). assert (M1 : tr c c1) by (apply same_tr; reflexivity).
  clearbody c1. intros H. apply bind_ok in H as ([c2 n] & H & H2).
  apply on_message_tr in H. eapply tr_trans; [exact M1|]. eapply tr_trans; [exact H|].
  destruct (n =? 0); [injection H2 as <-; apply tr_refl|].
  apply IH in H2. eapply tr_trans; [|exact H2]. apply same_tr; reflexivity.
Qed.

Lemma event_tr c d c' : on_client_event E r c d = Ok c' -> tr c c'.
Proof.
  unfold on_client_event. destruct (cut c) as [t|].
  - destruct d as [[|x d]|]; [intros [= <-]; apply tr_refl| |intros [= <-]; apply tr_refl].
    destruct (_ <? _); [intros [= <-]; apply tr_refl|].
    unfold big_cut_text. destruct (_ <=? _); [discriminate|].
    destruct (negb _); [intros [= <-]; apply same_tr; reflexivity|].
    intros H. apply bind_ok in H as (c1 & H & H2). apply ok_inj in H2. subst c'.
    assert (M : tr c c1).
    { revert H. destruct (ct_zlib t).
      - destruct (ct_provide t); [apply clipboard_tr|intros [= <-]; apply tr_refl].
      - intros [= <-]. eapply say_tr; [|reflexivity..]; sp. }
    eapply tr_trans; [exact M|]. apply same_tr; reflexivity.
  - destruct (negb _); [discriminate|]. destruct (_ <=? 0); [intros [= <-]; apply same_tr; reflexivity|].
    destruct d as [[|x d]|]; [intros [= <-]; apply tr_refl| |intros [= <-]; apply tr_refl].
    destruct (_ <? _); [intros [= <-]; apply tr_refl|].
    intros H. apply bind_ok in H as (c1 & H & H2). apply loop_tr in H.
    destruct (_ <? _); [discriminate|]. apply ok_inj in H2. subst c'.
    eapply tr_trans; [|eapply tr_trans; [exact H|]]; apply same_tr; reflexivity.
Qed.

Lemma complete_tr c c' : complete_update E r c = Ok c' -> tr c c'.
Proof.
  unfold complete_update. destruct (negb _); [intros [= <-]; apply tr_refl|].
  intros H. apply process_tr in H. eapply tr_trans; [|exact H]. apply tr_one. apply a_done; reflexivity.
Qed.

(** a finished frame is sent, and the client may be told a new size *)
Definition framed (w h : Z) (c c' : client) : Prop :=
  (exists b, log c' = log c ++ [Update KFrame b]) /\
  disp c' = disp c /\ encs c' = encs c /\ cu_notified c' = cu_notified c /\ updating c' = updating c /\
  fmt_changed c' = fmt_changed c /\
  ((known c' = known c /\ damage c' = damage c) \/
   (known c <> (w, h) /\ known c' = (w, h) /\ damage c' = union_rect (damage c) 0 0 w h)).

Lemma finish_tr f c c' : finish_update E r f c = Ok c' ->
  tr c c' \/ exists c1, framed (f_w f) (f_h f) c c1 /\ tr c1 c'.
Proof.
  unfold finish_update. destruct (closed c); [intros H; left; revert H; apply complete_tr|].
  destruct (_ && _).
  { intros H. left. apply complete_tr in H. eapply tr_trans; [|exact H].
    eapply say_tr; [|reflexivity..]; sp. }
  destruct (negb ((fst (known c) =? f_w f) && (snd (known c) =? f_h f))) eqn:RS; cbn [andb].
  - cbv zeta. destruct (negb (supports_resizing c)); [discriminate|]. intros H. right.
    apply bind_ok in H as (c3 & H & H2).
    match type of H with (if _ then complete_update E r ?v else _) = _ => exists v; set (c2 := v) in * end.
    assert (G : framed (f_w f) (f_h f) c c2).
    { split; [eexists; reflexivity|]. repeat (split; [reflexivity|]). right. split; [|split; reflexivity].
      intros K. rewrite K in RS. cbn [fst snd] in RS. rewrite !Z.eqb_refl in RS. discriminate. }
    split; [exact G|]. clearbody c2.
    assert (M3 : tr c2 c3).
    { revert H. destruct (e_sync _ _); [apply complete_tr|intros [= <-]; apply tr_refl]. }
    eapply tr_trans; [exact M3|]. apply ppf_tr in H2. eapply tr_trans; [|exact H2]. apply ping_tr.
  - cbv zeta. intros H. right. apply bind_ok in H as (c3 & H & H2).
    match type of H with (if _ then complete_update E r ?v else _) = _ => exists v; set (c2 := v) in * end.
    assert (G : framed (f_w f) (f_h f) c c2).
    { split; [eexists; reflexivity|]. repeat (split; [reflexivity|]). left. split; reflexivity. }
    split; [exact G|]. clearbody c2.
    assert (M3 : tr c2 c3).
    { revert H. destruct (e_sync _ _); [apply complete_tr|intros [= <-]; apply tr_refl]. }
    eapply tr_trans; [exact M3|]. apply ppf_tr in H2. eapply tr_trans; [|exact H2]. apply ping_tr.
Qed.

End M.

Lemma receive_tr E fuel : forall c d c', receive E fuel c d = Ok c' -> tr c c'.
Proof.
  induction fuel as [|fuel IH]; [discriminate|]. intros c d c'. cbn [receive].
  apply event_tr. intros c1 c2. apply IH.
Qed.

