(** Every function of the model, nested calls included, changes the pending damage
    in three ways only. *)
From Verif Require Import Common CommonProofs Pixels_Model Msg_Model Msg_Proofs.

Definition not_encode (o : out) : Prop :=
  match o with Encode _ _ _ _ => False | _ => True end.

(* nor the end of a frame *)
Definition plain (o : out) : Prop :=
  match o with Encode _ _ _ _ | Update KFrame _ | Completed | Dropped => False | _ => True end.
Lemma plain_not_encode o : plain o -> not_encode o.
Proof. destruct o; cbn; auto. Qed.

Section Moves.
Variable Q : out -> Prop.

(* a region is only given to the encoder together with a buffer that satisfies P; all else
   that is said satisfies Q *)
Inductive moveg (P : fb -> Prop) : client -> client -> Prop :=
| m_other c c' l : damage c' = damage c -> log c' = log c ++ l -> Forall Q l ->
    moveg P c c'
| m_damage c c' r : damage c' = damage c ++ r -> log c' = log c -> moveg P c c'
| m_encode c c' f ok : P f -> damage c' = [] ->
    log c' = log c ++ [Encode (intersect_rect (damage c) 0 0 (fb_w f) (fb_h f)) (fb_w f) (fb_h f) ok] ->
    moveg P c c'.

Inductive movesg (P : fb -> Prop) : client -> client -> Prop :=
| ms_refl c : movesg P c c
| ms_step a b c : moveg P a b -> movesg P b c -> movesg P a c.

Lemma moves_trans P a b c : movesg P a b -> movesg P b c -> movesg P a c.
Proof. induction 1; intros; [assumption|]. econstructor; eauto. Qed.

Lemma move_one P a b : moveg P a b -> movesg P a b.
Proof. intros. econstructor; [eassumption|constructor]. Qed.

Lemma union_rect_app r x y w h : exists s, union_rect r x y w h = r ++ s.
Proof.
  unfold union_rect. destruct (good_box _); [eexists; reflexivity|].
  exists []. symmetry. apply app_nil_r.
Qed.

(* the display's buffer is not replaced meanwhile *)
Definition good_disp (P : fb -> Prop) (c : client) : Prop := forall f, disp c = Some f -> P f.
Definition mvg (c c' : client) : Prop :=
  (forall P, good_disp P c -> movesg P c c') /\ disp c' = disp c.

Lemma mv_refl c : mvg c c.
Proof. split; [intros; constructor|reflexivity]. Qed.

Lemma mv_trans a b c : mvg a b -> mvg b c -> mvg a c.
Proof.
  intros [A B] [C D]. split; [|congruence]. intros P G. eapply moves_trans; [auto|].
  apply C. intros f F. apply G. congruence.
Qed.

Lemma same_mv c c' : damage c' = damage c -> log c' = log c -> disp c' = disp c -> mvg c c'.
Proof. intros D L P. split; [|exact P]. intros P0 _. apply move_one. apply (m_other _ _ _ []); [exact D| |constructor].
  rewrite app_nil_r. exact L. Qed.

Lemma say_mv c o c' : Q o -> damage c' = damage c -> log c' = log c ++ [o] ->
  disp c' = disp c -> mvg c c'.
Proof. intros N D L P. split; [|exact P]. intros P0 _. apply move_one. apply (m_other _ _ _ [o]); auto. Qed.

Lemma grow_mv c x y w h c' : damage c' = union_rect (damage c) x y w h -> log c' = log c ->
  disp c' = disp c -> mvg c c'.
Proof.
  intros D L P. split; [|exact P]. intros P0 _. destruct (union_rect_app (damage c) x y w h) as [s S].
  apply move_one. apply (m_damage _ _ _ s); congruence.
Qed.

End Moves.

Lemma bind_ok {A B} (x : res A) (f : A -> res B) b : bind x f = Ok b ->
  exists a, x = Ok a /\ f a = Ok b.
Proof. destruct x; [|discriminate]. cbn. eauto. Qed.

Section M.
Variable Q : out -> Prop.
Hypothesis HQ : forall o, plain o -> Q o.
Variable E : env.
Variable r : client -> res client.
Hypothesis R : forall c c', r c = Ok c' -> mvg Q c c'.

Lemma ppf_mvg c c' : process_pending_fence r c = Ok c' -> mvg Q c c'.
Proof.
  unfold process_pending_fence. destruct (pf_n c =? 0).
  - destruct (blocked c); [discriminate|]. intros [= <-]. apply mv_refl.
  - destruct (negb _).
    + intros [= <-]. apply same_mv; reflexivity.
    + intros H. apply R in H. eapply mv_trans; [|exact H].
      eapply say_mv; [|reflexivity|reflexivity|reflexivity]. apply HQ; exact I.
Qed.

Lemma decrement_mvg c c' n : decrement_pending r c = Ok (c', n) -> mvg Q c c'.
Proof.
  unfold decrement_pending. destruct (updating c); [discriminate|].
  destruct (cu_on c); [intros [= <- <-]; apply mv_refl|].
  intros H. apply bind_ok in H as (c1 & H & H2). apply ok_inj in H2. injection H2 as <- <-.
  apply ppf_mvg in H. eapply mv_trans; [exact H|]. apply same_mv; reflexivity.
Qed.

Lemma answered_mvg s c k c' : (forall c1 c', disp c1 = disp c -> k c1 = Ok c' -> mvg Q c1 c') ->
  answered r s c k = Ok c' -> mvg Q c c'.
Proof.
  intros K. unfold answered. destruct s; [|apply K; reflexivity].
  intros H. apply bind_ok in H as ([c1 n] & H & H2). apply decrement_mvg in H.
  destruct (n <=? 0); [apply ok_inj in H2; subst; exact H|].
  eapply mv_trans; [exact H|]. apply K; [apply H|exact H2].
Qed.

Lemma start_encoding_mvg f c c' : disp c = Some f -> start_encoding E f c = Ok c' -> mvg Q c c'.
Proof.
  intros D. unfold start_encoding. destruct (ensure_encoder E f c) as [c1 ok] eqn:EN.
  assert (X : damage c1 = damage c /\ log c1 = log c /\ disp c1 = disp c).
  { unfold ensure_encoder in EN. destruct (match encoder c with Some k => _ | None => _ end);
      [injection EN as <- <-; auto|]. destruct (e_encoder _ _ _); injection EN as <- <-; auto. }
  destruct X as (X1 & X2 & X3). destruct (negb ok).
  { intros [= <-]. apply same_mv; auto. }
  intros H.
  destruct (e_encode _ _) eqn:EE; cbv beta zeta in H.
  - apply ok_inj in H. assert (DD : disp c' = disp c) by (subst c'; destruct (0 <? _); exact X3).
    split; [|exact DD]. intros P G. apply move_one. apply (m_encode _ P c c' f true).
    + apply G. exact D.
    + subst c'. destruct (0 <? _); reflexivity.
    + subst c'. rewrite <- X1, <- X2. destruct (0 <? _); reflexivity.
  - apply ok_inj in H. assert (DD : disp c' = disp c) by (subst c'; exact X3).
    split; [|exact DD]. intros P G. apply move_one. apply (m_encode _ P c c' f false).
    + apply G. exact D.
    + subst c'. reflexivity.
    + subst c'. rewrite <- X1, <- X2. reflexivity.
Qed.

Lemma send_frame_mvg f c c' : disp c = Some f -> send_frame E f c = Ok c' -> mvg Q c c'.
Proof.
  intros D. unfold send_frame. destruct (negb _); [intros [= <-]; apply mv_refl|].
  destruct (e_limited _ _ _ _); [intros [= <-]; apply mv_refl|].
  apply start_encoding_mvg. exact D.
Qed.

Lemma ext_mvg c c' s : send_ext_support c = (c', s) -> mvg Q c c'.
Proof.
  unfold send_ext_support. destruct (_ && _); intros [= <- <-]; [apply mv_refl|].
  eapply say_mv; [|reflexivity|reflexivity|reflexivity]. apply HQ; exact I.
Qed.

Lemma cursor_mvg c : mvg Q c (send_cursor_update E c).
Proof.
  unfold send_cursor_update. destruct (e_cursor _ _ _);
  (eapply say_mv; [|reflexivity|reflexivity|reflexivity]; apply HQ; exact I).
Qed.

Lemma led_mvg c c' s : send_led_state c = (c', s) -> mvg Q c c'.
Proof.
  unfold send_led_state. destruct (_ =? _); [intros [= <- <-]; apply mv_refl|].
  destruct (_ && _); [intros [= <- <-]; apply mv_refl|]. intros [= <- <-].
  eapply say_mv; [|reflexivity|reflexivity|reflexivity]. apply HQ; exact I.
Qed.

Lemma process_mvg c c' : process_requests E r c = Ok c' -> mvg Q c c'.
Proof.
  unfold process_requests. destruct (closed c); [intros [= <-]; apply mv_refl|].
  destruct (disp c) as [f|] eqn:D; [|intros [= <-]; apply mv_refl].
  destruct (updating c); [intros [= <-]; apply mv_refl|].
  destruct (_ && _); [intros [= <-]; apply mv_refl|].
  destruct (if ext_notified c then _ else _) as [c1 s1] eqn:E1.
  assert (M1 : mvg Q c c1).
  { destruct (ext_notified c); [injection E1 as <- <-; apply mv_refl|].
    apply ext_mvg in E1. eapply mv_trans; [|exact E1]. apply same_mv; reflexivity. }
  intros H. eapply mv_trans; [exact M1|]. revert H. apply answered_mvg.
  intros c2 c'' D2. destruct M1 as [_ D1].
  set (cur := _ && _). intros H.
  assert (M3 : mvg Q c2 (if cur then send_cursor_update E c2 else c2)).
  { destruct cur; [apply cursor_mvg|apply mv_refl]. }
  eapply mv_trans; [exact M3|]. revert H. apply answered_mvg.
  intros c4 c''' D4. destruct M3 as [_ D3].
  destruct (send_led_state c4) as [c5 s5] eqn:E5. apply led_mvg in E5.
  intros H. eapply mv_trans; [exact E5|]. revert H. apply answered_mvg.
  intros c6 c7 D6. destruct E5 as [_ D5]. apply send_frame_mvg. congruence.
Qed.

Lemma fbur_mvg c m c' n : on_fb_update_request E r c m = Ok (c', n) -> mvg Q c c'.
Proof.
  unfold on_fb_update_request. destruct (_ <? _); [intros [= <- <-]; apply mv_refl|].
  destruct (_ && _); [intros [= <- <-]; apply mv_refl|].
  intros H. apply bind_ok in H as (c1 & H & H2). injection H2 as <- <-.
  apply process_mvg in H. eapply mv_trans; [|exact H]. clear H.
  set (c2 := set_pending (pending c + 1) c).
  assert (M2 : mvg Q c c2) by (apply same_mv; reflexivity).
  eapply mv_trans; [exact M2|]. clearbody c2.
  set (c3 := if u8 m 1 =? 0 then _ else c2).
  assert (M3 : mvg Q c2 c3).
  { subst c3. destruct (u8 m 1 =? 0); [|apply mv_refl].
    set (c4 := set_damage _ c2).
    assert (M4 : mvg Q c2 c4) by (eapply grow_mv; reflexivity).
    eapply mv_trans; [exact M4|]. clearbody c4. destruct (encoder c4); [|apply mv_refl].
    eapply say_mv; [|reflexivity|reflexivity|reflexivity]; apply HQ; exact I. }
  eapply mv_trans; [exact M3|]. clearbody c3.
  set (c5 := say _ c3). assert (M5 : mvg Q c3 c5).
  { eapply say_mv; [|reflexivity|reflexivity|reflexivity]; apply HQ; exact I. }
  eapply mv_trans; [exact M5|]. clearbody c5.
  destruct (_ && _); [apply same_mv; reflexivity|apply mv_refl].
Qed.

Lemma clipboard_mvg z c c' : clipboard_provide E z c = Ok c' -> mvg Q c c'.
Proof.
  unfold clipboard_provide. destruct (e_inflate E z) as [o st].
  destruct (zlen o <=? 4).
  { destruct st as [[]|]; [intros [= <-]; apply mv_refl| |intros [= <-]; apply mv_refl].
    destruct z; [intros [= <-]; apply mv_refl|]. destruct (zlen o <? 4); [discriminate|].
    destruct (unbe o <=? 1); intros [= <-]; apply mv_refl. }
  destruct (unbe (firstn 4 o) <=? 1); [intros [= <-]; apply mv_refl|].
  destruct (zlen o - 4 <? unbe (firstn 4 o)).
  { destruct st; [discriminate|intros [= <-]; apply mv_refl]. }
  destruct (negb _); intros [= <-]; [apply mv_refl|].
  eapply say_mv; [|reflexivity|reflexivity|reflexivity]; apply HQ; exact I.
Qed.

Ltac one := intros [= <- <-]; first
  [ apply mv_refl | apply same_mv; reflexivity
  | eapply say_mv; [|reflexivity|reflexivity|reflexivity]; apply HQ; exact I ].

Lemma ext_clipboard_mvg c m c' n : on_ext_clipboard E c m = Ok (c', n) -> mvg Q c c'.
Proof.
  unfold on_ext_clipboard. destruct (_ <? _); [one|].
  destruct (_ <? _); [discriminate|]. destruct (_ && _); [one|].
  destruct (_ <? _); [discriminate|]. destruct (zlen m <? _).
  { destruct (cut c); [discriminate|]. one. }
  intros H. apply bind_ok in H as (c1 & H & H2). apply ok_inj in H2. injection H2 as <- _.
  revert H. destruct (flag (u32 m 8) CB_CAPS).
  { intros [= <-]. destruct (4 <=? _); apply same_mv; reflexivity. }
  destruct (_ && _ && _ && _).
  { unfold send_clipboard_provide. destruct (provide c); [|discriminate]. intros [= <-].
    eapply say_mv; [|reflexivity|reflexivity|reflexivity]; apply HQ; exact I. }
  destruct (_ && _).
  { intros [= <-]. eapply say_mv; [|reflexivity|reflexivity|reflexivity]; apply HQ; exact I. }
  destruct (_ && _ && _).
  { intros [= <-]. eapply say_mv; [|reflexivity|reflexivity|reflexivity]; apply HQ; exact I. }
  destruct (_ && _); [|intros [= <-]; apply mv_refl].
  destruct (_ <? 0); [discriminate|]. apply clipboard_mvg.
Qed.

Lemma fence_mvg c m c' n : on_fence E r c m = Ok (c', n) -> mvg Q c c'.
Proof.
  unfold on_fence. destruct (_ <? _); [one|]. destruct (_ <? _); [discriminate|].
  destruct (_ <? _); [one|]. destruct (_ <? _); [discriminate|].
  destruct (_ <=? _).
  - destruct (_ <? _); [discriminate|].
    destruct (on_fence_request _ _ c) as [c1 ok] eqn:F. intros [= <- _].
    revert F. unfold on_fence_request. destruct (0 <? pending c).
    { intros [= <- _]. apply same_mv; reflexivity. }
    set (fl := Z.land _ 7). set (p := firstn _ _). set (c2 := say (FenceReq fl p) c).
    assert (M2 : mvg Q c c2) by (eapply say_mv; [|reflexivity|reflexivity|reflexivity]; apply HQ; exact I).
    clearbody c2. set (c3 := if _ && (0 <? _) then _ else _).
    assert (M3 : mvg Q c2 c3).
    { subst c3. destruct (_ && _); [apply same_mv; reflexivity|].
      destruct (_ && _); [apply same_mv; reflexivity|apply mv_refl]. }
    clearbody c3. intros F. eapply mv_trans; [exact M2|]. eapply mv_trans; [exact M3|]. revert F.
    destruct (pf_n c3 =? 0); one.
  - intros H. apply bind_ok in H as (c1 & H & H2). apply ok_inj in H2. injection H2 as <- _.
    revert H. unfold on_fence_response. destruct (_ <? _); [discriminate|].
    destruct (_ =? 0); [intros [= <-]; apply mv_refl|].
    destruct (_ || _); [discriminate|]. destruct (_ <? 0); [intros [= <-]; apply mv_refl|].
    intros H. apply process_mvg in H. eapply mv_trans; [|exact H].
    destruct (_ <? min_rtt c); apply same_mv; reflexivity.
Qed.

Lemma set_encodings_mvg c m c' n : on_set_encodings E c m = (c', n) -> mvg Q c c'.
Proof.
  unfold on_set_encodings. destruct (_ <? _); [one|]. destruct (_ <? _); [one|].
  destruct (scan_encodings _ _ _ _) as [kept q]. intros H.
  set (c1 := set_fmt_changed true _) in H.
  assert (M1 : mvg Q c c1) by (apply same_mv; reflexivity).
  clearbody c1. set (c2 := if negb (cu_notified c1) && _ then _ else _) in H.
  assert (M2 : mvg Q c1 c2).
  { clear H. subst c2. destruct (_ && _); [|apply mv_refl].
    eapply say_mv; [|reflexivity|reflexivity|reflexivity]; apply HQ; exact I. }
  clearbody c2. set (c3 := if has_encoding c2 ENC_EXT_CLIPBOARD then _ else _) in H.
  assert (M3 : mvg Q c2 c3).
  { clear H. subst c3. destruct (has_encoding _ _); [|apply mv_refl].
    eapply say_mv; [|reflexivity|reflexivity|reflexivity]; apply HQ; exact I. }
  clearbody c3. injection H as <- _.
  eapply mv_trans; [exact M1|]. eapply mv_trans; [exact M2|]. eapply mv_trans; [exact M3|].
  destruct (has_encoding c3 ENC_FENCE); [|apply mv_refl]. unfold send_ping.
  destruct (negb _); [apply mv_refl|].
  eapply say_mv; [|reflexivity|reflexivity|reflexivity]; apply HQ; exact I.
Qed.

Lemma ping_mvg c n : mvg Q c (send_ping E n c).
Proof.
  unfold send_ping. destruct (negb _); [apply mv_refl|].
  eapply say_mv; [|reflexivity|reflexivity|reflexivity]; apply HQ; exact I.
Qed.

Lemma on_message_cases c m (P : res (client * Z) -> Prop) :
  P (Ok (c, 0)) -> P (Ok (on_set_pixel_format c m)) -> P (Ok (on_set_encodings E c m)) ->
  P (on_fb_update_request E r c m) -> P (Ok (on_key c m)) -> P (Ok (on_pointer c m)) ->
  P (on_cut_text E c m) -> P (on_enable_continuous_updates E r c m) -> P (on_qemu c m) ->
  P (Ok (on_set_desktop_size E c m)) -> P (on_ntp E c m) -> P (on_fence E r c m) ->
  P (Fault UseAfterFree) -> P (on_message E r c m).
Proof.
  intros. unfold on_message. destruct m as [|t m]; [assumption|].
  destruct t as [|p|p]; [assumption| |assumption].
  repeat first [assumption | destruct p as [p|p|]].
Qed.

Lemma on_message_mvg c m c' n : on_message E r c m = Ok (c', n) -> mvg Q c c'.
Proof.
  apply on_message_cases; [one|..|discriminate].
  - unfold on_set_pixel_format. destruct (_ <? _); [one|]. destruct (_ =? 0); one.
  - intros H. apply ok_inj in H. apply set_encodings_mvg in H. exact H.
  - apply fbur_mvg.
  - unfold on_key. destruct (_ <? _); one.
  - unfold on_pointer. destruct (_ <? _); one.
  - unfold on_cut_text. destruct (_ <? _); [one|]. destruct (_ && _); [apply ext_clipboard_mvg|].
    unfold on_plain_cut_text. destruct (_ <? _); [discriminate|]. destruct (_ <=? _); [one|].
    destruct (cut c); [discriminate|]. one.
  - unfold on_enable_continuous_updates. destruct (_ <? _); [one|]. destruct (negb _).
    + intros H. apply bind_ok in H as (c1 & H & H2). injection H2 as <- <-.
      apply process_mvg in H. eapply mv_trans; [|exact H].
      eapply say_mv; [|reflexivity|reflexivity|reflexivity]; apply HQ; exact I.
    + intros [= <- <-]. set (c1 := say (CuMode _) _).
      assert (M : mvg Q c c1) by (eapply say_mv; [|reflexivity|reflexivity|reflexivity]; apply HQ; exact I).
      eapply mv_trans; [exact M|]. clearbody c1.
      eapply say_mv; [|reflexivity|reflexivity|reflexivity]; apply HQ; exact I.
  - unfold on_qemu. destruct (_ <? _); [one|]. destruct (_ =? 0); [|discriminate].
    unfold on_qemu_key. destruct (_ <? _); [one|]. destruct (nth_error _ _); [one|discriminate].
  - unfold on_set_desktop_size. destruct (_ <? _); [one|]. destruct (_ <? _); [one|].
    destruct (check_layout E _ _ _ c) as [c1 st] eqn:L. intros [= <- <-].
    assert (M : mvg Q c c1).
    { revert L. unfold check_layout. destruct (existsb _ _); [one|]. destruct (e_layout E); one. }
    eapply mv_trans; [exact M|]. eapply say_mv; [|reflexivity|reflexivity|reflexivity]; apply HQ; exact I.
  - unfold on_ntp. destruct (_ <? _); [one|]. destruct (negb _).
    + destruct (_ && _); [one|discriminate].
    + one.
  - apply fence_mvg.
Qed.

Lemma loop_mvg fuel : forall c c', message_loop E r fuel c = Ok c' -> mvg Q c c'.
Proof.
  induction fuel as [|fuel IH]; [discriminate|]. intros c c'. cbn [message_loop].
  destruct (blocked c); [intros [= <-]; apply mv_refl|]. destruct (_ <? _); [discriminate|].
  set (c1 := set_block_next _ _). assert (M1 : mvg Q c c1) by (apply same_mv; reflexivity).
  clearbody c1. intros H. apply bind_ok in H as ([c2 n] & H & H2).
  apply on_message_mvg in H. eapply mv_trans; [exact M1|]. eapply mv_trans; [exact H|].
  destruct (n =? 0); [injection H2 as <-; apply mv_refl|].
  apply IH in H2. eapply mv_trans; [|exact H2]. apply same_mv; reflexivity.
Qed.

Lemma event_mvg c d c' : on_client_event E r c d = Ok c' -> mvg Q c c'.
Proof.
  unfold on_client_event. destruct (cut c) as [t|].
  - destruct d as [[|x d]|]; [intros [= <-]; apply mv_refl| |intros [= <-]; apply mv_refl].
    destruct (_ <? _); [intros [= <-]; apply mv_refl|].
    unfold big_cut_text. destruct (_ <=? _); [discriminate|].
    destruct (negb _); [intros [= <-]; apply same_mv; reflexivity|].
    intros H. apply bind_ok in H as (c1 & H & H2). apply ok_inj in H2. subst c'.
    assert (M : mvg Q c c1).
    { revert H. destruct (ct_zlib t).
      - destruct (ct_provide t); [apply clipboard_mvg|intros [= <-]; apply mv_refl].
      - intros [= <-]. eapply say_mv; [|reflexivity|reflexivity|reflexivity]; apply HQ; exact I. }
    eapply mv_trans; [exact M|]. apply same_mv; reflexivity.
  - destruct (negb _); [discriminate|]. destruct (_ <=? 0); [intros [= <-]; apply same_mv; reflexivity|].
    destruct d as [[|x d]|]; [intros [= <-]; apply mv_refl| |intros [= <-]; apply mv_refl].
    destruct (_ <? _); [intros [= <-]; apply mv_refl|].
    intros H. apply bind_ok in H as (c1 & H & H2). apply loop_mvg in H.
    destruct (_ <? _); [discriminate|]. apply ok_inj in H2. subst c'.
    eapply mv_trans; [|eapply mv_trans; [exact H|]]; apply same_mv; reflexivity.
Qed.

End M.

Lemma receive_mvg (Q : out -> Prop) (HQ : forall o, plain o -> Q o) E fuel : forall c d c', receive E fuel c d = Ok c' -> mvg Q c c'.
Proof.
  induction fuel as [|fuel IH]; [discriminate|]. intros c d c'. cbn [receive].
  apply event_mvg; [exact HQ|]. intros c1 c2. apply IH.
Qed.

(* the end of a frame allowed *)
Notation move := (moveg not_encode).
Notation moves := (movesg not_encode).
Notation mv := (mvg not_encode).
Definition ppf_mv := ppf_mvg not_encode plain_not_encode.
Definition decrement_mv := decrement_mvg not_encode plain_not_encode.
Definition answered_mv := answered_mvg not_encode plain_not_encode.
Definition start_encoding_mv := start_encoding_mvg not_encode.
Definition send_frame_mv := send_frame_mvg not_encode.
Definition ext_mv := ext_mvg not_encode plain_not_encode.
Definition cursor_mv := cursor_mvg not_encode plain_not_encode.
Definition led_mv := led_mvg not_encode plain_not_encode.
Definition process_mv := process_mvg not_encode plain_not_encode.
Definition fbur_mv := fbur_mvg not_encode plain_not_encode.
Definition clipboard_mv := clipboard_mvg not_encode plain_not_encode.
Definition ext_clipboard_mv := ext_clipboard_mvg not_encode plain_not_encode.
Definition fence_mv := fence_mvg not_encode plain_not_encode.
Definition set_encodings_mv := set_encodings_mvg not_encode plain_not_encode.
Definition ping_mv := ping_mvg not_encode plain_not_encode.
Definition on_message_mv := on_message_mvg not_encode plain_not_encode.
Definition loop_mv := loop_mvg not_encode plain_not_encode.
Definition event_mv := event_mvg not_encode plain_not_encode.

Section N.
Variable E : env.
Variable r : client -> res client.
Hypothesis R : forall c c', r c = Ok c' -> mv c c'.

Lemma complete_mv c c' : complete_update E r c = Ok c' -> mv c c'.
Proof.
  unfold complete_update. destruct (negb _); [intros [= <-]; apply mv_refl|].
  intros H. apply (process_mv E r R) in H. eapply mv_trans; [|exact H].
  eapply say_mv; [|reflexivity|reflexivity|reflexivity]; exact I.
Qed.

Lemma finish_mv f c c' : finish_update E r f c = Ok c' -> mv c c'.
Proof.
  unfold finish_update. destruct (closed c); [apply complete_mv|].
  destruct (_ && _).
  { intros H. apply complete_mv in H. eapply mv_trans; [|exact H].
    eapply say_mv; [|reflexivity|reflexivity|reflexivity]; exact I. }
  set (resized := negb _). destruct (resized && _); [discriminate|].
  set (c1 := if resized then set_damage _ _ else c).
  assert (M1 : mv c c1).
  { subst c1. destruct resized; [|apply mv_refl]. eapply grow_mv; reflexivity. }
  clearbody c1. set (c2 := say _ c1).
  assert (M2 : mv c1 c2) by (eapply say_mv; [|reflexivity|reflexivity|reflexivity]; exact I).
  clearbody c2. intros H. eapply mv_trans; [exact M1|]. eapply mv_trans; [exact M2|].
  apply bind_ok in H as (c3 & H & H2).
  assert (M3 : mv c2 c3).
  { revert H. destruct (e_sync _ _); [apply complete_mv|intros [= <-]; apply mv_refl]. }
  eapply mv_trans; [exact M3|]. apply (ppf_mv r R) in H2. eapply mv_trans; [|exact H2]. apply ping_mv.
Qed.

End N.

Definition receive_mv := receive_mvg not_encode plain_not_encode.

Lemma step_moves E fuel c i c' P : step E fuel c i = Ok c' -> good_disp P c ->
  (forall f r, i = IDamage f r -> P f) -> moves P c c' /\ good_disp P c'.
Proof.
  assert (R : forall c c', receive E fuel c (e_more E (log c)) = Ok c' -> mv c c').
  { intros. eapply receive_mv; eauto. }
  assert (K : forall a b, mv a b -> good_disp P a -> moves P a b /\ good_disp P b).
  { intros a b [A B] G. split; [auto|]. intros f F. apply G. congruence. }
  intros H G PI. unfold step in H. destruct i.
  - destruct (closed c); [apply ok_inj in H; subst; split; [constructor|assumption]|].
    apply receive_mv in H. apply K; assumption.
  - apply (process_mv E _ R) in H.
    set (c1 := if closed (set_disp (Some f) c) then _ else _) in H.
    assert (D1 : disp c1 = Some f) by (subst c1; destruct (closed _); reflexivity).
    assert (G1 : good_disp P c1).
    { intros f' F. rewrite D1 in F. injection F as <-. eapply PI. reflexivity. }
    destruct (K _ _ H G1) as [M G2]. split; [|exact G2].
    eapply moves_trans; [|exact M]. apply move_one. subst c1.
    change (closed (set_disp (Some f) c)) with (closed c). destruct (closed c).
    + apply (m_other _ _ _ _ []); [reflexivity|symmetry; apply app_nil_r|constructor].
    + apply (m_damage _ _ _ _ r); reflexivity.
  - apply (finish_mv E _ R) in H. apply K; assumption.
  - apply (complete_mv E _ R) in H. apply K; assumption.
  - apply (process_mv E _ R) in H. apply K; [|assumption].
    eapply mv_trans; [|exact H]. apply same_mv; reflexivity.
  - apply (process_mv E _ R) in H. apply K; [|assumption].
    eapply mv_trans; [|exact H]. apply same_mv; reflexivity.
  - apply ok_inj in H. subst c'. apply K; [|assumption]. apply same_mv; reflexivity.
Qed.

Lemma run_moves E fuel l P : forall c c', run E fuel c l = Ok c' -> good_disp P c ->
  Forall (fun i => forall f r, i = IDamage f r -> P f) l -> moves P c c'.
Proof.
  induction l as [|i l IH]; intros c c'; cbn [run].
  - intros [= <-] _ _. constructor.
  - intros H G F. inversion F as [|? ? F1 F2]; subst. apply bind_ok in H as (c1 & H & H2).
    destruct (step_moves _ _ _ _ _ P H G F1) as [M G1].
    eapply moves_trans; [exact M|]. apply IH; assumption.
Qed.

(** The log only grows. *)
Lemma moves_log P c c' : moves P c c' -> exists l, log c' = log c ++ l.
Proof.
  induction 1 as [c|a b c M _ [l IH]]; [exists []; symmetry; apply app_nil_r|].
  destruct M as [a b l0 _ L _|a b r0 _ L|a b f ok _ _ L]; rewrite IH, L.
  - rewrite <- app_assoc. eauto.
  - eauto.
  - rewrite <- app_assoc. eauto.
Qed.

Lemma mv_log c c' : mv c c' -> exists l, log c' = log c ++ l.
Proof. intros [M _]. apply (moves_log (fun _ => True)). apply M. intros f _. exact I. Qed.
