(** Nothing a client's code does changes what the clients share. *)
From Verif Require Import Common CommonProofs Msg_Model Msg_Spec Msg2_Spec Upd_Proofs Msg_Proofs Many_Model.

Lemma see_leaves c : see (leaves c) c = c.
Proof. destruct c; reflexivity. Qed.
Lemma leaves_see sh c : leaves (see sh c) = sh.
Proof. destruct sh; reflexivity. Qed.

Section Frame.
Variable E : env.
Variable r : client -> res client.
Hypothesis R : forall c c', r c = Ok c' -> leaves c' = leaves c.

Lemma ppf_frame c c' : process_pending_fence r c = Ok c' -> leaves c' = leaves c.
Proof.
  unfold process_pending_fence. destruct (pf_n c =? 0).
  - destruct (blocked c); [discriminate|]. intros H. apply ok_inj in H. subst. reflexivity.
  - destruct (negb _); intros H; [apply ok_inj in H; subst; reflexivity|]. apply R in H. exact H.
Qed.

Lemma decrement_frame c c' n : decrement_pending r c = Ok (c', n) -> leaves c' = leaves c.
Proof.
  unfold decrement_pending. destruct (updating c); [discriminate|].
  destruct (cu_on c); [intros H; apply ok_inj, pair_equal_spec in H as [<- _]; reflexivity|].
  intros H. apply bind_ok in H as (c1 & H & H2). apply ok_inj, pair_equal_spec in H2 as [<- _].
  apply ppf_frame in H. exact H.
Qed.

Lemma answered_frame s c k c' : (forall c1 c', k c1 = Ok c' -> leaves c' = leaves c1) ->
  answered r s c k = Ok c' -> leaves c' = leaves c.
Proof.
  intros K. unfold answered. destruct s; [|apply K].
  intros H. apply bind_ok in H as ([c1 n] & H & H2). apply decrement_frame in H.
  destruct (n <=? 0); [apply ok_inj in H2; subst; exact H|]. apply K in H2. congruence.
Qed.

Lemma send_frame_frame f c c' : send_frame E f c = Ok c' -> leaves c' = leaves c.
Proof.
  unfold send_frame. destruct (negb _); [intros H; apply ok_inj in H; subst; reflexivity|].
  destruct (e_limited _ _ _ _); [intros H; apply ok_inj in H; subst; reflexivity|].
  unfold start_encoding. destruct (ensure_encoder E f c) as [c1 ok] eqn:EN.
  assert (X : leaves c1 = leaves c).
  { unfold ensure_encoder in EN. destruct (match encoder c with Some k => _ | None => _ end);
      [injection EN as <- <-; reflexivity|]. destruct (e_encoder _ _ _); injection EN as <- <-; reflexivity. }
  destruct (negb ok); [intros H; apply ok_inj in H; subst; exact X|]. intros H. rewrite <- X.
  destruct (e_encode _ _); cbv beta zeta in H; apply ok_inj in H; subst c'; [destruct (0 <? _)|]; reflexivity.
Qed.

Lemma process_frame c c' : process_requests E r c = Ok c' -> leaves c' = leaves c.
Proof.
  unfold process_requests. destruct (closed c); [intros H; apply ok_inj in H; subst; reflexivity|].
  destruct (disp c) as [f|]; [|intros H; apply ok_inj in H; subst; reflexivity].
  destruct (updating c); [intros H; apply ok_inj in H; subst; reflexivity|].
  destruct (_ && _); [intros H; apply ok_inj in H; subst; reflexivity|].
  destruct (if ext_notified c then _ else _) as [c1 s1] eqn:E1.
  assert (M1 : leaves c1 = leaves c).
  { destruct (ext_notified c); [injection E1 as <- <-; reflexivity|].
    unfold send_ext_support in E1. destruct (_ && _); injection E1 as <- <-; reflexivity. }
  intros H. apply answered_frame in H; [congruence|]. clear c c' E1 M1 H. intros c c' H. cbv zeta in H. apply answered_frame in H.
  - rewrite H. destruct (_ && _); [|reflexivity]. unfold send_cursor_update. destruct (e_cursor _ _ _); reflexivity.
  - clear c c' H. intros c c' H. destruct (send_led_state c) as [c2 s2] eqn:E2.
    apply answered_frame in H; [|intros ? ?; apply send_frame_frame]. rewrite H.
    unfold send_led_state in E2. destruct (_ =? _); [injection E2 as <- <-; reflexivity|].
    destruct (_ && _); injection E2 as <- <-; reflexivity.
Qed.

Lemma ping_frame n c : leaves (send_ping E n c) = leaves c.
Proof. unfold send_ping. repeat match goal with |- context [if ?b then _ else _] => destruct b end; reflexivity. Qed.

Ltac done H := apply ok_inj, pair_equal_spec in H as [<- _]; reflexivity.

Lemma message_frame c m c' n : on_message E r c m = Ok (c', n) -> leaves c' = leaves c.
Proof.
  destruct m as [|t m]; [intros H; done H|]. unfold on_message.
  assert (F0 : Ok (on_set_pixel_format c (t :: m)) = Ok (c', n) -> leaves c' = leaves c).
  { unfold on_set_pixel_format. destruct (zlen _ <? _); [intros H; done H|]. intros H. apply ok_inj in H.
    repeat match type of H with context [if ?b then _ else _] => destruct b end; apply pair_equal_spec in H as [<- _]; reflexivity. }
  assert (F2 : Ok (on_set_encodings E c (t :: m)) = Ok (c', n) -> leaves c' = leaves c).
  { unfold on_set_encodings. destruct (zlen _ <? 4); [intros H; done H|]. cbv zeta. destruct (zlen _ <? _); [intros H; done H|].
    destruct (scan_encodings _ _ _ _) as [k q]. intros H. apply ok_inj, pair_equal_spec in H as [<- _].
    destruct (has_encoding _ ENC_FENCE); rewrite ?ping_frame; destruct (has_encoding _ ENC_EXT_CLIPBOARD); destruct (_ && _); reflexivity. }
  assert (F3 : on_fb_update_request E r c (t :: m) = Ok (c', n) -> leaves c' = leaves c).
  { unfold on_fb_update_request. destruct (zlen _ <? 10); [intros H; done H|]. cbv zeta.
    destruct (negb _ && cu_on c); [intros H; done H|]. intros H. apply bind_ok in H as (c1 & H & H2).
    apply ok_inj, pair_equal_spec in H2 as [<- _]. apply process_frame in H. rewrite H.
    destruct (u8 _ _ =? 0); cbn [andb]; [|reflexivity].
    destruct (encoder _); destruct (has_encoding _ _); reflexivity. }
  assert (F4 : Ok (on_key c (t :: m)) = Ok (c', n) -> leaves c' = leaves c).
  { unfold on_key. destruct (zlen _ <? _); intros H; done H. }
  assert (F5 : Ok (on_pointer c (t :: m)) = Ok (c', n) -> leaves c' = leaves c).
  { unfold on_pointer. destruct (zlen _ <? _); intros H; done H. }
  assert (FP : forall z c1, clipboard_provide E z c = Ok c1 -> leaves c1 = leaves c).
  { intros z c1. unfold clipboard_provide. destruct (e_inflate E z) as [o st].
    destruct (zlen o <=? 4).
    - destruct st as [[|]|]; [intros H; apply ok_inj in H; subst; reflexivity| |intros H; apply ok_inj in H; subst; reflexivity].
      destruct z; [intros H; apply ok_inj in H; subst; reflexivity|]. destruct (zlen o <? 4); [discriminate|].
      destruct (unbe o <=? 1); intros H; apply ok_inj in H; subst; reflexivity.
    - cbv zeta. destruct (_ <=? 1); [intros H; apply ok_inj in H; subst; reflexivity|].
      destruct (_ - 4 <? _); [destruct st; [discriminate|intros H; apply ok_inj in H; subst; reflexivity]|].
      destruct (negb _); intros H; apply ok_inj in H; subst; reflexivity. }
  assert (F6 : on_cut_text E c (t :: m) = Ok (c', n) -> leaves c' = leaves c).
  { unfold on_cut_text. destruct (zlen _ <? 8); [intros H; done H|]. destruct (has_encoding _ _ && _).
    - unfold on_ext_clipboard. destruct (zlen _ <? 12); [intros H; done H|]. cbv zeta.
      destruct (_ <? - _); [discriminate|]. destruct (flag _ CB_CAPS && _); [intros H; done H|].
      destruct (MAX_CUT_TEXT_SIZE <? _); [discriminate|]. destruct (zlen (t :: m) <? _).
      + destruct (cut c); [discriminate|]. intros H; done H.
      + intros H. apply bind_ok in H as (c1 & H & H2). apply ok_inj, pair_equal_spec in H2 as [<- _].
        destruct (flag _ CB_CAPS); [apply ok_inj in H; subst c1; destruct (4 <=? _); reflexivity|].
        destruct (flag _ CB_REQUEST && _ && _ && _).
        { unfold send_clipboard_provide in H. destruct (provide c) eqn:P; [|discriminate]. apply ok_inj in H. subst c1. reflexivity. }
        destruct (flag _ CB_PEEK && _); [apply ok_inj in H; subst c1; reflexivity|].
        destruct (flag _ CB_NOTIFY && _ && _); [apply ok_inj in H; subst c1; reflexivity|].
        destruct (flag _ CB_PROVIDE && _); [|apply ok_inj in H; subst c1; reflexivity].
        destruct (_ <? 0); [discriminate|]. apply FP in H. exact H.
    - unfold on_plain_cut_text. cbv zeta. destruct (_ <? _); [discriminate|]. destruct (_ <=? _); [intros H; done H|].
      destruct (cut c); [discriminate|]. intros H; done H. }
  assert (F150 : on_enable_continuous_updates E r c (t :: m) = Ok (c', n) -> leaves c' = leaves c).
  { unfold on_enable_continuous_updates. destruct (zlen _ <? 10); [intros H; done H|]. cbv zeta.
    destruct (negb _); [|intros H; done H]. intros H. apply bind_ok in H as (c1 & H & H2).
    apply ok_inj, pair_equal_spec in H2 as [<- _]. apply process_frame in H. exact H. }
  assert (F255 : on_qemu c (t :: m) = Ok (c', n) -> leaves c' = leaves c).
  { unfold on_qemu. destruct (zlen _ <? 2); [intros H; done H|]. destruct (_ =? 0); [|discriminate].
    unfold on_qemu_key. destruct (zlen _ <? 12); [intros H; done H|]. cbv zeta. destruct (nth_error _ _); [|discriminate]. intros H; done H. }
  assert (F251 : Ok (on_set_desktop_size E c (t :: m)) = Ok (c', n) -> leaves c' = leaves c).
  { unfold on_set_desktop_size. destruct (zlen _ <? 8); [intros H; done H|]. cbv zeta. destruct (zlen _ <? _); [intros H; done H|].
    unfold check_layout. destruct (existsb _ _); [intros H; done H|]. destruct (e_layout E); intros H; done H. }
  assert (F160 : on_ntp E c (t :: m) = Ok (c', n) -> leaves c' = leaves c).
  { unfold on_ntp. destruct (zlen _ <? 20); [intros H; done H|]. cbv zeta. destruct (negb _); [|intros H; done H].
    destruct (_ && _); [intros H; done H|discriminate]. }
  assert (F248 : on_fence E r c (t :: m) = Ok (c', n) -> leaves c' = leaves c).
  { unfold on_fence. destruct (zlen _ <? 8); [intros H; done H|]. destruct (zlen _ <? 9); [discriminate|]. cbv zeta.
    destruct (zlen _ <? _); [intros H; done H|]. destruct (64 <? _); [discriminate|]. destruct (_ <=? _).
    - destruct (zlen _ <? _); [discriminate|]. destruct (on_fence_request _ _ _) as [c1 ok] eqn:Q. intros H.
      apply ok_inj, pair_equal_spec in H as [<- _]. unfold on_fence_request in Q. destruct (0 <? pending c); [injection Q as <- <-; reflexivity|].
      cbv zeta in Q. repeat match type of Q with context [if ?b then _ else _] => destruct b end; injection Q as <- <-; reflexivity.
    - intros H. apply bind_ok in H as (c1 & H & H2). apply ok_inj, pair_equal_spec in H2 as [<- _].
      unfold on_fence_response in H. destruct (zlen _ <? 17); [discriminate|]. cbv zeta in H.
      destruct (_ =? 0); [apply ok_inj in H; subst; reflexivity|]. destruct (_ || _); [discriminate|].
      destruct (_ <? 0); [apply ok_inj in H; subst; reflexivity|]. apply process_frame in H. rewrite H. destruct (_ <? min_rtt c); reflexivity. }
  clear FP. destruct t as [|p|p]; [assumption| |discriminate].
  do 8 (try destruct p as [p|p|]; try assumption; try discriminate).
Qed.

Lemma loop_frame fuel : forall c c', message_loop E r fuel c = Ok c' -> leaves c' = leaves c.
Proof.
  induction fuel as [|fuel IH]; intros c c'; [discriminate|]. cbn [message_loop].
  destruct (blocked c); [intros H; apply ok_inj in H; subst; reflexivity|]. destruct (_ <? _); [discriminate|]. cbv zeta.
  intros H. apply bind_ok in H as ([c1 n] & H & H2). apply message_frame in H.
  destruct (n =? 0); [apply ok_inj in H2; subst; exact H|]. apply IH in H2. rewrite H2. exact H.
Qed.

Lemma event_frame c d c' : on_client_event E r c d = Ok c' -> leaves c' = leaves c.
Proof.
  unfold on_client_event. destruct (cut c) as [t|].
  - destruct d as [[|x d]|]; [intros H; apply ok_inj in H; subst; reflexivity| |intros H; apply ok_inj in H; subst; reflexivity].
    destruct (_ <? _); [intros H; apply ok_inj in H; subst; reflexivity|]. unfold big_cut_text. destruct (_ <=? _); [discriminate|].
    cbv zeta. destruct (negb _); [intros H; apply ok_inj in H; subst; reflexivity|].
    intros H. apply bind_ok in H as (c1 & H & H2). apply ok_inj in H2. subst c'. change (leaves (set_cut None c1)) with (leaves c1).
    destruct (ct_zlib t); [|apply ok_inj in H; subst; reflexivity]. destruct (ct_provide t); [|apply ok_inj in H; subst; reflexivity].
    unfold clipboard_provide in H. destruct (e_inflate E _) as [o st].
    destruct (zlen o <=? 4).
    + destruct st as [[|]|]; [apply ok_inj in H; subst; reflexivity| |apply ok_inj in H; subst; reflexivity].
      destruct (ct_data t ++ x :: d); [apply ok_inj in H; subst; reflexivity|]. destruct (zlen o <? 4); [discriminate|].
      destruct (unbe o <=? 1); apply ok_inj in H; subst; reflexivity.
    + cbv zeta in H. destruct (_ <=? 1); [apply ok_inj in H; subst; reflexivity|].
      destruct (_ - 4 <? _); [destruct st; [discriminate|apply ok_inj in H; subst; reflexivity]|].
      destruct (negb _); apply ok_inj in H; subst; reflexivity.
  - destruct (negb _); [discriminate|]. cbv zeta. destruct (_ <=? _); [intros H; apply ok_inj in H; subst; reflexivity|].
    destruct d as [[|x d]|]; [intros H; apply ok_inj in H; subst; reflexivity| |intros H; apply ok_inj in H; subst; reflexivity].
    destruct (_ <? _); [intros H; apply ok_inj in H; subst; reflexivity|]. intros H. apply bind_ok in H as (c1 & H & H2).
    apply loop_frame in H. destruct (_ <? _); [discriminate|]. apply ok_inj in H2. subst c'. exact H.
Qed.

Lemma complete_frame c c' : complete_update E r c = Ok c' -> leaves c' = leaves c.
Proof.
  unfold complete_update. destruct (negb _); [intros H; apply ok_inj in H; subst; reflexivity|]. intros H. apply process_frame in H. exact H.
Qed.

Lemma finish_frame f c c' : finish_update E r f c = Ok c' -> leaves c' = leaves c.
Proof.
  unfold finish_update. destruct (closed c); [apply complete_frame|].
  destruct (_ && _); [intros H; apply complete_frame in H; exact H|]. cbv zeta.
  destruct (negb _ && _); [discriminate|]. intros H. apply bind_ok in H as (c1 & H & H2). apply ppf_frame in H2. rewrite H2.
  rewrite ping_frame. destruct (e_sync _ _); [apply complete_frame in H; rewrite H|apply ok_inj in H; subst c1]; destruct (negb _); reflexivity.
Qed.
End Frame.

Lemma receive_frame E fuel : forall c d c', receive E fuel c d = Ok c' -> leaves c' = leaves c.
Proof.
  induction fuel as [|fuel IH]; intros c d c'; [discriminate|]. cbn [receive]. apply event_frame. intros c1 c2. apply IH.
Qed.
