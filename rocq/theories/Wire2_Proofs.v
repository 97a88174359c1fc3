(** Everything that is handed to the stream is a sequence of whole messages. *)
From Verif Require Import Common CommonProofs Pixels_Model Msg_Model Msg_Spec Msg_Proofs Upd_Spec Upd_Proofs Clip_Model Wire_Spec Wire_Proofs Eye_Spec.

Lemma sent_app l m : sent (l ++ m) = sent l ++ sent m.
Proof. apply flat_map_app. Qed.
Lemma traffic_app l m : traffic (l ++ m) = traffic l ++ traffic m.
Proof. unfold traffic. rewrite sent_app, concat_app. reflexivity. Qed.

(** An extended clipboard message must fit the signed 32-bit length field. *)
Definition short (z : option (list Z)) : Prop :=
  match z with Some z => 4 + zlen z < 2 ^ 31 | None => True end.

Definition inv (c : client) : Prop := (length (pf_payload c) <= 64)%nat /\ short (provide c).

Lemma resize_one p c w h : rects_len p 1 (resize_rect c w h) = Some (length (resize_rect c w h)).
Proof.
  unfold resize_rect. destruct (has_encoding _ _); [apply ext_size_one|].
  rewrite <- (app_nil_r (rect_head 0 0 w h ENC_DESKTOPSIZE)). apply one_rect; [unfold ENC_DESKTOPSIZE; lia|reflexivity].
Qed.

Lemma pts_one p c f : pts_rect c f = [] \/
  (pts_rect c f <> [] /\ rects_len p 1 (pts_rect c f) = Some (length (pts_rect c f))).
Proof.
  unfold pts_rect. destruct (f_pts f) as [t|]; [|auto]. destruct (has_encoding c ENC_PTS); [|auto]. right.
  split; [unfold rect_head; cbn; discriminate|].
  apply one_rect; [unfold ENC_PTS; lia|]. cbn [body_len Z.eqb ENC_PTS Pos.eqb]. rewrite be_length. apply need_ok. rewrite be_length. lia.
Qed.

Lemma field_firstn n k i l : (k + n <= i)%nat -> field n k (firstn i l) = field n k l.
Proof. intros H. unfold field. rewrite skipn_firstn_comm, firstn_firstn. do 2 f_equal. lia. Qed.

Section F.
Variable pic : list Z -> Wire_Spec.picture.
Hypothesis PW : prefix_wise pic.
Variable St : Type.
Variable pnt : list Z -> St -> St.
Hypothesis still : forall r s, pixelless r -> pnt r s = s.
Variable tame : Prop. (* whether cursor images are of the cursor encoding *)

(* changes nothing on a screen *)
Definition calm (p : Wire_Spec.picture) (m : list Z) : Prop := forall s, draw p pnt s m = s.

Definition fits (L l : list out) : Prop :=
  sent l = [] \/
  ((one_byte_leds l -> message_len (pic (traffic L)) (traffic l) = Some (length (traffic l))) /\
   ((exists b, l = [Update KFrame b]) \/
    (Forall (fun o => match o with Update KFrame _ => False | _ => True end) l /\
     (tame -> calm (pic (traffic L)) (traffic l))))).

Inductive flow : list out -> list out -> Prop :=
| f_refl L : flow L L
| f_step L l L' : fits L l -> flow (L ++ l) L' -> flow L L'.

Lemma flow_trans a b c : flow a b -> flow b c -> flow a c.
Proof. induction 1; intros; [assumption|]. econstructor; eauto. Qed.
Lemma flow_ext a b : flow a b -> exists l, b = a ++ l.
Proof.
  induction 1 as [L|L l L' F _ [x IH]]; [exists []; rewrite app_nil_r; reflexivity|].
  exists (l ++ x). rewrite IH, app_assoc. reflexivity.
Qed.

Lemma flow_splits L L' : flow L L' -> one_byte_leds L' ->
  (exists ms, splits pic [] (traffic L) ms) -> exists ms, splits pic [] (traffic L') ms.
Proof.
  induction 1 as [L|L l L' F G IH]; intros O1 [ms S0]; [exists ms; exact S0|].
  apply IH; [exact O1|]. rewrite traffic_app. destruct F as [F|[F _]].
  - unfold traffic at 2. rewrite F, app_nil_r. exists ms. exact S0.
  - exists (ms ++ [traffic l]). apply splits_snoc; [exact PW|exact S0|]. apply F.
    apply flow_ext in G as [x G]. intros b B. apply O1. rewrite G. apply in_or_app. left. apply in_or_app. right. exact B.
Qed.

Definition fl (c c' : client) : Prop := inv c -> inv c' /\ flow (log c) (log c').

Lemma fl_refl c : fl c c.
Proof. intros I. split; [exact I|constructor]. Qed.
Lemma fl_trans a b c : fl a b -> fl b c -> fl a c.
Proof. intros A B I. destruct (A I) as [I1 F1]. destruct (B I1) as [I2 F2]. split; [exact I2|eapply flow_trans; eauto]. Qed.
Lemma same_fl c c' : pf_payload c' = pf_payload c -> provide c' = provide c -> log c' = log c -> fl c c'.
Proof. intros A B L I. unfold inv. rewrite A, B, L. split; [exact I|constructor]. Qed.
Lemma say_fl c c' l : pf_payload c' = pf_payload c -> provide c' = provide c -> log c' = log c ++ l ->
  (inv c -> fits (log c) l) -> fl c c'.
Proof. intros A B L F I. unfold inv. rewrite A, B. split; [exact I|]. econstructor; [apply F, I|]. rewrite <- L. constructor. Qed.
Lemma mute_fl c c' o : pf_payload c' = pf_payload c -> provide c' = provide c -> log c' = log c ++ [o] ->
  sent [o] = [] -> fl c c'.
Proof. intros A B L T. apply (say_fl c c' [o]); auto. intros _. left. exact T. Qed.
Lemma msg_fl c c' b : pf_payload c' = pf_payload c -> provide c' = provide c -> log c' = log c ++ [Sent b] ->
  (nth 0 b 0 =? 0) = false -> (inv c -> forall p, message_len p b = Some (length b)) -> fl c c'.
Proof.
  intros A B L N M. apply (say_fl c c' [Sent b]); auto. intros I0. right.
  unfold traffic at 2 3 5. cbn [sent flat_map app concat]. rewrite app_nil_r. split; [intros _; apply M, I0|].
  right. split; [repeat constructor|]. intros _ s. unfold draw. destruct b as [|t b]; [reflexivity|]. cbn [nth] in N. rewrite N. reflexivity.
Qed.
Lemma upd_fl c c' k b : pf_payload c' = pf_payload c -> provide c' = provide c -> log c' = log c ++ [Update k b] ->
  (one_byte_leds [Update k b] -> message_len (pic (traffic (log c))) b = Some (length b)) ->
  (k <> KFrame -> tame -> calm (pic (traffic (log c))) b) -> fl c c'.
Proof.
  intros A B L M Q. apply (say_fl c c' [Update k b]); auto. intros I0. right.
  unfold traffic at 2 3 5. cbn [sent flat_map app concat]. rewrite app_nil_r. split; [intros O1; apply M, O1|].
  destruct k; first [left; exists b; reflexivity|right; (split; [repeat constructor|apply Q; discriminate])].
Qed.

(* an update of one rectangle that is not of pixels *)
Lemma calm_update p n l : 0 <= n < 2 ^ 16 -> forall s, draw p pnt s (update_head n ++ l) = draw_rects p pnt (Z.to_nat n) l s.
Proof.
  intros N s. set (m := update_head n ++ l).
  assert (F : field 2 2 m = n).
  { subst m. unfold update_head. rewrite <- app_assoc. change 2%nat with (length [0; 0]) at 2. rewrite (field_at 2 [0; 0]) by apply be_length.
    rewrite Z.mod_small by lia. apply unbe_be. exact N. }
  change (draw p pnt s m) with (draw_rects p pnt (Z.to_nat (field 2 2 m)) (skipn 4 m) s). rewrite F. reflexivity.
Qed.
Lemma calm_rect p l s : pixelless l -> draw_rects p pnt 1 l s = s.
Proof.
  intros H. cbn [draw_rects]. destruct (rect_len p l) as [k|] eqn:R; [|reflexivity]. apply still.
  unfold pixelless in *. rewrite field_firstn; [exact H|]. unfold rect_len in R. destruct (_ <? _)%nat; [discriminate|].
  destruct (body_len _ _ _ _ _); [|discriminate]. injection R as <-. lia.
Qed.
Lemma head_encoding x y w h e body : - 2 ^ 31 <= e < 2 ^ 31 -> to_signed 32 (field 4 8 (rect_head x y w h e ++ body)) = e.
Proof.
  intros H. unfold rect_head. rewrite <- !app_assoc. set (pre := be 2 x ++ be 2 y ++ be 2 w ++ be 2 h).
  replace (be 2 x ++ be 2 y ++ be 2 w ++ be 2 h ++ be 4 (pattern32 e) ++ body) with (pre ++ be 4 (pattern32 e) ++ body)
    by (subst pre; rewrite <- !app_assoc; reflexivity).
  assert (L : length pre = 8%nat) by (subst pre; rewrite !app_length, !be_length; reflexivity).
  rewrite <- L, (field_at 4 pre) by apply be_length. rewrite pattern_unbe. apply signed_pattern. exact H.
Qed.
Lemma calm_one p x y w h e body : - 2 ^ 31 <= e < 2 ^ 31 -> ~ In e [0; 7; 16; 50] -> calm p (update_head 1 ++ rect_head x y w h e ++ body).
Proof. intros H N s. rewrite calm_update by lia. apply calm_rect. unfold pixelless. rewrite head_encoding; assumption. Qed.
Lemma calm_ext_size p w h i j : calm p (update_head 1 ++ ext_size_rect w h i j).
Proof. unfold ext_size_rect. apply calm_one; unfold ENC_EXTDESKTOPSIZE; [lia|cbn; lia]. Qed.

Ltac sm := apply same_fl; reflexivity.
Ltac mu := eapply mute_fl; reflexivity.

Lemma provide_fl c c' : send_clipboard_provide c = Ok c' -> fl c c'.
Proof.
  unfold send_clipboard_provide. destruct (provide c) as [z|] eqn:P; [|discriminate]. intros [= <-].
  apply (msg_fl c _ (clipboard_head (- (4 + zlen z)) (CB_PROVIDE + CB_TEXT) ++ z)); [reflexivity..|]. intros [_ S0] p. rewrite P in S0. cbn [short] in S0.
  assert (0 <= zlen z) by (unfold zlen; lia).
  unfold clipboard_head. rewrite <- !app_assoc. apply cut_message; [lia|].
  unfold zlen in *. rewrite app_length, be_length. lia.
Qed.
Lemma notify_fl c : fl c (send_clipboard_notify c).
Proof.
  apply (msg_fl c _ (clipboard_head (-4) (CB_NOTIFY + match provide c with Some _ => CB_TEXT | None => 0 end))); [reflexivity..|].
  intros _ p. unfold clipboard_head. apply cut_message; [lia|]. unfold zlen. rewrite be_length. reflexivity.
Qed.
Lemma request_fl c : fl c (send_clipboard_request c).
Proof. eapply msg_fl; [reflexivity..|]. intros _ p. vm_compute. reflexivity. Qed.
Lemma caps_fl c : fl c (send_clipboard_caps c).
Proof. eapply msg_fl; [reflexivity..|]. intros _ p. vm_compute. reflexivity. Qed.

Section M.
Variable E : env.
Hypothesis CU : cursors pic E.
Hypothesis SH : tame -> cursor_shapes E.
Variable r : client -> res client.
Hypothesis R : forall c c', r c = Ok c' -> fl c c'.

Lemma ppf_fl c c' : process_pending_fence r c = Ok c' -> fl c c'.
Proof.
  unfold process_pending_fence. destruct (pf_n c =? 0).
  - destruct (blocked c); [discriminate|]. intros [= <-]. apply fl_refl.
  - destruct (negb _).
    + intros [= <-]. sm.
    + intros H. apply R in H. eapply fl_trans; [|exact H]. intros I.
      assert (F : fl c (send_fence (pf_flags c) (pf_payload c) (set_pf_n (pf_n c - 1) c))).
      { eapply msg_fl; [reflexivity..|]. intros [P _] p. apply fence_message. exact P. }
      destruct (F I) as [_ G]. split; [|exact G]. split; [cbn; lia|apply I].
Qed.

Lemma decrement_fl c c' n : decrement_pending r c = Ok (c', n) -> fl c c'.
Proof.
  unfold decrement_pending. destruct (updating c); [discriminate|].
  destruct (cu_on c); [intros [= <- <-]; apply fl_refl|].
  intros H. apply bind_ok in H as (c1 & H & H2). apply ok_inj in H2. injection H2 as <- <-.
  apply ppf_fl in H. eapply fl_trans; [exact H|]. sm.
Qed.

Lemma answered_fl s c k c' : (forall c1 c', k c1 = Ok c' -> fl c1 c') ->
  answered r s c k = Ok c' -> fl c c'.
Proof.
  intros K. unfold answered. destruct s; [|apply K].
  intros H. apply bind_ok in H as ([c1 n] & H & H2). apply decrement_fl in H.
  destruct (n <=? 0); [apply ok_inj in H2; subst; exact H|].
  eapply fl_trans; [exact H|]. apply K. exact H2.
Qed.

Lemma send_frame_fl f c c' : send_frame E f c = Ok c' -> fl c c'.
Proof.
  unfold send_frame. destruct (negb _); [intros [= <-]; apply fl_refl|].
  destruct (e_limited _ _ _ _); [intros [= <-]; apply fl_refl|].
  unfold start_encoding. destruct (ensure_encoder E f c) as [c1 ok] eqn:EN.
  assert (X : fl c c1).
  { unfold ensure_encoder in EN. destruct (match encoder c with Some k => _ | None => _ end);
      [injection EN as <- <-; apply fl_refl|]. destruct (e_encoder _ _ _); injection EN as <- <-; sm. }
  destruct (negb ok); [intros [= <-]; exact X|]. intros H. eapply fl_trans; [exact X|].
  destruct (e_encode _ _) eqn:EE; cbv beta zeta in H; apply ok_inj in H; subst c'.
  - destruct (0 <? _); mu.
  - mu.
Qed.

Lemma ext_fl c c' s : send_ext_support c = (c', s) -> fl c c'.
Proof.
  unfold send_ext_support. destruct (has_encoding c ENC_QEMU_KEY) eqn:Q; destruct (has_encoding c ENC_NTP) eqn:N;
    cbn [negb andb Z.b2z]; intros [= <- <-]; try apply fl_refl;
    (eapply upd_fl; [reflexivity..|intros _; vm_compute; reflexivity|intros _ _ s; vm_compute; rewrite !still; [reflexivity|vm_compute; intuition discriminate..]]).
Qed.

Lemma cursor_fl c : fl c (send_cursor_update E c).
Proof.
  unfold send_cursor_update. destruct (e_cursor E (log c) (fmt c)) as [d|] eqn:D; [|mu].
  eapply upd_fl; [reflexivity..| |].
  - intros _. apply update_message; [lia|]. apply (CU _ _ _ D).
  - intros _ T s. rewrite calm_update by lia. apply calm_rect. unfold pixelless. rewrite (SH T _ _ _ D). cbn. lia.
Qed.

Lemma led_fl c c' s : send_led_state c = (c', s) -> fl c c'.
Proof.
  unfold send_led_state. destruct (_ =? _); [intros [= <- <-]; apply fl_refl|].
  destruct (negb (has_encoding c ENC_QEMU_LED) && negb (has_encoding c ENC_VMWARE_LED)); [intros [= <- <-]; apply fl_refl|]. intros [= <- <-].
  eapply upd_fl; [reflexivity..| |].
  2: { intros _ _. destruct (has_encoding c ENC_QEMU_LED); apply calm_one; unfold ENC_QEMU_LED, ENC_VMWARE_LED; try lia; cbn; lia. }
  intros O1. apply update_message; [lia|].
  destruct (has_encoding c ENC_QEMU_LED); [apply one_rect; [unfold ENC_QEMU_LED; lia|reflexivity]|exfalso].
  specialize (O1 _ (or_introl eq_refl)). discriminate O1.
Qed.

Lemma process_fl c c' : process_requests E r c = Ok c' -> fl c c'.
Proof.
  unfold process_requests. destruct (closed c); [intros [= <-]; apply fl_refl|].
  destruct (disp c) as [f|] eqn:D; [|intros [= <-]; apply fl_refl].
  destruct (updating c); [intros [= <-]; apply fl_refl|].
  destruct (_ && _); [intros [= <-]; apply fl_refl|].
  destruct (if ext_notified c then _ else _) as [c1 s1] eqn:E1.
  assert (M1 : fl c c1).
  { destruct (ext_notified c); [injection E1 as <- <-; apply fl_refl|].
    apply ext_fl in E1. eapply fl_trans; [|exact E1]. sm. }
  intros H. eapply fl_trans; [exact M1|]. revert H. apply answered_fl.
  intros c2 c''. set (cur := _ && _). intros H.
  assert (M3 : fl c2 (if cur then send_cursor_update E c2 else c2)).
  { destruct cur; [apply cursor_fl|apply fl_refl]. }
  eapply fl_trans; [exact M3|]. revert H. apply answered_fl.
  intros c4 c'''. destruct (send_led_state c4) as [c5 s5] eqn:E5. apply led_fl in E5.
  intros H. eapply fl_trans; [exact E5|]. revert H. apply answered_fl.
  intros c6 c7. apply send_frame_fl.
Qed.

Lemma fbur_fl c m c' n : on_fb_update_request E r c m = Ok (c', n) -> fl c c'.
Proof.
  unfold on_fb_update_request. destruct (_ <? _); [intros [= <- <-]; apply fl_refl|].
  destruct (negb (u8 m 1 =? 0) && cu_on c); [intros [= <- <-]; apply fl_refl|]. cbv zeta.
  intros H. apply bind_ok in H as (c1 & H & H2). injection H2 as <- <-.
  apply process_fl in H. eapply fl_trans; [|exact H]. clear H.
  set (c2 := if u8 m 1 =? 0 then _ else _).
  assert (M2 : fl c c2).
  { subst c2. destruct (u8 m 1 =? 0); [|sm]. destruct (encoder _); [mu|sm]. }
  clearbody c2. eapply fl_trans; [exact M2|]. destruct (_ && _); mu.
Qed.

Lemma clipboard_fl z c c' : clipboard_provide E z c = Ok c' -> fl c c'.
Proof.
  unfold clipboard_provide. destruct (e_inflate E z) as [o st].
  destruct (zlen o <=? 4).
  { destruct st as [[]|]; [intros [= <-]; apply fl_refl| |intros [= <-]; apply fl_refl].
    destruct z; [intros [= <-]; apply fl_refl|]. destruct (zlen o <? 4); [discriminate|].
    destruct (unbe o <=? 1); intros [= <-]; apply fl_refl. }
  destruct (unbe (firstn 4 o) <=? 1); [intros [= <-]; apply fl_refl|].
  destruct (zlen o - 4 <? unbe (firstn 4 o)).
  { destruct st; [discriminate|intros [= <-]; apply fl_refl]. }
  destruct (negb _); intros [= <-]; [apply fl_refl|]. mu.
Qed.

Ltac one := intros [= <- <-]; first [ apply fl_refl | sm | mu ].

Lemma ext_clipboard_fl c m c' n : on_ext_clipboard E c m = Ok (c', n) -> fl c c'.
Proof.
  unfold on_ext_clipboard. destruct (_ <? _); [one|].
  destruct (_ <? _); [discriminate|]. destruct (_ && _); [one|].
  destruct (_ <? _); [discriminate|]. destruct (zlen m <? _).
  { destruct (cut c); [discriminate|]. one. }
  intros H. apply bind_ok in H as (c1 & H & H2). apply ok_inj in H2. injection H2 as <- _.
  revert H. destruct (flag (u32 m 8) CB_CAPS).
  { intros [= <-]. destruct (4 <=? _); sm. }
  destruct (_ && _ && _ && _); [apply provide_fl|].
  destruct (_ && _); [intros [= <-]; apply notify_fl|].
  destruct (_ && _ && _); [intros [= <-]; apply request_fl|].
  destruct (_ && _); [|intros [= <-]; apply fl_refl].
  destruct (_ <? 0); [discriminate|]. apply clipboard_fl.
Qed.

Lemma fence_fl c m c' n : on_fence E r c m = Ok (c', n) -> fl c c'.
Proof.
  unfold on_fence. destruct (_ <? _); [one|]. destruct (_ <? _); [discriminate|].
  cbv zeta. destruct (zlen m <? 8 + u8 m 8); [one|]. destruct (Z.ltb_spec 64 (u8 m 8)) as [L|L]; [discriminate|].
  destruct (_ <=? _).
  - destruct (_ <? _); [discriminate|].
    assert (PL : (length (firstn (Z.to_nat (u8 m 8)) (skipn 9 m)) <= 64)%nat) by (rewrite firstn_length; lia).
    destruct (on_fence_request _ _ c) as [c1 ok] eqn:F. intros [= <- _].
    revert F. unfold on_fence_request. destruct (0 <? pending c); [one|].
    set (fl0 := Z.land _ 7). set (p := firstn _ _) in *. set (c2 := say (FenceReq fl0 p) c).
    assert (M2 : fl c c2) by mu.
    clearbody c2. set (c3 := if _ && (0 <? _) then _ else _).
    assert (M3 : fl c2 c3).
    { subst c3. destruct (_ && _); [sm|]. destruct (_ && _); [sm|apply fl_refl]. }
    clearbody c3. intros F. eapply fl_trans; [exact M2|]. eapply fl_trans; [exact M3|]. revert F.
    destruct (pf_n c3 =? 0); intros [= <- _].
    + eapply msg_fl; [reflexivity..|]. intros _ q. apply fence_message. exact PL.
    + intros [_ S0]. split; [split; [exact PL|exact S0]|constructor].
  - intros H. apply bind_ok in H as (c1 & H & H2). apply ok_inj in H2. injection H2 as <- _.
    revert H. unfold on_fence_response. destruct (_ <? _); [discriminate|].
    destruct (_ =? 0); [intros [= <-]; apply fl_refl|].
    destruct (_ || _); [discriminate|]. destruct (_ <? 0); [intros [= <-]; apply fl_refl|].
    intros H. apply process_fl in H. eapply fl_trans; [|exact H].
    destruct (_ <? min_rtt c); sm.
Qed.

Lemma ping_fl c n : fl c (send_ping E n c).
Proof.
  unfold send_ping. destruct (negb _); [apply fl_refl|].
  eapply msg_fl; [reflexivity..|]. intros _ p. apply fence_message. rewrite app_length, !be_length. lia.
Qed.

Lemma set_encodings_fl c m c' n : on_set_encodings E c m = (c', n) -> fl c c'.
Proof.
  unfold on_set_encodings. destruct (_ <? _); [one|]. destruct (_ <? _); [one|].
  destruct (scan_encodings _ _ _ _) as [kept q]. intros H.
  set (c1 := set_fmt_changed true _) in H.
  assert (M1 : fl c c1) by sm. clearbody c1.
  set (c2 := if negb (cu_notified c1) && _ then _ else _) in H.
  assert (M2 : fl c1 c2).
  { clear H. subst c2. destruct (_ && _); [|apply fl_refl]. eapply msg_fl; [reflexivity..|]. reflexivity. }
  clearbody c2. set (c3 := if has_encoding c2 ENC_EXT_CLIPBOARD then _ else _) in H.
  assert (M3 : fl c2 c3) by (clear H; subst c3; destruct (has_encoding _ _); [apply caps_fl|apply fl_refl]).
  clearbody c3. injection H as <- _.
  eapply fl_trans; [exact M1|]. eapply fl_trans; [exact M2|]. eapply fl_trans; [exact M3|].
  destruct (has_encoding c3 ENC_FENCE); [apply ping_fl|apply fl_refl].
Qed.

Lemma ntp_fl c m c' n : nth 0 m 0 = 160 -> on_ntp E c m = Ok (c', n) -> fl c c'.
Proof.
  intros T. unfold on_ntp. destruct (zlen m <? 20) eqn:L; [one|]. destruct (negb _).
  - destruct (_ && _); [one|discriminate].
  - intros H. apply ok_inj, pair_equal_spec in H as [<- _]. match goal with |- fl c (say (NtpReply ?b) c) => set (x := b) end.
    apply (say_fl c _ [NtpReply x]); [reflexivity..|]. intros _. right.
    unfold traffic at 2 3 5. cbn [sent flat_map app concat]. rewrite app_nil_r. split; [intros _|].
    2: { right. split; [repeat constructor|]. intros _ s. unfold draw. subst x. destruct m as [|t m]; [discriminate|].
      cbn [nth] in T. subst t. reflexivity. }
    assert (LX : length x = 20%nat).
    { subst x. rewrite !app_length, be_length, !firstn_length, skipn_length. unfold zlen in L. lia. }
    destruct m as [|t m]; [discriminate|]. cbn [nth] in T. subst t.
    assert (X : message_len (pic (traffic (log c))) x = need 20 x) by (subst x; reflexivity).
    rewrite X, LX. apply need_ok. lia.
Qed.

Lemma message_cases c m (P : res (client * Z) -> Prop) :
  P (Ok (c, 0)) -> P (Ok (on_set_pixel_format c m)) -> P (Ok (on_set_encodings E c m)) ->
  P (on_fb_update_request E r c m) -> P (Ok (on_key c m)) -> P (Ok (on_pointer c m)) ->
  P (on_cut_text E c m) -> P (on_enable_continuous_updates E r c m) -> P (on_qemu c m) ->
  P (Ok (on_set_desktop_size E c m)) -> (nth 0 m 0 = 160 -> P (on_ntp E c m)) -> P (on_fence E r c m) ->
  P (Fault UseAfterFree) -> P (on_message E r c m).
Proof.
  intros ? ? ? ? ? ? ? ? ? ? N ? ?. unfold on_message. destruct m as [|t m]; [assumption|].
  destruct t as [|p|p]; [assumption| |assumption].
  repeat first [assumption | exact (N eq_refl) | destruct p as [p|p|]].
Qed.

Lemma on_message_fl c m c' n : on_message E r c m = Ok (c', n) -> fl c c'.
Proof.
  apply message_cases; [one|..|discriminate].
  - unfold on_set_pixel_format. destruct (_ <? _); [one|]. intros [= <- <-].
    set (c1 := set_fmt _ c). assert (M : fl c c1) by sm. eapply fl_trans; [exact M|]. clearbody c1.
    set (c2 := if _ =? 0 then _ else c1). assert (M2 : fl c1 c2).
    { subst c2. destruct (_ =? 0); [|apply fl_refl]. eapply msg_fl; [reflexivity..|]. intros _ p. apply colour_map_message. }
    eapply fl_trans; [exact M2|]. clearbody c2. sm.
  - intros H. apply ok_inj in H. apply set_encodings_fl in H. exact H.
  - apply fbur_fl.
  - unfold on_key. destruct (_ <? _); one.
  - unfold on_pointer. destruct (_ <? _); one.
  - unfold on_cut_text. destruct (_ <? _); [one|]. destruct (_ && _); [apply ext_clipboard_fl|].
    unfold on_plain_cut_text. destruct (_ <? _); [discriminate|]. destruct (_ <=? _); [one|].
    destruct (cut c); [discriminate|]. one.
  - unfold on_enable_continuous_updates. destruct (_ <? _); [one|]. destruct (negb _).
    + intros H. apply bind_ok in H as (c1 & H & H2). injection H2 as <- <-.
      apply process_fl in H. eapply fl_trans; [|exact H]. mu.
    + intros [= <- <-]. apply (fl_trans c (set_cu_rect (0, 0, 0, 0) (say (CuMode false) (set_cu_on false c)))); [mu|].
      apply (msg_fl _ _ [150]); [reflexivity..|]. reflexivity.
  - unfold on_qemu. destruct (_ <? _); [one|]. destruct (_ =? 0); [|discriminate].
    unfold on_qemu_key. destruct (_ <? _); [one|]. destruct (nth_error _ _); [one|discriminate].
  - unfold on_set_desktop_size. destruct (_ <? _); [one|]. destruct (_ <? _); [one|].
    destruct (check_layout E _ _ _ c) as [c1 st] eqn:L. intros [= <- <-].
    assert (M : fl c c1).
    { revert L. unfold check_layout. destruct (existsb _ _); [one|]. destruct (e_layout E); one. }
    eapply fl_trans; [exact M|]. eapply upd_fl; [reflexivity..| |].
    + intros _. apply update_message; [lia|]. apply ext_size_one.
    + intros _ _. apply calm_ext_size.
  - apply ntp_fl.
  - apply fence_fl.
Qed.

Lemma loop_fl fuel : forall c c', message_loop E r fuel c = Ok c' -> fl c c'.
Proof.
  induction fuel as [|fuel IH]; [discriminate|]. intros c c'. cbn [message_loop].
  destruct (blocked c); [intros [= <-]; apply fl_refl|]. destruct (_ <? _); [discriminate|].
  set (c1 := set_block_next _ _). assert (M1 : fl c c1) by sm.
  clearbody c1. intros H. apply bind_ok in H as ([c2 n] & H & H2).
  apply on_message_fl in H. eapply fl_trans; [exact M1|]. eapply fl_trans; [exact H|].
  destruct (n =? 0); [injection H2 as <-; apply fl_refl|].
  apply IH in H2. eapply fl_trans; [|exact H2]. sm.
Qed.

Lemma event_fl c d c' : on_client_event E r c d = Ok c' -> fl c c'.
Proof.
  unfold on_client_event. destruct (cut c) as [t|].
  - destruct d as [[|x d]|]; [intros [= <-]; apply fl_refl| |intros [= <-]; apply fl_refl].
    destruct (_ <? _); [intros [= <-]; apply fl_refl|].
    unfold big_cut_text. destruct (_ <=? _); [discriminate|].
    destruct (negb _); [intros [= <-]; sm|].
    intros H. apply bind_ok in H as (c1 & H & H2). apply ok_inj in H2. subst c'.
    assert (M : fl c c1).
    { revert H. destruct (ct_zlib t).
      - destruct (ct_provide t); [apply clipboard_fl|intros [= <-]; apply fl_refl].
      - intros [= <-]. mu. }
    eapply fl_trans; [exact M|]. sm.
  - destruct (negb _); [discriminate|]. destruct (_ <=? 0); [intros [= <-]; sm|].
    destruct d as [[|x d]|]; [intros [= <-]; apply fl_refl| |intros [= <-]; apply fl_refl].
    destruct (_ <? _); [intros [= <-]; apply fl_refl|].
    intros H. apply bind_ok in H as (c1 & H & H2). apply loop_fl in H.
    destruct (_ <? _); [discriminate|]. apply ok_inj in H2. subst c'.
    eapply fl_trans; [|eapply fl_trans; [exact H|]]; sm.
Qed.

Lemma complete_fl c c' : complete_update E r c = Ok c' -> fl c c'.
Proof.
  unfold complete_update. destruct (negb _); [intros [= <-]; apply fl_refl|].
  intros H. apply process_fl in H. eapply fl_trans; [|exact H]. mu.
Qed.

Lemma finish_fl f c c' : 0 <= f_rects f <= 65533 -> readable (pic (traffic (log c))) (f_rects f) (f_data f) ->
  finish_update E r f c = Ok c' -> fl c c'.
Proof.
  intros NR RD. unfold finish_update. destruct (closed c); [apply complete_fl|].
  destruct (_ && _).
  { intros H. apply complete_fl in H. eapply fl_trans; [|exact H]. mu. }
  set (rz := negb (_ && _)). cbv zeta. destruct (rz && negb (supports_resizing c)); [discriminate|].
  set (c1 := if rz then _ else c). intros H. apply bind_ok in H as (c3 & H & H2).
  assert (M1 : fl c c1) by (subst c1; destruct rz; sm).
  assert (L1 : log c1 = log c) by (subst c1; destruct rz; reflexivity). clearbody c1.
  match type of H with (if _ then complete_update E r ?v else _) = _ => set (c2 := v) in * end.
  assert (M2 : fl c1 c2).
  { subst c2. eapply upd_fl; [reflexivity..| |intros X; congruence]. intros _. rewrite L1. set (p := pic (traffic (log c))) in *.
    assert (PP : forall e x y l n, p e x y l = Some n -> (n <= length l)%nat /\ forall l', p e x y (l ++ l') = Some n)
      by (intros e x y l n; apply PW).
    assert (Q : exists k, (k <= 1)%nat /\ rects_len p k (pts_rect c f) = Some (length (pts_rect c f)) /\
       (if match pts_rect c f with [] => true | _ => false end then 0 else 1) = Z.of_nat k).
    { destruct (pts_one p c f) as [Z0|[Z0 Z1]].
      - exists 0%nat. rewrite Z0. auto.
      - exists 1%nat. split; [lia|]. split; [exact Z1|]. destruct (pts_rect c f); [congruence|reflexivity]. }
    destruct Q as (k & K & Q & ->).
    assert (V : rects_len p (k + Z.to_nat (f_rects f)) (pts_rect c f ++ f_data f) = Some (length (pts_rect c f ++ f_data f))).
    { rewrite app_length. apply rects_cat; [exact PP|exact Q|exact RD]. }
    destruct rz.
    - apply update_message; [lia|].
      replace (Z.to_nat (f_rects f + Z.of_nat k + 1)) with (1 + (k + Z.to_nat (f_rects f)))%nat by lia.
      rewrite (app_length (resize_rect _ _ _)). apply rects_cat; [exact PP|apply resize_one|exact V].
    - apply update_message; [lia|].
      replace (Z.to_nat (f_rects f + Z.of_nat k)) with (k + Z.to_nat (f_rects f))%nat by lia. exact V. }
  clearbody c2.
  assert (M3 : fl c2 c3).
  { revert H. destruct (e_sync _ _); [apply complete_fl|intros [= <-]; apply fl_refl]. }
  eapply fl_trans; [exact M1|]. eapply fl_trans; [exact M2|].
  eapply fl_trans; [exact M3|]. apply ppf_fl in H2. eapply fl_trans; [|exact H2]. apply ping_fl.
Qed.

End M.

Lemma receive_fl E fuel : cursors pic E -> (tame -> cursor_shapes E) -> forall c d c', receive E fuel c d = Ok c' -> fl c c'.
Proof.
  intros CU SH. induction fuel as [|fuel IH]; [discriminate|]. intros c d c'. cbn [receive].
  apply event_fl; [exact CU|exact SH|]. intros c1 c2. apply IH.
Qed.

Lemma step_fl E fuel c i c' : cursors pic E -> (tame -> cursor_shapes E) ->
  match i with
  | IEncoded f => 0 <= f_rects f <= 65533 /\ readable (pic (traffic (log c))) (f_rects f) (f_data f)
  | _ => True end ->
  step E fuel c i = Ok c' -> fl c c'.
Proof.
  intros CU SH G. unfold step.
  assert (RC : forall c1 c2, receive E fuel c1 (e_more E (log c1)) = Ok c2 -> fl c1 c2) by (intros c1 c2; apply receive_fl; [exact CU|exact SH]).
  destruct i as [d|f rg|f| |s| |].
  - destruct (closed c); [intros [= <-]; apply fl_refl|]. apply (receive_fl E (S fuel) CU SH).
  - intros H. apply process_fl in H; [|exact CU|exact SH|exact RC]. eapply fl_trans; [|exact H]. destruct (closed (set_disp (Some f) c)); sm.
  - apply finish_fl; [exact CU|exact SH|exact RC|apply G|apply G].
  - apply complete_fl; [exact CU|exact SH|exact RC].
  - intros H. apply process_fl in H; [|exact CU|exact SH|exact RC]. eapply fl_trans; [|exact H]. sm.
  - intros H. apply process_fl in H; [|exact CU|exact SH|exact RC]. eapply fl_trans; [|exact H]. sm.
  - intros [= <-]. sm.
Qed.

Lemma offer_fl text c c' : zlen text <= 2000000000 -> offer text c = Ok c' -> fl c c'.
Proof.
  intros T. unfold offer. destruct (closed c); [intros [= <-]; apply fl_refl|].
  destruct (has_encoding c ENC_EXT_CLIPBOARD).
  - destruct (provide c); [|intros [= <-]; apply fl_refl].
    destruct (_ && _); [apply provide_fl|]. destruct (flag _ _); intros [= <-]; [apply notify_fl|apply fl_refl].
  - intros [= <-]. unfold send_cut_text_to_client.
    assert (0 <= zlen text) by (unfold zlen; lia).
    eapply (say_fl c _ [Sent ([3; 0; 0; 0] ++ be 4 (zlen text)); Sent text]); [reflexivity|reflexivity| |].
    + cbn [log say set_log]. rewrite <- app_assoc. reflexivity.
    + intros _. right. split; [intros _|right; split; [repeat constructor|intros _ s; reflexivity]].
      assert (X : traffic [Sent ([3; 0; 0; 0] ++ be 4 (zlen text)); Sent text] = [3; 0; 0; 0] ++ be 4 (pattern32 (zlen text)) ++ text).
      { unfold traffic, pattern32. cbn [sent flat_map app concat]. rewrite app_nil_r, Z.mod_small by lia. reflexivity. }
      rewrite X. apply cut_message; lia.
Qed.

Lemma text_fl compress others t c c' : bounded compress -> zlen t <= 2000000000 ->
  (let* l := nvnc_send_cut_text compress (mk_peer true c :: others) t in
      Ok (match l with p :: _ => p_client p | [] => c end)) = Ok c' -> fl c c'.
Proof.
  intros B T H. apply bind_ok in H as (l & H & H2). injection H2 as <-. unfold nvnc_send_cut_text in H.
  apply bind_ok in H as (msg & M & H). cbn [map p_ready p_client offer_all] in H.
  apply bind_ok in H as (c1 & H & H2). apply bind_ok in H2 as (l1 & _ & H2). injection H2 as <-. cbn [p_client].
  apply offer_fl in H; [|exact T]. eapply fl_trans; [|exact H]. intros [I1 I2]. split; [split; [exact I1|]|constructor].
  cbn [provide set_provide]. destruct (existsb _ _); [|injection M as <-; exact I].
  unfold save_provide_msg in M. destruct (zlen t =? 0); [injection M as <-; exact I|].
  destruct (_ <? _); [discriminate|]. apply ok_inj in M. subst msg.
  destruct (compress _) as [z|] eqn:C; cbn [short]; [|exact I].
  apply B in C. assert (LL : zlen (be 4 (zlen t) ++ t ++ [0]) = zlen t + 5).
  { unfold zlen. rewrite !app_length, be_length. cbn [length]. lia. }
  rewrite LL in C. set (n := zlen t + 5) in *.
  assert (n <= 2000000005) by lia.
  assert (n / 2 ^ 12 <= 2000000005 / 2 ^ 12) by (apply Z.div_le_mono; lia).
  assert (n / 2 ^ 14 <= 2000000005 / 2 ^ 14) by (apply Z.div_le_mono; lia).
  assert (n / 2 ^ 25 <= 2000000005 / 2 ^ 25) by (apply Z.div_le_mono; lia).
  change (2000000005 / 2 ^ 12) with 488281 in *. change (2000000005 / 2 ^ 14) with 122070 in *.
  change (2000000005 / 2 ^ 25) with 59 in *. lia.
Qed.

Lemma run_fl E fuel compress : cursors pic E -> (tame -> cursor_shapes E) -> bounded compress -> forall l c c',
  proper pic E fuel compress c l -> act_run E fuel compress c l = Ok c' -> fl c c'.
Proof.
  intros CU SH B. induction l as [|a l IH]; intros c c' P H; cbn [act_run proper] in *.
  - injection H as <-. apply fl_refl.
  - apply bind_ok in H as (c1 & H & H2). destruct P as [P1 P2]. specialize (P2 c1 H).
    eapply fl_trans; [|apply (IH c1 c' P2 H2)]. destruct a as [i|others t]; cbn [act_step] in H.
    + eapply step_fl; [exact CU|exact SH| |exact H]. destruct i; auto.
    + eapply text_fl; eauto.
Qed.
End F.
