(** Proofs for Ev_Props.v. *)
From Verif Require Import Common CommonProofs Pixels_Model Msg_Model Msg_Spec Msg2_Spec Msg_Proofs Msg2_Proofs Msg3_Proofs Msg4_Proofs
  Upd_Spec Upd_Proofs Msg6_Proofs Ev_Spec.

(** ** Handling requests, with no fence pending *)

Definition silent (o : out) : Prop :=
  is_callback o = false /\ match o with Update KFrame _ => False | _ => True end.

(** what is left alone, and nothing is said that matters *)
Definition hush (c c' : client) : Prop :=
  same c c' /\ cu_on c' = cu_on c /\ exists l, log c' = log c ++ l /\ Forall silent l.

Lemma hush_refl c : hush c c.
Proof. split; [apply same_refl|]. split; [reflexivity|]. exists []. rewrite app_nil_r. auto. Qed.
Lemma hush_trans a b c : hush a b -> hush b c -> hush a c.
Proof.
  intros (A & B & l & L & F) (A' & B' & l' & L' & F'). split; [eapply same_trans; eauto|]. split; [congruence|].
  exists (l ++ l'). rewrite L', L, app_assoc. split; [reflexivity|]. apply Forall_app. auto.
Qed.
Lemma hush_eq c c' : same c c' -> cu_on c' = cu_on c -> log c' = log c -> hush c c'.
Proof. intros A B C. split; [exact A|]. split; [exact B|]. exists []. rewrite app_nil_r. auto. Qed.
Lemma hush_say c c' o : same c c' -> cu_on c' = cu_on c -> log c' = log c ++ [o] -> silent o -> hush c c'.
Proof. intros A B C D. split; [exact A|]. split; [exact B|]. exists [o]. auto. Qed.

Definition idle (c : client) : Prop := nofence c /\ updating c = false.

Section P.
Variable E : env.
Variable r : client -> res client.

Lemma decrement_hush c : idle c -> exists c' n, decrement_pending r c = Ok (c', n) /\ hush c c' /\ idle c'.
Proof.
  intros [[P B] U]. unfold decrement_pending. rewrite U. destruct (cu_on c).
  - exists c, 1. split; [reflexivity|]. split; [apply hush_refl|repeat split; auto].
  - unfold process_pending_fence. rewrite P, B. cbn [Z.eqb bind]. eexists. eexists. split; [reflexivity|].
    split; [apply hush_eq; [repeat split|reflexivity|reflexivity]|repeat split; auto].
Qed.

Lemma answered_hush s c k : idle c -> (forall c1, idle c1 -> hush c c1 -> exists c', k c1 = Ok c' /\ hush c1 c') ->
  exists c', answered r s c k = Ok c' /\ hush c c'.
Proof.
  intros I K. unfold answered. destruct s.
  - destruct (decrement_hush c I) as (c1 & n & H & Hu & I1). rewrite H. cbn [bind]. destruct (n <=? 0); [eauto|].
    destruct (K c1 I1 Hu) as (c2 & H2 & Hu2). exists c2. split; [exact H2|eapply hush_trans; eauto].
  - apply K; [exact I|apply hush_refl].
Qed.

Lemma encoder_hush f c : hush c (fst (ensure_encoder E f c)).
Proof.
  unfold ensure_encoder. destruct (match encoder c with Some _ => _ | None => _ end); [apply hush_refl|].
  destruct (e_encoder _ _ _); apply hush_eq; try reflexivity; repeat split.
Qed.

Lemma send_frame_hush f c : exists c', send_frame E f c = Ok c' /\ hush c c'.
Proof.
  unfold send_frame. destruct (negb _); [exists c; split; [reflexivity|apply hush_refl]|].
  destruct (e_limited _ _ _ _); [exists c; split; [reflexivity|apply hush_refl]|].
  unfold start_encoding. pose proof (encoder_hush f c) as H. destruct (ensure_encoder E f c) as [c1 ok]. cbn [fst] in H.
  destruct (negb ok); [exists c1; auto|]. cbv zeta. destruct (e_encode _ _).
  - eexists. split; [reflexivity|]. eapply hush_trans; [exact H|]. destruct (0 <? _);
      (eapply hush_say; [repeat split|reflexivity|reflexivity|split; [reflexivity|exact I]]).
  - eexists. split; [reflexivity|]. eapply hush_trans; [exact H|].
    eapply hush_say; [repeat split|reflexivity|reflexivity|split; [reflexivity|exact I]].
Qed.

Lemma process_hush c : nofence c -> exists c', process_requests E r c = Ok c' /\ hush c c'.
Proof.
  intros NF. unfold process_requests. destruct (closed c); [eexists; split; [reflexivity|apply hush_refl]|].
  destruct (disp c) as [f|]; [|eexists; split; [reflexivity|apply hush_refl]].
  destruct (updating c) eqn:U; [eexists; split; [reflexivity|apply hush_refl]|].
  destruct (_ && _); [eexists; split; [reflexivity|apply hush_refl]|].
  destruct (if ext_notified c then _ else _) as [c1 s1] eqn:E1.
  assert (H1 : hush c c1 /\ idle c1).
  { destruct (ext_notified c); [injection E1 as E1 E1'; subst c1 s1; split; [apply hush_refl|split; assumption]|].
    unfold send_ext_support in E1. cbv zeta in E1; destruct (negb (has_encoding (set_ext_notified true c) ENC_QEMU_KEY) && negb (has_encoding (set_ext_notified true c) ENC_NTP)); injection E1 as E1 E1'; subst c1 s1.
    - split; [apply hush_eq; [repeat split|reflexivity|reflexivity]|split; assumption].
    - split; [eapply hush_say; [repeat split|reflexivity|reflexivity|split; [reflexivity|exact I]]|split; assumption]. }
  destruct H1 as [H1 I1].
  assert (X : exists c', answered r s1 c1 (fun c => let cur := negb (srv_seq c =? cur_seq c) && has_encoding c ENC_CURSOR in
        answered r cur (if cur then send_cursor_update E c else c) (fun c =>
        let '(c, sent) := send_led_state c in
        answered r sent c (fun c => send_frame E f c))) = Ok c' /\ hush c1 c').
  2: { destruct X as (c' & X & Y). exists c'. split; [exact X|eapply hush_trans; eauto]. }
  apply answered_hush; [exact I1|]. intros c2 I2 _. cbv zeta. set (cur := _ && _).
  set (c3 := if cur then _ else c2).
  assert (H3 : hush c2 c3 /\ idle c3).
  { subst c3. destruct cur; [|split; [apply hush_refl|exact I2]]. unfold send_cursor_update.
    destruct (e_cursor _ _ _); (split; [eapply hush_say; [repeat split|reflexivity|reflexivity|split; [reflexivity|exact I]]|exact I2]). }
  destruct H3 as [H3 I3]. clearbody c3. 
  destruct (answered_hush cur c3 (fun c => let '(c, sent) := send_led_state c in answered r sent c (fun c => send_frame E f c)) I3) as (c4 & X & Y).
  2: { exists c4. split; [exact X|eapply hush_trans; eauto]. }
  intros c5 I5 _. destruct (send_led_state c5) as [c6 s6] eqn:E6.
  assert (H6 : hush c5 c6 /\ idle c6).
  { unfold send_led_state in E6. destruct (led_want c5 =? led c5); [injection E6 as E6 E6'; subst c6 s6; split; [apply hush_refl|exact I5]|].
    destruct (negb (has_encoding c5 ENC_QEMU_LED) && negb (has_encoding c5 ENC_VMWARE_LED)); injection E6 as E6 E6'; subst c6 s6; [split; [apply hush_refl|exact I5]|].
    split; [eapply hush_say; [repeat split|reflexivity|reflexivity|split; [reflexivity|exact I]]|exact I5]. }
  destruct H6 as [H6 I6].
  destruct (answered_hush s6 c6 (fun c => send_frame E f c) I6) as (c7 & X7 & Y7).
  - intros c8 _ _. apply send_frame_hush.
  - exists c7. split; [exact X7|eapply hush_trans; eauto].
Qed.
End P.

(** ** Events *)

Lemma callbacks_app l m : callbacks (l ++ m) = callbacks l ++ callbacks m.
Proof. apply filter_app. Qed.
Lemma silent_callbacks l : Forall silent l -> callbacks l = [].
Proof. induction 1 as [|o l [H _] _ IH]; [reflexivity|]. unfold callbacks in *. cbn [filter]. rewrite H. exact IH. Qed.
Lemma hush_callbacks c c' : hush c c' -> callbacks (log c') = callbacks (log c).
Proof. intros (_ & _ & l & -> & F). rewrite callbacks_app, (silent_callbacks l F), app_nil_r. reflexivity. Qed.

Lemma be2_len n : length (be 2 n) = 2%nat. Proof. apply be_length. Qed.
Lemma be4_len n : length (be 4 n) = 4%nat. Proof. apply be_length. Qed.

Lemma wire_whole e : whole (wire e).
Proof.
  destruct e; cbn [wire]; unfold key_msg, pointer_msg, update_request_msg; cbn [app]; constructor;
    cbn [length]; rewrite ?app_length, ?be2_len, ?be4_len; reflexivity.
Qed.

Lemma one_event E r e c : good_event e -> quiet c -> cu_on c = false ->
  exists c', on_message E r c (wire e) = Ok (c', zlen (wire e)) /\ quiet c' /\ cu_on c' = false /\
    callbacks (log c') = callbacks (log c) ++ [callback e].
Proof.
  intros G Q CU. destruct Q as (Q1 & Q2 & Q3 & Q4). destruct e as [sym down p1 p2|buttons x y|inc x y w h].
  - eexists. split; [reflexivity|]. split; [repeat split; assumption|]. split; [exact CU|].
    cbn [log say set_log]. rewrite callbacks_app. f_equal. cbn [callbacks filter is_callback]. f_equal. cbn [callback].
    assert (X : u32 (wire (Key sym down p1 p2)) 4 = sym).
    { unfold wire, key_msg. rewrite <- (app_nil_r (be 4 sym)). apply u32_at; [reflexivity|exact G]. }
    rewrite X. reflexivity.
  - eexists. split; [reflexivity|]. split; [repeat split; assumption|]. split; [exact CU|].
    cbn [log say set_log]. rewrite callbacks_app. f_equal. cbn [callbacks filter is_callback]. f_equal. cbn [callback].
    assert (X : u16 (wire (Mouse buttons x y)) 2 = x).
    { unfold wire, pointer_msg. apply u16_at; [reflexivity|apply G]. }
    assert (Y : u16 (wire (Mouse buttons x y)) 4 = y).
    { unfold wire, pointer_msg. rewrite app_assoc. rewrite <- (app_nil_r (be 2 y)). apply u16_at; [reflexivity|apply G]. }
    rewrite X, Y. reflexivity.
  - destruct G as (Gx & Gy & Gw & Gh).
    assert (X : u16 (wire (Ask inc x y w h)) 2 = x /\ u16 (wire (Ask inc x y w h)) 4 = y /\
                u16 (wire (Ask inc x y w h)) 6 = w /\ u16 (wire (Ask inc x y w h)) 8 = h).
    { unfold wire, update_request_msg. split; [apply u16_at; [reflexivity|exact Gx]|].
      split; [rewrite app_assoc; apply u16_at; [reflexivity|exact Gy]|].
      split; [rewrite !app_assoc, <- (app_assoc _ (be 2 w)); apply u16_at; [reflexivity|exact Gw]|].
      rewrite !app_assoc. rewrite <- (app_nil_r (be 2 h)). apply u16_at; [reflexivity|exact Gh]. }
    destruct X as (X1 & X2 & X3 & X4).
    change (on_message E r c (wire (Ask inc x y w h))) with (on_fb_update_request E r c (wire (Ask inc x y w h))).
    unfold on_fb_update_request. change (zlen (wire (Ask inc x y w h)) <? 10) with false. cbv iota. rewrite X1, X2, X3, X4.
    change (u8 (wire (Ask inc x y w h)) 1) with inc. rewrite CU, andb_false_r. cbv iota.
    cbv zeta.
    match goal with |- context [process_requests E r ?v] => set (c2 := v) end.
    assert (A : quiet c2 /\ cu_on c2 = false /\ callbacks (log c2) = callbacks (log c) ++ [FbReq inc x y w h]).
    { subst c2. destruct (inc =? 0); [destruct (encoder _)|]; destruct (_ && _);
        (split; [repeat split; assumption|]; split; [exact CU|]; cbn [log say set_log set_known]; rewrite ?callbacks_app; cbn [callbacks filter is_callback app];
         rewrite ?app_nil_r; reflexivity). }
    destruct A as (A1 & A2 & A3). clearbody c2.
    destruct (process_hush E r c2 (quiet_nofence c2 A1)) as (c3 & H3 & Hu). rewrite H3. cbn [bind].
    exists c3. split; [reflexivity|]. split; [eapply quiet_same; [apply Hu|exact A1]|]. split; [destruct Hu as (_ & -> & _); exact A2|].
    rewrite (hush_callbacks _ _ Hu). exact A3.
Qed.

Lemma events_handled E evs : forall c, Forall good_event evs -> quiet c -> cu_on c = false ->
  exists c', handled E c (map wire evs) c' /\ callbacks (log c') = callbacks (log c) ++ map callback evs.
Proof.
  induction evs as [|e evs IH]; intros c G Q CU; [exists c; split; [constructor|rewrite app_nil_r; reflexivity]|].
  inversion G as [|? ? G1 G2]; subst. destruct (one_event E (fun c => Ok c) e c G1 Q CU) as (c1 & H & Q1 & CU1 & L1).
  destruct (IH c1 G2 Q1 CU1) as (c2 & H2 & L2). exists c2. split; [econstructor; eassumption|].
  rewrite L2, L1, <- app_assoc. reflexivity.
Qed.

Lemma events_delivered E fuel c evs rest ks : quiet c -> buf c = [] -> idx c = 0 -> cu_on c = false ->
  Forall good_event evs -> unfinished rest ->
  exists c2 s, feed E fuel c ks (concat (map wire evs) ++ rest) = Ok (c2, s) /\
    (s = [] -> callbacks (log c2) = callbacks (log c) ++ map callback evs).
Proof.
  intros Q B X CU G U. destruct (events_handled E evs c G Q CU) as (c' & H & L).
  assert (W : Forall whole (map wire evs)) by (apply Forall_map, Forall_forall; intros e _; apply wire_whole).
  destruct (feed_all E fuel c (map wire evs) c' rest ks Q B X W H U) as (c2 & s & F & D).
  exists c2, s. split; [exact F|]. intros Z0. rewrite (D Z0). exact L.
Qed.
