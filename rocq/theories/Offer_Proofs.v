(** Only what a client has listed is sent. *)
From Verif Require Import Common CommonProofs Msg_Model Msg_Spec Msg2_Spec Msg_Proofs Msg2_Proofs Msg3_Proofs Msg4_Proofs Msg6_Proofs Safe_Spec Safe_Proofs Safe2_Proofs Offer_Spec.

Lemma listed_more ms m e : hd 0 m <> 2 -> listed ms e -> listed (ms ++ [m]) e.
Proof.
  intros H (a & p & l & b & -> & L & I & B & X). exists a, p, l, (b ++ [m]). split; [rewrite <- app_assoc; reflexivity|].
  split; [exact L|]. split; [exact I|]. split; [apply Forall_app; auto|exact X].
Qed.

Lemma rect_head_rectangle x y w h e body : rectangle e body (rect_head x y w h e ++ body).
Proof. exists x, y, w, h. unfold rect_head, pattern32. rewrite <- !app_assoc. reflexivity. Qed.

Lemma rect_head_bare x y w h e : rectangle e [] (rect_head x y w h e).
Proof. rewrite <- (app_nil_r (rect_head x y w h e)). apply rect_head_rectangle. Qed.

Lemma expected_bare lights ms x y w h e : body_size e = 0 -> listed ms e -> expected lights ms (rect_head x y w h e).
Proof. intros S L. exists e, []. split; [apply rect_head_bare|]. left. split; [rewrite S; reflexivity|left; exact L]. Qed.

Lemma expected_body lights ms x y w h e body : zlen body = body_size e -> listed ms e -> expected lights ms (rect_head x y w h e ++ body).
Proof. intros S L. exists e, body. split; [apply rect_head_rectangle|]. left. split; [exact S|left; exact L]. Qed.

Lemma expected_size lights ms x y w h : listed ms (-308) \/ spoken ms 251 -> expected lights ms (ext_size_rect w h x y).
Proof.
  intros L. unfold ext_size_rect. exists (-308). eexists. split; [apply rect_head_rectangle|]. left. split; [sizes; reflexivity|]. tauto.
Qed.

Section S.
Variable E : env.
Variable frames : list Z -> Prop.
Variable before : list (list Z).
Variable log0 : list out.

Definition offered (d : list (list Z)) (c : client) : Prop :=
  (forall e, In e (encs c) -> listed (before ++ d) e) /\
  exists l, log c = log0 ++ l /\ Forall (sent_rightly true E frames (before ++ d)) l.

Lemma offered_same d c c' : encs c' = encs c -> log c' = log c -> offered d c -> offered d c'.
Proof. intros X Y. unfold offered. rewrite X, Y. auto. Qed.

Lemma rightly_more ms m o : sent_rightly true E frames ms o -> sent_rightly true E frames (ms ++ [m]) o.
Proof. intros (a & b & -> & H). exists a, (b ++ [m]). split; [rewrite app_assoc; reflexivity|exact H]. Qed.

Lemma offered_more d m c : hd 0 m <> 2 -> offered d c -> offered (d ++ [m]) c.
Proof.
  intros H (A & l & L & F). split.
  - intros e I. rewrite app_assoc. apply listed_more; auto.
  - exists l. split; [exact L|]. rewrite app_assoc. eapply Forall_impl; [|exact F]. intros o. apply rightly_more.
Qed.

Lemma offered_say d o c : may_be_sent true E frames (before ++ d) o -> offered d c -> offered d (say o c).
Proof.
  intros H (A & l & L & F). split; [exact A|]. exists (l ++ [o]). split.
  - change (log (say o c)) with (log c ++ [o]). rewrite L, app_assoc. reflexivity.
  - apply Forall_app. split; [exact F|]. constructor; [|constructor]. exists (before ++ d), []. split; [rewrite app_nil_r; reflexivity|exact H].
Qed.

Lemma offered_has d c e : offered d c -> has_encoding c e = true -> listed (before ++ d) e.
Proof. intros (A & _) H. apply A. apply has_in. exact H. Qed.

Lemma update_ok k n items pic ms : Forall (expected true ms) items ->
  (pic = [] \/ frames pic \/ (listed ms (-239) /\ exists l f, e_cursor E l f = Some pic)) ->
  may_be_sent true E frames ms (Update k (update_head n ++ concat items ++ pic)).
Proof.
  intros F P. cbn [may_be_sent]. exists (n mod 2 ^ 16), items, pic. split; [unfold update_head; rewrite <- app_assoc; reflexivity|]. split; assumption.
Qed.

Section R.
Variable r : client -> res client.

Lemma answered_offered d sent c k c' : nofence c -> offered d c ->
  (forall c2, nofence c2 -> offered d c2 -> k c2 = Ok c' -> offered d c') ->
  answered r sent c k = Ok c' -> offered d c'.
Proof.
  intros N O K. unfold answered. destruct sent; [|apply K; assumption].
  unfold decrement_pending. destruct (updating c); [discriminate|]. destruct (cu_on c).
  - cbn [bind]. change (1 <=? 0) with false. apply K; assumption.
  - unfold process_pending_fence. destruct N as [N1 N2]. rewrite N1, N2. cbn [Z.eqb bind].
    destruct (pending (set_pending (pending c - 1) c) <=? 0).
    + intros X. apply ok_inj in X as <-. exact O.
    + apply K; [split; assumption|exact O].
Qed.

Lemma ext_offered d c : offered d c -> offered d (fst (send_ext_support c)).
Proof.
  intros O. unfold send_ext_support. destruct (negb _ && negb _); [exact O|]. cbn [fst]. apply offered_say; [|exact O].
  set (n := Z.b2z _ + Z.b2z _).
  replace (update_head n ++ (if has_encoding c ENC_QEMU_KEY then rect_head 0 0 0 0 ENC_QEMU_KEY else []) ++
           (if has_encoding c ENC_NTP then rect_head 0 0 0 0 ENC_NTP else []))
    with (update_head n ++ concat ((if has_encoding c ENC_QEMU_KEY then [rect_head 0 0 0 0 ENC_QEMU_KEY] else []) ++
           (if has_encoding c ENC_NTP then [rect_head 0 0 0 0 ENC_NTP] else [])) ++ []).
  2:{ rewrite app_nil_r, concat_app. destruct (has_encoding c ENC_QEMU_KEY), (has_encoding c ENC_NTP); cbn [concat]; rewrite ?app_nil_r; reflexivity. }
  apply update_ok; [|left; reflexivity].
  apply Forall_app. split.
  - destruct (has_encoding c ENC_QEMU_KEY) eqn:Q; [|constructor]. constructor; [|constructor].
    apply expected_bare; [reflexivity|]. eapply offered_has; eassumption.
  - destruct (has_encoding c ENC_NTP) eqn:Q; [|constructor]. constructor; [|constructor].
    apply expected_bare; [reflexivity|]. eapply offered_has; eassumption.
Qed.

Lemma led_offered d c : offered d c -> offered d (fst (send_led_state c)).
Proof.
  intros O. unfold send_led_state. destruct (led_want c =? led c); [exact O|].
  destruct (has_encoding c ENC_QEMU_LED) eqn:Q; cbn [negb andb].
  - apply (offered_say d _ c); [|exact O].
    replace (update_head 1 ++ rect_head 0 0 0 0 ENC_QEMU_LED ++ [led_want c mod 2 ^ 8])
      with (update_head 1 ++ concat [rect_head 0 0 0 0 ENC_QEMU_LED ++ [led_want c mod 2 ^ 8]] ++ [])
      by (cbn [concat]; rewrite !app_nil_r; reflexivity).
    apply update_ok; [|left; reflexivity]. constructor; [|constructor].
    apply expected_body; [reflexivity|]. eapply offered_has; eassumption.
  - destruct (has_encoding c ENC_VMWARE_LED) eqn:V; cbn [negb]; [|exact O].
    apply (offered_say d _ c); [|exact O].
    replace (update_head 1 ++ rect_head 0 0 0 0 ENC_QEMU_LED ++ be 4 (pattern32 (led_want c)))
      with (update_head 1 ++ concat [rect_head 0 0 0 0 ENC_QEMU_LED ++ be 4 (pattern32 (led_want c))] ++ [])
      by (cbn [concat]; rewrite !app_nil_r; reflexivity).
    apply update_ok; [|left; reflexivity]. constructor; [|constructor].
    exists (-261), (be 4 (pattern32 (led_want c))). split; [apply rect_head_rectangle|]. right.
    split; [reflexivity|]. split; [reflexivity|]. split; [sizes|]. eapply offered_has; eassumption.
Qed.

Lemma cursor_offered d c : has_encoding c ENC_CURSOR = true -> offered d c -> offered d (send_cursor_update E c).
Proof.
  intros H O. unfold send_cursor_update. destruct (e_cursor E (log c) (fmt c)) as [l|] eqn:C.
  - apply offered_say; [|exact O]. change (update_head 1 ++ l) with (update_head 1 ++ concat [] ++ l).
    apply update_ok; [constructor|]. right. right. split; [eapply offered_has; eassumption|]. eauto.
  - apply offered_say; [exact I|exact O].
Qed.

Lemma frame_offered d f c c' : offered d c -> send_frame E f c = Ok c' -> offered d c'.
Proof.
  intros O. unfold send_frame. destruct (negb (has_damage c)); [intros X; apply ok_inj in X as <-; exact O|].
  destruct (e_limited E (log c) (inflight c) (min_rtt c)); [intros X; apply ok_inj in X as <-; exact O|].
  unfold start_encoding, ensure_encoder.
  assert (SE : forall a b x g c1, offered d c1 -> offered d (say (Encode a b x g) c1)) by (intros; apply offered_say; [exact I|assumption]).
  destruct (match encoder c with Some k => k =? choose_encoding E (fb_gbm f) (encs c) | None => false end); cbn [negb].
  - destruct (e_encode E _); [destruct (0 <? pending _)|]; intros X; apply ok_inj in X as <-; apply (SE _ _ _ _ _ O).
  - destruct (e_encoder E (log c) _); cbn [negb]; [|intros X; apply ok_inj in X as <-; exact O].
    destruct (e_encode E _); [destruct (0 <? pending _)|]; intros X; apply ok_inj in X as <-; apply (SE _ _ _ _ _ O).
Qed.

Lemma process_offered d c c' : nofence c -> offered d c -> process_requests E r c = Ok c' -> offered d c'.
Proof.
  intros N O. unfold process_requests. destruct (closed c); [intros X; apply ok_inj in X as <-; exact O|].
  destruct (disp c) as [f|]; [|intros X; apply ok_inj in X as <-; exact O].
  destruct (updating c) eqn:U; [intros X; apply ok_inj in X as <-; exact O|].
  destruct (negb (cu_on c) && (pending c =? 0)); [intros X; apply ok_inj in X as <-; exact O|].
  destruct (if ext_notified c then (c, false) else send_ext_support (set_ext_notified true c)) as [c1 s1] eqn:Q.
  assert (K1 : nofence c1 /\ offered d c1).
  { destruct (ext_notified c); [apply pair_equal_spec in Q as [<- _]; split; assumption|].
    pose proof (ext_offered d (set_ext_notified true c) O) as X. rewrite Q in X. split; [|exact X].
    unfold send_ext_support in Q. destruct (negb _ && negb _); apply pair_equal_spec in Q as [<- _]; exact N. }
  destruct K1 as [N1 O1]. apply answered_offered; [exact N1|exact O1|].
  intros c2 N2 O2. cbn zeta. set (cur := negb (srv_seq c2 =? cur_seq c2) && has_encoding c2 ENC_CURSOR).
  assert (K3 : nofence (if cur then send_cursor_update E c2 else c2) /\ offered d (if cur then send_cursor_update E c2 else c2)).
  { destruct cur eqn:CU; [|split; assumption]. subst cur. apply andb_true_iff in CU as [_ CU]. split; [|apply cursor_offered; assumption].
    unfold send_cursor_update. destruct (e_cursor E (log c2) (fmt c2)); exact N2. }
  destruct K3 as [N3 O3]. apply answered_offered; [exact N3|exact O3|].
  intros c4 N4 O4. destruct (send_led_state c4) as [c5 s5] eqn:LS.
  assert (K5 : nofence c5 /\ offered d c5).
  { pose proof (led_offered d c4 O4) as X. rewrite LS in X. split; [|exact X]. unfold send_led_state in LS.
    destruct (led_want c4 =? led c4); [apply pair_equal_spec in LS as [<- _]; exact N4|].
    destruct (negb _ && negb _); apply pair_equal_spec in LS as [<- _]; exact N4. }
  destruct K5 as [N5 O5]. apply answered_offered; [exact N5|exact O5|].
  intros c7 _ O7. apply frame_offered. exact O7.
Qed.

Lemma complete_offered d c c' : nofence c -> offered d c -> complete_update E r c = Ok c' -> offered d c'.
Proof.
  intros N O. unfold complete_update. destruct (negb (updating c)); [intros X; apply ok_inj in X as <-; exact O|].
  apply process_offered; [exact N|]. apply (offered_say d _ (set_updating false c)); [exact I|exact O].
Qed.

Lemma ping_offered d n c : offered d c -> offered d (send_ping E n c).
Proof.
  intros O. unfold send_ping. destruct (has_encoding c ENC_FENCE) eqn:H; cbn [negb]; [|exact O].
  apply offered_say; [|exact O]. cbn. eapply offered_has; eassumption.
Qed.

Lemma finish_offered d f c c' : nofence c -> frames (f_data f) -> offered d c -> finish_update E r f c = Ok c' -> offered d c'.
Proof.
  intros N FR O. unfold finish_update. destruct (closed c); [apply complete_offered; assumption|].
  destruct (fmt_changed c && negb (has_encoding c ENC_FENCE)).
  { apply complete_offered; [exact N|]. apply (offered_say d _ (set_pending (pending c + 1) c)); [exact I|exact O]. }
  set (pts := pts_rect c f). set (resized := negb ((fst (known c) =? f_w f) && (snd (known c) =? f_h f))). cbn zeta.
  destruct (resized && negb (supports_resizing c)) eqn:NF; [discriminate|].
  match goal with |- context [Update KFrame (update_head ?x ++ _)] => set (n := x) end.
  set (c1 := if resized then set_damage (union_rect (damage c) 0 0 (f_w f) (f_h f)) (set_known (f_w f, f_h f) c) else c).
  assert (NO1 : nofence c1 /\ offered d c1) by (subst c1; destruct resized; split; assumption). clearbody c1. destruct NO1 as [N1 O1].
  set (rs := if resized then resize_rect c (f_w f) (f_h f) else []).
  assert (IT : exists items, rs ++ pts = concat items /\ Forall (expected true (before ++ d)) items).
  { exists ((if resized then [rs] else []) ++ match pts with [] => [] | _ => [pts] end). split.
    - rewrite concat_app. f_equal; [subst rs; destruct resized; cbn [concat]; rewrite ?app_nil_r; reflexivity|].
      destruct pts; cbn [concat]; rewrite ?app_nil_r; reflexivity.
    - apply Forall_app. split.
      + subst rs. destruct resized; [|constructor]. constructor; [|constructor]. cbn [andb] in NF. unfold resize_rect, supports_resizing in *.
        destruct (has_encoding c ENC_EXTDESKTOPSIZE) eqn:H.
        * apply expected_size. left. exact (offered_has _ _ _ O H).
        * rewrite orb_false_r in NF. apply negb_false_iff in NF. apply expected_bare; [reflexivity|]. exact (offered_has _ _ _ O NF).
      + unfold pts_rect in pts. subst pts. destruct (f_pts f) as [t|]; [|constructor].
        destruct (has_encoding c ENC_PTS) eqn:H; [|constructor].
        destruct (rect_head 0 0 0 0 ENC_PTS ++ be 8 t) as [|a l] eqn:Q; [constructor|]. rewrite <- Q. constructor; [|constructor].
        apply expected_body; [sizes; reflexivity|]. exact (offered_has _ _ _ O H). }
  destruct IT as (items & IT & FI).
  set (c2 := say (Update KFrame (update_head n ++ rs ++ pts ++ f_data f)) c1).
  assert (O2 : offered d c2).
  { apply offered_say; [|exact O1]. rewrite (app_assoc rs), IT. apply update_ok; [exact FI|auto]. }
  assert (N2 : nofence c2) by exact N1. clearbody c2. clear n.
  destruct (if e_sync E (log c2) then complete_update E r c2 else Ok c2) as [c3|] eqn:C3; [|discriminate]. cbn [bind].
  assert (K3 : nofence c3 /\ offered d c3).
  { destruct (e_sync E (log c2)).
    - split; [|eapply complete_offered; eassumption]. destruct (complete_fine E r c2 N2) as (x & R & K). rewrite C3 in R. apply ok_inj in R as <-.
      eapply kept_nofence; eassumption.
    - apply ok_inj in C3 as <-. split; assumption. }
  destruct K3 as [N3 O3].
  assert (N4 : nofence (send_ping E (zlen (f_data f)) c3)) by (unfold send_ping; destruct (has_encoding c3 ENC_FENCE); exact N3).
  unfold process_pending_fence. destruct N4 as [-> ->]. intros X. apply ok_inj in X as <-. apply ping_offered. exact O3.
Qed.
End R.

Definition frame_among (i : input) : Prop :=
  match i with IRead _ => False | IEncoded f => frames (f_data f) | _ => True end.

Lemma step_offered fuel d c i c' : nofence c -> offered d c -> frame_among i -> step E fuel c i = Ok c' -> offered d c'.
Proof.
  intros N O F. destruct i; cbn [step]; [destruct F|..].
  - apply process_offered; destruct (closed (set_disp (Some f) c)); assumption.
  - apply finish_offered; assumption.
  - apply complete_offered; assumption.
  - apply process_offered; assumption.
  - apply process_offered; assumption.
  - intros X. apply ok_inj in X as <-. exact O.
Qed.

Lemma set_encodings_offered d c p l c1 n : offered d c -> zlen l <= 1023 -> Forall int32 l ->
  on_set_encodings E c (set_encodings_msg p l) = (c1, n) -> n = zlen (set_encodings_msg p l) ->
  offered (d ++ [set_encodings_msg p l]) c1.
Proof.
  intros O L IL R NN.
  assert (ZL : zlen l < 2 ^ 16) by lia.
  destruct (set_encodings_effect E (fun c => Ok c) c p l c1 n IL ZL) as (EN & _ & _).
  { cbn [on_message set_encodings_msg app]. rewrite <- R. reflexivity. }
  rewrite scan_kept in EN by (cbn; lia). cbn [app length Nat.sub] in EN.
  set (d' := d ++ [set_encodings_msg p l]) in *.
  assert (A : forall e, In e (firstn 32 (filter (is_known (e_experimental E)) l)) -> listed (before ++ d') e).
  { intros e X. exists (before ++ d), p, l, []. split; [unfold d'; rewrite app_assoc; reflexivity|]. split; [exact L|]. split; [exact IL|].
    split; [constructor|]. assert (X' : In e (filter (is_known (e_experimental E)) l)).
    { rewrite <- (firstn_skipn 32 (filter _ _)). apply in_or_app. left. exact X. }
    apply filter_In in X' as [X' _]. exact X'. }
  destruct O as (_ & l0 & LG & F).
  assert (F' : Forall (sent_rightly true E frames (before ++ d')) l0).
  { unfold d'. rewrite app_assoc. eapply Forall_impl; [|exact F]. intros o. apply rightly_more. }
  unfold on_set_encodings in R.
  destruct (zlen (set_encodings_msg p l) <? 4) eqn:Z4.
  { apply pair_equal_spec in R as [_ R]. exfalso. revert NN Z4. rewrite <- R. unfold set_encodings_msg. sizes. }
  destruct (zlen (set_encodings_msg p l) <? 4 + u16 (set_encodings_msg p l) 2 * 4) eqn:Z5.
  { apply pair_equal_spec in R as [_ R]. exfalso. revert NN Z4. rewrite <- R. unfold set_encodings_msg. sizes. }
  destruct (scan_encodings _ _ _ _) as [kk qq]. apply pair_equal_spec in R as [R _]. cbn zeta in R.
  assert (KK : encs c1 = kk).
  { rewrite <- R. unfold send_ping, send_clipboard_caps.
    repeat match goal with |- context [if ?b then _ else _] => destruct b end; reflexivity. }
  rewrite <- EN, KK in A. clear EN KK.
  set (x := set_fmt_changed true (set_encs kk (set_quality qq c))) in *.
  assert (OX : offered d' x) by (split; [exact A|exists l0; split; [exact LG|exact F']]). clearbody x. clear LG F F'.
  set (y := if negb (cu_notified x) && has_encoding x ENC_CU then set_cu_notified true (say (Sent [150]) x) else x) in *.
  assert (OY : offered d' y).
  { subst y. destruct (has_encoding x ENC_CU) eqn:H; [|rewrite andb_false_r; exact OX]. rewrite andb_true_r.
    destruct (negb (cu_notified x)); [|exact OX]. apply (offered_say d' _ x); [|exact OX]. left. eapply offered_has; eassumption. }
  clearbody y.
  set (w := if has_encoding y ENC_EXT_CLIPBOARD then send_clipboard_caps y else y) in *.
  assert (OW : offered d' w).
  { subst w. destruct (has_encoding y ENC_EXT_CLIPBOARD) eqn:H; [|exact OY]. apply offered_say; [|exact OY].
    cbn. eapply offered_has; eassumption. }
  clearbody w. rewrite <- R. destruct (has_encoding w ENC_FENCE); [apply ping_offered|]; exact OW.
Qed.

Lemma message_offered g r d c m c1 n : quiet c -> offered d c -> ordinary g (e_experimental E) m ->
  on_message E r c m = Ok (c1, n) -> n = zlen m -> offered (d ++ [m]) c1.
Proof.
  intros Q O OM R NN. assert (N : nofence c) by (apply quiet_nofence; exact Q).
  assert (SP : forall t x, m = t :: x -> spoken (before ++ d ++ [m]) t).
  { intros t x ->. exists x. apply in_or_app. right. apply in_or_app. right. left. reflexivity. }
  destruct OM; try match type of R with on_message _ _ _ ?m = _ => apply (offered_more d m) in O; [|discriminate] end.
  - revert R. cbn [on_message]. unfold on_set_pixel_format. rewrite ltb_f by sizes. intros R. apply ok_inj, pair_equal_spec in R as [<- _].
    match goal with |- context [if ?b then _ else _] => destruct b end; [|exact O]. apply (offered_say _ _ (set_fmt _ c)); [exact I|exact O].
  - eapply set_encodings_offered; try eassumption; [|reflexivity..].
    change (Ok (on_set_encodings E c (set_encodings_msg p l)) = Ok (c1, n)) in R. apply ok_inj in R. exact R.
  - revert R. cbn [on_message]. unfold on_fb_update_request. rewrite ltb_f by sizes. cbn zeta.
    destruct (negb (u8 (3 :: l) 1 =? 0) && cu_on c).
    { intros R. apply ok_inj, pair_equal_spec in R as [_ R]. exfalso. revert R NN. sizes. }
    match goal with |- context [process_requests E r ?x] => set (cx := x) end.
    assert (OX : nofence cx /\ offered (d ++ [3 :: l]) cx).
    { subst cx. match goal with |- context [say (FbReq ?a ?b ?x ?y ?z) ?u] => set (cy := u); set (o := FbReq a b x y z) end.
      assert (OY : nofence cy /\ offered (d ++ [3 :: l]) cy).
      { subst cy. destruct (u8 (3 :: l) 1 =? 0); [|split; assumption]. destruct (encoder _); [|split; assumption].
        split; [exact N|]. apply offered_say; [exact I|exact O]. }
      clearbody cy. destruct OY as [NY OY]. pose proof (offered_say _ o cy I OY) as OZ.
      destruct (_ && has_encoding _ ENC_EXTDESKTOPSIZE); split; try exact NY; exact OZ. }
    clearbody cx. destruct OX as [NX OX].
    destruct (process_requests E r cx) as [c2|] eqn:P; [|discriminate]. cbn [bind]. intros R. apply ok_inj, pair_equal_spec in R as [<- _].
    eapply process_offered; eassumption.
  - revert R. cbn [on_message]. unfold on_key. rewrite ltb_f by sizes. intros R. apply ok_inj, pair_equal_spec in R as [<- _].
    apply offered_say; [exact I|exact O].
  - revert R. cbn [on_message]. unfold on_pointer. rewrite ltb_f by sizes. intros R. apply ok_inj, pair_equal_spec in R as [<- _].
    apply offered_say; [exact I|exact O].
  - revert R. unfold cut_text_msg. rewrite on_message_cut_whole by (try reflexivity; rewrite zlen_len in *; lia).
    intros R. apply ok_inj, pair_equal_spec in R as [<- _]. apply offered_say; [exact I|exact O].
  - revert R. cbn [on_message]. unfold on_enable_continuous_updates. rewrite ltb_f by sizes. cbn zeta.
    match goal with |- context [say (CuMode ?b) ?u] => assert (OY : offered (d ++ [150 :: l]) (say (CuMode b) u)) by (apply offered_say; [exact I|exact O]) end.
    destruct (negb (u8 (150 :: l) 1 =? 0)).
    + match goal with |- context [process_requests E r ?x] => destruct (process_requests E r x) as [c2|] eqn:P end; [|discriminate].
      cbn [bind]. intros R. apply ok_inj, pair_equal_spec in R as [<- _]. refine (process_offered _ _ _ _ _ _ P); [exact N|exact OY].
    + intros R. apply ok_inj, pair_equal_spec in R as [<- _]. apply offered_say; [|exact OY]. right. apply SP with l. reflexivity.
  - revert R. unfold qemu_key_msg. cbn [on_message app]. unfold on_qemu, on_qemu_key.
    match goal with |- (if ?b then _ else _) = _ -> _ => destruct b end; [intros R; apply ok_inj, pair_equal_spec in R as [<- _]; exact O|].
    match goal with |- (if ?b then _ else _) = _ -> _ => destruct b end; [|discriminate].
    match goal with |- (if ?b then _ else _) = _ -> _ => destruct b end; [intros R; apply ok_inj, pair_equal_spec in R as [<- _]; exact O|].
    cbn zeta. destruct (nth_error _ _); [|discriminate]. intros R. apply ok_inj, pair_equal_spec in R as [<- _]. apply offered_say; [exact I|exact O].
  - revert R. cbn [on_message app]. unfold on_set_desktop_size. rewrite ltb_f by sizes. cbn zeta.
    match goal with |- context [if ?b then (c, 0) else _] => destruct b end; [intros R; apply ok_inj, pair_equal_spec in R as [<- _]; exact O|].
    match goal with |- context [check_layout ?a1 ?a2 ?a3 ?a4 ?a5] => destruct (check_layout a1 a2 a3 a4 a5) as [cx st] eqn:CK end.
    intros R. apply ok_inj, pair_equal_spec in R as [<- _].
    assert (OX : offered (d ++ [251 :: p :: w1 :: w2 :: h1 :: h2 :: n0 :: q :: l]) cx).
    { unfold check_layout in CK. destruct (existsb _ _); [apply pair_equal_spec in CK as [<- _]; exact O|].
      destruct (e_layout E); apply pair_equal_spec in CK as [<- _]; [apply offered_say; [exact I|exact O]|exact O]. }
    apply offered_say; [|exact OX]. rewrite <- (app_nil_r (ext_size_rect _ _ _ _)).
    match goal with |- context [ext_size_rect ?a1 ?a2 ?a3 ?a4] => change (update_head 1 ++ ext_size_rect a1 a2 a3 a4 ++ []) with (update_head 1 ++ (ext_size_rect a1 a2 a3 a4 ++ []));
      replace (ext_size_rect a1 a2 a3 a4 ++ []) with (concat [ext_size_rect a1 a2 a3 a4] ++ []) by (cbn [concat]; rewrite !app_nil_r; reflexivity) end.
    apply update_ok; [|left; reflexivity]. constructor; [|constructor]. apply expected_size. right. eapply SP. reflexivity.
  - revert R. unfold ntp_msg. cbn [on_message app]. unfold on_ntp.
    match goal with |- (if ?b then _ else _) = _ -> _ => destruct b end; [intros R; apply ok_inj, pair_equal_spec in R as [<- _]; exact O|].
    cbn zeta. match goal with |- (if ?b then _ else _) = _ -> _ => destruct b end.
    + match goal with |- (if ?b then _ else _) = _ -> _ => destruct b end; [|discriminate].
      intros R; apply ok_inj, pair_equal_spec in R as [<- _]; exact O.
    + intros R; apply ok_inj, pair_equal_spec in R as [<- _]. apply offered_say; [|exact O]. eapply SP. reflexivity.
Qed.

Lemma cut_offered d m c t : hd 0 m = 6 -> offered d c -> offered (d ++ [m]) (say (CutText t) c).
Proof. intros H O. apply offered_say; [exact I|]. apply offered_more; [rewrite H; discriminate|exact O]. Qed.
End S.

Lemma live_offered E g fuel c before ms l c' s : starts g c -> (forall e, In e (encs c) -> listed before e) ->
  Forall (ordinary g (e_experimental E)) ms -> Forall (may_happen g) l -> live E fuel c (concat ms) l = Ok (c', s) ->
  exists d todo new, ms = d ++ todo /\ (length (concat d) + length s <= length (concat ms))%nat /\ log c' = log c ++ new /\
    Forall (sent_rightly true E (among l) (before ++ d)) new.
Proof.
  intros S B T H R.
  destruct live_fine with (E := E) (g := g) (all := ms) (J := offered E (among l) before (log c)) (M := frame_among (among l))
    (fuel := fuel) (l := l) (c := c) (s := concat ms) as (c2 & s2 & R2 & D).
  - apply offered_same.
  - intros. eapply message_offered; eassumption.
  - apply cut_offered.
  - intros. eapply step_offered; eassumption.
  - apply Forall_forall. intros x X. rewrite Forall_forall in H. specialize (H x X). split; [exact H|].
    destruct x as [k|i]; [exact I|]. destruct i; try exact I; [exact H|]. exists f. auto.
  - apply start_sane; [exact S|exact T|]. split; [rewrite app_nil_r; exact B|]. exists []. split; [rewrite app_nil_r; reflexivity|constructor].
  - rewrite R in R2. injection R2 as <- <-. destruct D as (_ & _ & (d & t & P1 & (_ & new & P2 & P3) & P4) & _).
    exists d, t, new. auto.
Qed.
