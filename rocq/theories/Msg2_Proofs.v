(** Handlers neither look at the receive buffer's bookkeeping nor change it as long
    as no fence is pending, and do not depend on the segmentation of the input. *)
From Verif Require Import Common CommonProofs Pixels_Model Msg_Model Msg_Spec Msg_Proofs.

(* the client with another receive buffer *)
Definition with_buf (b : list Z) (i : Z) (c : client) : client := set_idx i (set_buf b c).

Definition rmap {A B} (f : A -> B) (r : res A) : res B :=
  match r with Ok a => Ok (f a) | Fault e => Fault e end.

Definition on_fst {A} (f : client -> client) (p : client * A) : client * A := (f (fst p), snd p).

(* what handlers of messages other than fences leave alone *)
Definition same (c c' : client) : Prop :=
  pf_n c' = pf_n c /\ blocked c' = blocked c /\ block_next c' = block_next c /\
  closed c' = closed c /\ cut c' = cut c.

Lemma same_refl c : same c c.
Proof. repeat split. Qed.
Lemma same_trans a b c : same a b -> same b c -> same a c.
Proof. unfold same. intuition congruence. Qed.

Definition nofence (c : client) : Prop := pf_n c = 0 /\ blocked c = false.

Lemma nofence_same c c' : same c c' -> nofence c -> nofence c'.
Proof. unfold same, nofence. intuition congruence. Qed.

(* fields of the updated client that the update leaves alone *)
Ltac norm_ E c :=
  repeat match goal with
  | |- context [e_encode E (log ?x)] =>
      lazymatch x with c => fail | _ => change (e_encode E (log x)) with (e_encode E (log c)) end
  | |- context [0 <? pending ?x] =>
      lazymatch x with c => fail | _ => change (0 <? pending x) with (0 <? pending c) end
  end.

Section S.
Variable E : env.
Variables r r' : client -> res client.
Variables (b : list Z) (i : Z).
Notation at_ := (with_buf b i).

(* [agrees c0 x y]: the two results are the same up to the buffer, and the
   handler leaves alone what it should *)
Definition agrees (c0 : client) (x y : res client) : Prop :=
  x = rmap at_ y /\ forall c, y = Ok c -> same c0 c.

Definition agrees2 {A} (c0 : client) (x y : res (client * A)) : Prop :=
  x = rmap (on_fst at_) y /\ forall c n, y = Ok (c, n) -> same c0 c.

Lemma agrees_same c0 c1 x y : same c0 c1 -> agrees c1 x y -> agrees c0 x y.
Proof. intros S [A B]. split; [exact A|]. intros c Hc. eapply same_trans; eauto. Qed.

Lemma agrees_ok c0 c : same c0 c -> agrees c0 (Ok (at_ c)) (Ok c).
Proof. intros S. split; [reflexivity|]. intros c' [= <-]. exact S. Qed.

Lemma agrees_bind c0 x y (n : Z) : agrees c0 x y ->
  agrees2 c0 (let* c := x in Ok (c, n)) (let* c := y in Ok (c, n)).
Proof.
  intros [-> B]. destruct y as [c|e]; cbn.
  - split; [reflexivity|]. intros c' n' [= <- <-]. apply B. reflexivity.
  - split; [reflexivity|]. discriminate.
Qed.

Lemma ppf_agrees c : nofence c ->
  agrees c (process_pending_fence r (at_ c)) (process_pending_fence r' c).
Proof.
  intros [P B]. unfold process_pending_fence.
  change (pf_n (at_ c)) with (pf_n c). change (blocked (at_ c)) with (blocked c).
  rewrite P, B. apply agrees_ok, same_refl.
Qed.

Lemma decrement_agrees c : nofence c ->
  agrees2 c (decrement_pending r (at_ c)) (decrement_pending r' c).
Proof.
  intros N. unfold decrement_pending.
  change (updating (at_ c)) with (updating c). change (cu_on (at_ c)) with (cu_on c).
  destruct (updating c); [split; [reflexivity|discriminate]|].
  destruct (cu_on c).
  { split; [reflexivity|]. intros ? ? [= <- <-]. apply same_refl. }
  destruct (ppf_agrees c N) as [-> B]. destruct (process_pending_fence r' c) as [c1|e]; cbn.
  - split; [reflexivity|]. intros ? ? [= <- <-]. exact (B c1 eq_refl).
  - split; [reflexivity|discriminate].
Qed.

Lemma answered_agrees s c k k' : nofence c ->
  (forall c1, same c c1 -> agrees c1 (k (at_ c1)) (k' c1)) ->
  agrees c (answered r s (at_ c) k) (answered r' s c k').
Proof.
  intros N K. unfold answered. destruct s; [|apply K; apply same_refl].
  destruct (decrement_agrees c N) as [-> B].
  destruct (decrement_pending r' c) as [[c1 n]|e]; cbn; [|split; [reflexivity|discriminate]].
  specialize (B _ _ eq_refl). destruct (n <=? 0); [apply agrees_ok; exact B|].
  apply (agrees_same _ c1); [exact B|]. apply K. exact B.
Qed.

Lemma start_encoding_agrees f c :
  agrees c (start_encoding E f (at_ c)) (start_encoding E f c).
Proof.
  unfold start_encoding, ensure_encoder.
  change (encs (at_ c)) with (encs c). change (encoder (at_ c)) with (encoder c).
  change (log (at_ c)) with (log c).
  destruct (match encoder c with Some k => _ | None => _ end); cbn [negb].
  - norm_ E c. destruct (e_encode E (log c)); [destruct (0 <? pending c)|];
      (split; [reflexivity|]; intros ? [= <-]; repeat split).
  - destruct (e_encoder E (log c) _); cbn [negb].
    + norm_ E c. destruct (e_encode E (log c)); [destruct (0 <? pending c)|];
        (split; [reflexivity|]; intros ? [= <-]; repeat split).
    + split; [reflexivity|]; intros ? [= <-]; repeat split.
Qed.

Lemma send_frame_agrees f c : agrees c (send_frame E f (at_ c)) (send_frame E f c).
Proof.
  unfold send_frame. change (has_damage (at_ c)) with (has_damage c).
  change (e_limited E (log (at_ c)) (inflight (at_ c)) (min_rtt (at_ c)))
    with (e_limited E (log c) (inflight c) (min_rtt c)).
  destruct (negb (has_damage c)); [apply agrees_ok, same_refl|].
  destruct (e_limited _ _ _ _); [apply agrees_ok, same_refl|].
  apply start_encoding_agrees.
Qed.

Lemma process_agrees c : nofence c ->
  agrees c (process_requests E r (at_ c)) (process_requests E r' c).
Proof.
  intros N. unfold process_requests.
  change (closed (at_ c)) with (closed c). change (disp (at_ c)) with (disp c).
  change (updating (at_ c)) with (updating c). change (cu_on (at_ c)) with (cu_on c).
  change (pending (at_ c)) with (pending c). change (ext_notified (at_ c)) with (ext_notified c).
  destruct (closed c); [apply agrees_ok, same_refl|].
  destruct (disp c) as [f|]; [|apply agrees_ok, same_refl].
  destruct (updating c); [apply agrees_ok, same_refl|].
  destruct (negb (cu_on c) && (pending c =? 0)); [apply agrees_ok, same_refl|].
  assert (X : exists c1 s, same c c1 /\
     (if ext_notified c then (at_ c, false) else send_ext_support (set_ext_notified true (at_ c)))
       = (at_ c1, s) /\
     (if ext_notified c then (c, false) else send_ext_support (set_ext_notified true c)) = (c1, s)).
  { destruct (ext_notified c).
    - exists c, false. repeat split.
    - unfold send_ext_support.
      change (has_encoding (set_ext_notified true (at_ c))) with (has_encoding (set_ext_notified true c)).
      destruct (negb _ && negb _);
        (refine (ex_intro _ _ (ex_intro _ _ (conj _ (conj _ eq_refl)))); [repeat split|reflexivity]). }
  destruct X as (c1 & s & S1 & -> & ->).
  apply (agrees_same _ c1); [exact S1|].
  apply answered_agrees; [eapply nofence_same; eauto|]. intros c2 S2.
  change (srv_seq (at_ c2)) with (srv_seq c2). change (cur_seq (at_ c2)) with (cur_seq c2).
  change (has_encoding (at_ c2)) with (has_encoding c2).
  assert (N2 : nofence c2) by (eapply nofence_same; [|exact N]; eapply same_trans; eauto).
  set (cur := negb (srv_seq c2 =? cur_seq c2) && has_encoding c2 ENC_CURSOR). clearbody cur.
  assert (Y : exists c3, same c2 c3 /\ (if cur then send_cursor_update E (at_ c2) else at_ c2) = at_ c3 /\
                (if cur then send_cursor_update E c2 else c2) = c3).
  { destruct cur; [|exists c2; repeat split]. unfold send_cursor_update.
    change (log (at_ c2)) with (log c2). change (fmt (at_ c2)) with (fmt c2).
    destruct (e_cursor E (log c2) (fmt c2));
      (refine (ex_intro _ _ (conj _ (conj _ eq_refl))); [repeat split|reflexivity]). }
  destruct Y as (c3 & S3 & -> & ->).
  apply (agrees_same _ c3); [exact S3|].
  apply answered_agrees; [eapply nofence_same; eauto|]. intros c4 S4.
  assert (N4 : nofence c4) by (eapply nofence_same; [|exact N2]; eapply same_trans; eauto).
  assert (Z : exists c5 s5, same c4 c5 /\ send_led_state (at_ c4) = (at_ c5, s5) /\
                send_led_state c4 = (c5, s5)).
  { unfold send_led_state.
    change (led_want (at_ c4)) with (led_want c4). change (led (at_ c4)) with (led c4).
    change (has_encoding (at_ c4)) with (has_encoding c4).
    destruct (led_want c4 =? led c4); [exists c4, false; repeat split|].
    destruct (negb _ && negb _); [exists c4, false; repeat split|].
    refine (ex_intro _ _ (ex_intro _ _ (conj _ (conj _ eq_refl)))); [repeat split|reflexivity]. }
  destruct Z as (c5 & s5 & S5 & -> & ->).
  apply (agrees_same _ c5); [exact S5|].
  apply answered_agrees; [eapply nofence_same; eauto|]. intros c6 S6.
  apply send_frame_agrees.
Qed.

Lemma agrees2_ok {A} c0 c (n : A) : same c0 c -> agrees2 c0 (Ok (at_ c, n)) (Ok (c, n)).
Proof. intros S. split; [reflexivity|]. intros c' n' [= <- <-]. exact S. Qed.

Lemma agrees2_fault {A} c0 e : agrees2 (A := A) c0 (Fault e) (Fault e).
Proof. split; [reflexivity|]. discriminate. Qed.

Lemma on_message_agrees c m : nofence c -> hd 0 m <> 248 -> hd 0 m <> 6 ->
  agrees2 c (on_message E r (at_ c) m) (on_message E r' c m).
Proof.
  intros N H H6. destruct m as [|t m]; [apply agrees2_ok, same_refl|].
  cbn [hd] in H, H6. set (M := t :: m).
  assert (T : on_message E r (at_ c) M = match t with
      | 0 => Ok (on_set_pixel_format (at_ c) M) | 2 => Ok (on_set_encodings E (at_ c) M)
      | 3 => on_fb_update_request E r (at_ c) M | 4 => Ok (on_key (at_ c) M)
      | 5 => Ok (on_pointer (at_ c) M) | 6 => on_cut_text E (at_ c) M
      | 150 => on_enable_continuous_updates E r (at_ c) M | 255 => on_qemu (at_ c) M
      | 251 => Ok (on_set_desktop_size E (at_ c) M) | 160 => on_ntp E (at_ c) M
      | 248 => on_fence E r (at_ c) M | _ => Fault UseAfterFree end) by reflexivity.
  assert (T' : on_message E r' c M = match t with
      | 0 => Ok (on_set_pixel_format c M) | 2 => Ok (on_set_encodings E c M)
      | 3 => on_fb_update_request E r' c M | 4 => Ok (on_key c M)
      | 5 => Ok (on_pointer c M) | 6 => on_cut_text E c M
      | 150 => on_enable_continuous_updates E r' c M | 255 => on_qemu c M
      | 251 => Ok (on_set_desktop_size E c M) | 160 => on_ntp E c M
      | 248 => on_fence E r' c M | _ => Fault UseAfterFree end) by reflexivity.
  rewrite T, T'. clear T T'. clearbody M.
  assert (G0 : agrees2 c (Ok (on_set_pixel_format (at_ c) M)) (Ok (on_set_pixel_format c M))).
  { unfold on_set_pixel_format. destruct (zlen M <? 20); [apply agrees2_ok, same_refl|].
    destruct (u8 _ 3 =? 0); (split; [reflexivity|]; intros ? ? [= <- <-]; repeat split). }
  assert (G2 : agrees2 c (Ok (on_set_encodings E (at_ c) M)) (Ok (on_set_encodings E c M))).
  { unfold on_set_encodings. destruct (zlen M <? 4); [apply agrees2_ok, same_refl|].
    destruct (zlen M <? 4 + _ * 4); [apply agrees2_ok, same_refl|].
    destruct (scan_encodings _ _ _ _) as [kept q].
    unfold send_ping.
    repeat match goal with |- context [has_encoding ?x ?e] =>
      change (has_encoding x e) with (existsb (Z.eqb e) kept) end.
    repeat match goal with |- context [cu_notified ?x] =>
      lazymatch x with c => fail | _ => change (cu_notified x) with (cu_notified c) end end.
    destruct (negb (cu_notified c) && existsb _ _);
      (repeat match goal with |- context [has_encoding ?x ?e] =>
         change (has_encoding x e) with (existsb (Z.eqb e) kept) end;
       destruct (existsb (Z.eqb ENC_EXT_CLIPBOARD) kept);
       (repeat match goal with |- context [has_encoding ?x ?e] =>
         change (has_encoding x e) with (existsb (Z.eqb e) kept) end;
        destruct (existsb (Z.eqb ENC_FENCE) kept);
        (split; [reflexivity|intros ? ? [= <- <-]; repeat split]))). }
  assert (G3 : agrees2 c (on_fb_update_request E r (at_ c) M) (on_fb_update_request E r' c M)).
  { unfold on_fb_update_request. destruct (zlen M <? 10); [apply agrees2_ok, same_refl|].
    change (cu_on (at_ c)) with (cu_on c).
    destruct (negb (u8 M 1 =? 0) && cu_on c); [apply agrees2_ok, same_refl|].
    apply agrees_bind.
    match goal with |- agrees _ (process_requests _ _ ?x) (process_requests _ _ ?y) =>
      assert (X : x = at_ y /\ same c y) end.
    { destruct (u8 M 1 =? 0); cbn [andb].
      - change (encoder (set_damage ?d ?x)) with (encoder x).
        change (encoder (set_pending ?d ?x)) with (encoder x).
        change (encoder (at_ c)) with (encoder c).
        destruct (encoder c);
        (repeat match goal with |- context [has_encoding ?x ENC_EXTDESKTOPSIZE] =>
           lazymatch x with c => fail | _ =>
             change (has_encoding x ENC_EXTDESKTOPSIZE) with (has_encoding c ENC_EXTDESKTOPSIZE) end end;
         destruct (has_encoding c ENC_EXTDESKTOPSIZE); (split; [reflexivity|repeat split])).
      - split; [reflexivity|repeat split]. }
    destruct X as [-> S]. eapply agrees_same; [exact S|]. apply process_agrees.
    eapply nofence_same; eauto. }
  assert (G4 : agrees2 c (Ok (on_key (at_ c) M)) (Ok (on_key c M))).
  { unfold on_key. destruct (zlen M <? 8); [apply agrees2_ok, same_refl|].
    split; [reflexivity|]; intros ? ? [= <- <-]; repeat split. }
  assert (G5 : agrees2 c (Ok (on_pointer (at_ c) M)) (Ok (on_pointer c M))).
  { unfold on_pointer. destruct (zlen M <? 6); [apply agrees2_ok, same_refl|].
    split; [reflexivity|]; intros ? ? [= <- <-]; repeat split. }
  assert (G150 : agrees2 c (on_enable_continuous_updates E r (at_ c) M)
                           (on_enable_continuous_updates E r' c M)).
  { unfold on_enable_continuous_updates. destruct (zlen M <? 10); [apply agrees2_ok, same_refl|].
    destruct (negb (u8 M 1 =? 0)).
    - apply agrees_bind.
      match goal with |- agrees _ (process_requests _ _ ?x) (process_requests _ _ ?y) =>
        change x with (at_ y); assert (S : same c y) by repeat split end.
      eapply agrees_same; [exact S|]. apply process_agrees. eapply nofence_same; eauto.
    - split; [reflexivity|]; intros ? ? [= <- <-]; repeat split. }
  assert (G255 : agrees2 c (on_qemu (at_ c) M) (on_qemu c M)).
  { unfold on_qemu. destruct (zlen M <? 2); [apply agrees2_ok, same_refl|].
    destruct (u8 M 1 =? 0); [|apply agrees2_fault].
    unfold on_qemu_key. destruct (zlen M <? 12); [apply agrees2_ok, same_refl|].
    destruct (nth_error _ _); [|apply agrees2_fault].
    split; [reflexivity|]; intros ? ? [= <- <-]; repeat split. }
  assert (G251 : agrees2 c (Ok (on_set_desktop_size E (at_ c) M)) (Ok (on_set_desktop_size E c M))).
  { unfold on_set_desktop_size. destruct (zlen M <? 8); [apply agrees2_ok, same_refl|].
    destruct (zlen M <? 8 + _ * 16); [apply agrees2_ok, same_refl|].
    unfold check_layout. destruct (existsb _ _);
      [|destruct (e_layout E)]; (split; [reflexivity|]; intros ? ? [= <- <-]; repeat split). }
  assert (G160 : agrees2 c (on_ntp E (at_ c) M) (on_ntp E c M)).
  { unfold on_ntp. destruct (zlen M <? 20); [apply agrees2_ok, same_refl|].
    destruct (negb _).
    - destruct (_ && _); [apply agrees2_ok, same_refl|apply agrees2_fault].
    - split; [reflexivity|]; intros ? ? [= <- <-]; repeat split. }
  destruct t as [|p|p]; [exact G0| |apply agrees2_fault].
  repeat first [assumption | apply agrees2_fault
               | exfalso; apply H; reflexivity | exfalso; apply H6; reflexivity | destruct p as [p|p|]].
Qed.

End S.
