(** Single messages. *)
From Verif Require Import Common CommonProofs Pixels_Model Msg_Model Msg_Proofs Msg_Spec
  Msg2_Spec Upd_Proofs.

Lemma on_message_cases2 E r c m (P : res (client * Z) -> Prop) :
  P (Ok (c, 0)) -> P (Ok (on_set_pixel_format c m)) -> P (Ok (on_set_encodings E c m)) ->
  P (on_fb_update_request E r c m) -> P (Ok (on_key c m)) -> P (Ok (on_pointer c m)) ->
  (hd 0 m = 6 -> P (on_cut_text E c m)) -> P (on_enable_continuous_updates E r c m) ->
  P (on_qemu c m) -> P (Ok (on_set_desktop_size E c m)) -> P (on_ntp E c m) ->
  (hd 0 m = 248 -> P (on_fence E r c m)) -> P (Fault UseAfterFree) -> P (on_message E r c m).
Proof.
  intros. unfold on_message. destruct m as [|t m]; [assumption|].
  destruct t as [|p|p]; [assumption| |assumption].
  repeat first [assumption | solve [auto] | destruct p as [p|p|]].
Qed.

(** ** How much is consumed *)
Lemma zlen_pos l : 0 <= zlen l.
Proof. unfold zlen. lia. Qed.

Lemma u16_pos m k : all_bytes m -> 0 <= u16 m k.
Proof. intros B. apply unbe_bound. apply Forall_firstn, Forall_skipn. exact B. Qed.

Lemma u32_pos m k : all_bytes m -> 0 <= u32 m k.
Proof. intros B. apply unbe_bound. apply Forall_firstn, Forall_skipn. exact B. Qed.

Lemma u8_pos m k : all_bytes m -> 0 <= u8 m k < 256.
Proof.
  intros B. unfold u8. destruct (Nat.ltb_spec k (length m)).
  - apply Forall_nth; [exact B|assumption].
  - rewrite nth_overflow by lia. lia.
Qed.

Lemma snd_ok {A B} (x : A * B) a b : Ok x = Ok (a, b) -> b = snd x.
Proof. intros [= ->]. reflexivity. Qed.

Lemma consumed E r c m c' n : on_message E r c m = Ok (c', n) ->
  hd 0 m <> 248 \/ 9 + u8 m 8 <= zlen m -> all_bytes m -> 0 <= n <= zlen m.
Proof.
  pose proof (zlen_pos m) as Z0. intros H K B. revert H.
  assert (N : forall x : client, Ok (x, 0) = Ok (c', n) -> 0 <= n <= zlen m).
  { intros x H. apply snd_ok in H. cbn in H. lia. }
  apply on_message_cases2; [apply N|..|discriminate].
  - unfold on_set_pixel_format. destruct (_ <? _) eqn:L; [apply N|].
    intros H. apply snd_ok in H. cbn [snd] in H. lia.
  - unfold on_set_encodings. destruct (_ <? _) eqn:L; [apply N|].
    destruct (zlen m <? 4 + _) eqn:L2; [apply N|].
    destruct (scan_encodings _ _ _ _) as [kept q]. intros H. apply snd_ok in H.
    cbn [snd] in H. pose proof (u16_pos m 2 B). lia.
  - unfold on_fb_update_request. destruct (_ <? _) eqn:L; [apply N|].
    destruct (_ && _); [apply N|]. intros H. apply bind_ok in H as (c1 & H & H2).
    apply snd_ok in H2. cbn in H2. lia.
  - unfold on_key. destruct (_ <? _) eqn:L; [apply N|]. intros H. apply snd_ok in H. cbn in H. lia.
  - unfold on_pointer. destruct (_ <? _) eqn:L; [apply N|]. intros H. apply snd_ok in H. cbn in H. lia.
  - intros _. unfold on_cut_text. destruct (_ <? _) eqn:L; [apply N|]. destruct (_ && _).
    + unfold on_ext_clipboard. destruct (zlen m <? 12) eqn:L12; [apply N|].
      cbv zeta. destruct (to_signed 32 _ - 4 <? - 2 ^ 31); [discriminate|].
      destruct (_ && _); [apply N|].
      destruct (MAX_CUT_TEXT_SIZE <? _); [discriminate|].
      set (size := (12 + _) mod 2 ^ 64).
      assert (S0 : 0 <= size) by (apply Z.mod_pos_bound; reflexivity). clearbody size.
      destruct (zlen m <? size) eqn:L2.
      * destruct (cut c); [discriminate|]. intros H. apply snd_ok in H. cbn [snd] in H. lia.
      * intros H. apply bind_ok in H as (c1 & H & H2). apply snd_ok in H2. cbn [snd] in H2. lia.
    + unfold on_plain_cut_text. destruct (MAX_CUT_TEXT_SIZE <? _); [discriminate|].
      pose proof (u32_pos m 4 B). destruct (_ <=? _) eqn:L2.
      * intros H1. apply snd_ok in H1. cbn [snd] in H1. lia.
      * destruct (cut c); [discriminate|]. intros H1. apply snd_ok in H1. cbn [snd] in H1. lia.
  - unfold on_enable_continuous_updates. destruct (_ <? _) eqn:L; [apply N|]. destruct (negb _).
    + intros H. apply bind_ok in H as (c1 & H & H2). apply snd_ok in H2. cbn [snd] in H2. lia.
    + intros H2. apply snd_ok in H2. cbn [snd] in H2. lia.
  - unfold on_qemu. destruct (_ <? _); [apply N|]. destruct (_ =? 0); [|discriminate].
    unfold on_qemu_key. destruct (_ <? _) eqn:L; [apply N|]. destruct (nth_error _ _); [|discriminate].
    intros H2. apply snd_ok in H2. cbn [snd] in H2. lia.
  - unfold on_set_desktop_size. destruct (_ <? _) eqn:L; [apply N|].
    destruct (zlen m <? 8 + _) eqn:L2; [apply N|].
    destruct (check_layout E _ _ _ c) as [c1 st]. intros H2. apply snd_ok in H2. cbn [snd] in H2.
    pose proof (u8_pos m 6 B). lia.
  - unfold on_ntp. destruct (_ <? _) eqn:L; [apply N|]. destruct (negb _).
    + destruct (_ && _); [|discriminate]. intros H2. apply snd_ok in H2. cbn [snd] in H2. lia.
    + intros H2. apply snd_ok in H2. cbn [snd] in H2. lia.
  - intros HD. destruct K as [K|K]; [contradiction|].
    pose proof (u8_pos m 8 B). unfold on_fence. destruct (_ <? _); [apply N|].
    destruct (_ <? _); [discriminate|]. destruct (_ <? _); [apply N|].
    destruct (_ <? _); [discriminate|]. destruct (_ <=? _).
    + destruct (_ <? _); [discriminate|]. destruct (on_fence_request _ _ _) as [c1 ok].
      intros H2. apply snd_ok in H2. cbn [snd] in H2. destruct ok; lia.
    + intros H2. apply bind_ok in H2 as (c1 & _ & H2). apply snd_ok in H2. cbn [snd] in H2. lia.
Qed.

(** ** Update requests *)
Lemma request_event E r c m c' n : whole m -> hd 0 m = 3 ->
  cu_on c = false \/ u8 m 1 = 0 -> on_message E r c m = Ok (c', n) ->
  (forall c c', r c = Ok c' -> mv c c') ->
  n = 10 /\ exists new, log c' = log c ++ new /\
    In (FbReq (u8 m 1) (u16 m 2) (u16 m 4) (u16 m 6) (u16 m 8)) new.
Proof.
  intros W HD K H R. inversion W; subst m; cbn [hd app] in HD; try discriminate HD.
  cbn [on_message] in H. unfold on_fb_update_request in H.
  replace (zlen (3 :: l) <? 10) with false in H
    by (symmetry; apply Z.ltb_ge; unfold zlen; cbn [length]; lia).
  replace (negb _ && cu_on c) with false in H
    by (destruct K as [-> | ->]; cbn; rewrite ?andb_false_r; reflexivity).
  apply bind_ok in H as (c1 & H & H2). apply ok_inj in H2.
  assert (N : n = 10) by (apply (f_equal snd) in H2; cbn in H2; lia).
  assert (C : c1 = c') by (apply (f_equal fst) in H2; exact H2). subst c1 n. split; [reflexivity|].
  apply (process_mv E r R) in H. apply mv_log in H as [t L].
  set (o := FbReq _ _ _ _ _) in *.
  set (c3 := if u8 (3 :: l) 1 =? 0 then _ else _) in L.
  assert (X : exists a, log c3 = log c ++ a).
  { subst c3. destruct (u8 (3 :: l) 1 =? 0).
    - cbv zeta. destruct (encoder _); [exists [KeyFrame]; reflexivity|].
      exists []. symmetry. apply app_nil_r.
    - exists []. symmetry. apply app_nil_r. }
  destruct X as [a X]. exists (a ++ [o] ++ t). rewrite L.
  replace (log (if _ && _ then _ else _)) with (log c3 ++ [o]) by (destruct (_ && _); reflexivity).
  rewrite X, <- !app_assoc. split; [reflexivity|]. rewrite !in_app_iff. cbn. auto.
Qed.

(* once an incremental request is at the head of the buffer and continuous updates
   are on, reads change nothing any more *)
Definition wedged (c : client) : Prop :=
  cu_on c = true /\ cut c = None /\ idx c = 0 /\
  exists i l rest, buf c = (3 :: i :: l) ++ rest /\ length l = 8%nat /\ i <> 0.

Lemma wedged_loop E r fuel c c' : wedged c -> message_loop E r fuel c = Ok c' ->
  log c' = log c /\ wedged c' /\ buf c' = buf c.
Proof.
  intros W. destruct fuel as [|fuel]; [discriminate|]. cbn [message_loop].
  destruct (blocked c); [intros [= <-]; auto|].
  destruct W as (W1 & W2 & W3 & i & l & rest & W4 & W5 & W6).
  rewrite W3. change (Z.to_nat 0) with O.
  destruct (_ <? _); [discriminate|].
  set (c1 := set_block_next _ _). change (idx c1) with (idx c). change (buf c1) with (buf c).
  rewrite W3, W4. change (skipn (Z.to_nat 0) ?x) with x. cbn [app on_message].
  unfold on_fb_update_request. change (cu_on c1) with (cu_on c). rewrite W1.
  destruct (_ <? _).
  - cbn. intros [= <-]. split; [reflexivity|]. split; [|exact W4].
    repeat split; auto. exists i, l, rest. auto.
  - change (u8 _ 1) with i. replace (i =? 0) with false by lia. cbn.
    intros [= <-]. split; [reflexivity|]. split; [|exact W4].
    repeat split; auto. exists i, l, rest. auto.
Qed.

Lemma wedged_read E fuel c d c' : wedged c -> step E fuel c (IRead d) = Ok c' ->
  log c' = log c /\ wedged c'.
Proof.
  intros W. unfold step. destruct (closed c); [intros [= <-]; auto|].
  cbn [receive]. unfold on_client_event. pose proof W as (W1 & W2 & W3 & i & l & rest & W4 & W5 & W6).
  rewrite W2, W3. cbn [negb Z.eqb].
  destruct (_ <=? 0).
  { intros [= <-]. split; [reflexivity|]. repeat split; auto. exists i, l, rest. auto. }
  destruct d as [[|x d]|]; [intros [= <-]; auto| |intros [= <-]; auto].
  destruct (_ <? _); [intros [= <-]; auto|].
  intros H. apply bind_ok in H as (c1 & H & H2).
  apply wedged_loop in H.
  - destruct H as (L & (V1 & V2 & V3 & V) & B). rewrite V3 in H2. cbn in H2.
    destruct (_ <? _) in H2; [discriminate|]. apply ok_inj in H2. subst c'.
    split; [exact L|]. repeat split; auto.
  - repeat split; auto. exists i, l, (rest ++ x :: d). split; [|auto].
    change (buf (set_buf ?b c)) with b. rewrite W4, <- app_assoc. reflexivity.
Qed.

Lemma wedged_run E fuel l : Forall (fun i => exists d, i = IRead d) l -> forall c c',
  wedged c -> run E fuel c l = Ok c' -> log c' = log c.
Proof.
  induction 1 as [|i l [d ->] _ IH]; intros c c' W; cbn [run]; [intros [= <-]; reflexivity|].
  intros H. apply bind_ok in H as (c1 & H & H2). apply wedged_read in H; [|exact W].
  destruct H as [L W1]. rewrite <- L. eapply IH; eauto.
Qed.
