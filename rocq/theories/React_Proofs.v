(** Callbacks that call the library: the driver of Safe2_Proofs.v again. *)
From Verif Require Import Common CommonProofs Msg_Model Msg_Spec Msg2_Spec Msg_Proofs Msg2_Proofs Msg3_Proofs Msg4_Proofs Safe_Spec Safe_Proofs React_Model React_Spec.
From Verif Require Safe2_Proofs.

Lemma called_id c : called c c = false.
Proof. unfold called. rewrite skipn_all. reflexivity. Qed.

Lemma called_log c c' : log c' = log c -> called c c' = false.
Proof. intros L. unfold called. rewrite L, skipn_all. reflexivity. Qed.

(* other than requests and layouts *)
Lemma on_message_other E app r c m : hd 0 m <> 3 -> hd 0 m <> 251 ->
  on_message E app r c m =
  (let* (c', n) := Msg_Model.on_message E r c m in
   if called c c' then let* c' := react E app r c' in Ok (c', n) else Ok (c', n)).
Proof.
  intros A B. unfold on_message. destruct m as [|t m]; [reflexivity|]. cbn [hd] in A, B.
  destruct t as [|p|p]; try reflexivity. do 8 (try destruct p as [p|p|]; try reflexivity); congruence.
Qed.

Lemma on_message_wait_r E app r c p : unfinished p -> on_message E app r c p = Ok (c, 0).
Proof.
  intros U. pose proof (on_message_wait E r c p U) as W.
  destruct (Z.eq_dec (hd 0 p) 3) as [H|H]; [|destruct (Z.eq_dec (hd 0 p) 251) as [H2|H2]];
    [| |rewrite on_message_other by assumption; rewrite W; cbn [bind]; rewrite called_id; reflexivity].
  all: destruct U as (q & Q & U & _); destruct p as [|b p]; [discriminate|]; clear W;
    remember ((b :: p) ++ q) as m eqn:EM;
    assert (LP := prefix_length _ _ _ (eq_sym EM) Q);
    (assert (BU : forall k, (k < length (b :: p))%nat -> nth k (b :: p) 0 = nth k m 0);
      [intros k Hk; rewrite EM; symmetry; apply app_nth1; exact Hk|]);
    cbn [hd] in *; subst b.
  - destruct U; assert (HB := f_equal (hd 0) EM); cbn [List.app hd] in HB; try discriminate HB.
    cbn [on_message]. unfold on_fb_update_request. rewrite ltb_t by sizes. reflexivity.
  - destruct U; assert (HB := f_equal (hd 0) EM); cbn [List.app hd] in HB; try discriminate HB.
    cbn [on_message]. unfold on_set_desktop_size. destruct (zlen (251 :: p) <? 8) eqn:L8; [reflexivity|].
    apply Z.ltb_ge in L8. unfold u8. rewrite BU by sizes. cbn [nth List.app].
    rewrite ltb_t by sizes. reflexivity.
Qed.

Lemma on_message_app_r E app r c m t : whole m -> on_message E app r c (m ++ t) = on_message E app r c m.
Proof.
  intros W. pose proof (whole_nonempty _ W) as NE. assert (HD : hd 0 (m ++ t) = hd 0 m) by (destruct m; [exfalso; cbn in NE; lia|reflexivity]).
  destruct (Z.eq_dec (hd 0 m) 3) as [H|H]; [|destruct (Z.eq_dec (hd 0 m) 251) as [H2|H2]].
  - destruct W; cbn [List.app hd] in H; try discriminate H. cbn [List.app on_message]. unfold on_fb_update_request.
    rewrite !(ltb_f _ 10) by sizes. change (3 :: l ++ t) with ((3 :: l) ++ t).
    rewrite !u16_app, u8_app by sizes. reflexivity.
  - destruct W; cbn [List.app hd] in H2; try discriminate H2.
    cbn [List.app on_message]. unfold on_set_desktop_size. rewrite !(ltb_f _ 8) by sizes.
    change (u8 (251 :: p :: w1 :: w2 :: h1 :: h2 :: n :: q :: l ++ t) 6) with n.
    change (u8 (251 :: p :: w1 :: w2 :: h1 :: h2 :: n :: q :: l) 6) with n.
    rewrite !ltb_f by sizes. cbn [skipn].
    change (u16 (251 :: p :: w1 :: w2 :: h1 :: h2 :: n :: q :: l ++ t) 2)
      with (u16 (251 :: p :: w1 :: w2 :: h1 :: h2 :: n :: q :: l) 2).
    change (u16 (251 :: p :: w1 :: w2 :: h1 :: h2 :: n :: q :: l ++ t) 4)
      with (u16 (251 :: p :: w1 :: w2 :: h1 :: h2 :: n :: q :: l) 4).
    rewrite layouts_app by sizes. reflexivity.
  - rewrite !on_message_other by congruence. rewrite on_message_app by exact W. reflexivity.
Qed.

Lemma loop_step_r E app r fuel c b i c1 n :
  quiet c -> 0 <= i <= zlen b ->
  on_message E app r (with_buf b i c) (skipn (Z.to_nat i) b) = Ok (with_buf b i c1, n) ->
  message_loop E app r (S fuel) (with_buf b i c) =
  if n =? 0 then Ok (with_buf b i c1) else message_loop E app r fuel (with_buf b (i + n) c1).
Proof.
  intros (P & B & BN & C) Hi H. cbn [message_loop].
  change (blocked (with_buf b i c)) with (blocked c). rewrite B.
  change (buf (with_buf b i c)) with b. change (idx (with_buf b i c)) with i.
  rewrite ltb_f by lia.
  change (block_next (with_buf b i c)) with (block_next c). rewrite BN.
  rewrite (set_blocked_id _ false) by exact B. rewrite (set_block_next_id _ false) by exact BN.
  change (buf (with_buf b i c)) with b. change (idx (with_buf b i c)) with i.
  rewrite H. cbn [bind]. reflexivity.
Qed.

Lemma loop_unfinished_r E app r fuel c b i : quiet c -> 0 <= i <= zlen b ->
  unfinished (skipn (Z.to_nat i) b) ->
  message_loop E app r (S fuel) (with_buf b i c) = Ok (with_buf b i c).
Proof.
  intros Q Hi U. rewrite (loop_step_r _ _ _ _ _ _ _ c 0 Q Hi); [reflexivity|].
  apply on_message_wait_r. exact U.
Qed.

Lemma loop_cut_r E app r fuel c b i x y z n l : quiet c -> 0 <= i <= zlen b ->
  0 <= n <= 10000000 -> zlen l < n ->
  skipn (Z.to_nat i) b = [6; x; y; z] ++ be 4 n ++ l ->
  message_loop E app r (S (S fuel)) (with_buf b i c) =
  Ok (with_buf b (zlen b) (set_cut (Some (mk_cut false false n l)) c)).
Proof.
  intros Q Hi Hn Hl K.
  rewrite (loop_step_r _ _ _ _ _ _ _ (set_cut (Some (mk_cut false false n l)) c) (8 + zlen l) Q Hi).
  2:{ rewrite K. rewrite on_message_other by discriminate. rewrite on_message_cut_part by (auto; apply Q). cbn [bind].
      rewrite called_log by reflexivity. reflexivity. }
  assert (ZL := Zle_0_nat (length l)).
  replace (8 + zlen l =? 0) with false by (symmetry; apply Z.eqb_neq; rewrite zlen_len; lia).
  assert (L := f_equal (@length Z) K). rewrite skipn_length in L.
  replace (i + (8 + zlen l)) with (zlen b) by (sizes).
  cbn [message_loop]. set (d := set_cut _ _).
  change (blocked (with_buf b (zlen b) d)) with (blocked c). rewrite (proj1 (proj2 Q)).
  change (buf (with_buf b (zlen b) d)) with b. change (idx (with_buf b (zlen b) d)) with (zlen b).
  rewrite ltb_f by lia.
  change (block_next (with_buf b (zlen b) d)) with (block_next c).
  rewrite (proj1 (proj2 (proj2 Q))).
  rewrite (set_blocked_id _ false) by exact (proj1 (proj2 Q)).
  rewrite (set_block_next_id _ false) by exact (proj1 (proj2 (proj2 Q))).
  change (buf (with_buf b (zlen b) d)) with b. change (idx (with_buf b (zlen b) d)) with (zlen b).
  rewrite skipn_all2 by (rewrite zlen_len; lia). cbn [on_message Msg_Model.on_message bind]. rewrite called_id.
  cbn [bind]. rewrite Z.eqb_refl. reflexivity.
Qed.

Lemma call_fine E r a c : a <> Leave -> nofence c -> exists c', call E r a c = Ok c' /\ kept c c'.
Proof.
  intros A N. destruct a; cbn [call]; [| | |congruence].
  - match goal with |- context [process_requests E r ?x] => destruct (process_fine E r x) as (c2 & R & K);
      [destruct (closed (set_disp (Some f) c)); exact N|]; exists c2; split; [exact R|]; eapply kept_trans; [|exact K] end.
    destruct (closed (set_disp (Some f) c)); repeat split.
  - match goal with |- context [process_requests E r ?x] => destruct (process_fine E r x N) as (c2 & R & K) end.
    exists c2. split; [exact R|]. eapply kept_trans; [|exact K]. repeat split.
  - match goal with |- context [process_requests E r ?x] => destruct (process_fine E r x N) as (c2 & R & K) end.
    exists c2. split; [exact R|]. eapply kept_trans; [|exact K]. repeat split.
Qed.

Lemma calls_fine E r l : forall c, ~ In Leave l -> nofence c -> exists c', calls E r l c = Ok c' /\ kept c c'.
Proof.
  induction l as [|a l IH]; intros c A N; [exists c; split; [reflexivity|apply kept_refl]|].
  destruct (call_fine E r a c) as (c1 & R1 & K1); [intros ->; apply A; left; reflexivity|exact N|].
  destruct (IH c1) as (c2 & R2 & K2); [intros X; apply A; right; exact X|eapply kept_nofence; eassumption|].
  exists c2. cbn [calls]. rewrite R1. cbn [bind]. split; [exact R2|eapply kept_trans; eassumption].
Qed.

Lemma react_fine E app r c : (forall h, ~ In Leave (app h)) -> nofence c -> exists c', react E app r c = Ok c' /\ kept c c'.
Proof. intros A N. apply calls_fine; [apply A|exact N]. Qed.

Lemma kept_held c c' : kept c c' -> held c c'.
Proof. intros (S & _ & _ & B & I). split; [exact S|split; assumption]. Qed.
Lemma held_trans a b c : held a b -> held b c -> held a c.
Proof. intros (S1 & B1 & I1) (S2 & B2 & I2). split; [eapply same_trans; eassumption|split; congruence]. Qed.
Lemma kept_agreed g c c' : kept c c' -> agreed g c -> agreed g c'.
Proof. intros (_ & K & X & _). apply agreed_same; assumption. Qed.

Lemma ordinary_fine_r E app r (STAYS : forall h, ~ In Leave (app h)) g c m : quiet c -> agreed g c -> ordinary g (e_experimental E) m ->
  exists c1 n, on_message E app r c m = Ok (c1, n) /\ (n = zlen m \/ (n = 0 /\ c1 = c)) /\ held c c1 /\ agreed g c1.
Proof.
  intros Q A O. assert (N : nofence c) by (apply quiet_nofence; exact Q).
  destruct (Z.eq_dec (hd 0 m) 3) as [H|H]; [|destruct (Z.eq_dec (hd 0 m) 251) as [H2|H2]].
  - destruct O; cbn [List.app hd set_encodings_msg cut_text_msg qemu_key_msg ntp_msg] in H; try discriminate H.
    cbn [on_message]. unfold on_fb_update_request. rewrite ltb_f by sizes. cbn zeta.
    destruct (negb (u8 (3 :: l) 1 =? 0) && cu_on c); [exists c, 0; split; [reflexivity|]; split; [right; split; reflexivity|]; split; [repeat split|exact A]|].
    match goal with |- context [react E app r ?x] => set (c1 := x) end.
    assert (S1 : kept c c1) by (subst c1; destruct (u8 (3 :: l) 1 =? 0); [destruct (encoder _)|]; repeat split).
    clearbody c1. destruct (react_fine E app r c1 STAYS (kept_nofence _ _ S1 N)) as (c2 & R2 & K2). rewrite R2. cbn [bind].
    pose proof (kept_trans _ _ _ S1 K2) as K. clear S1 K2 R2 c1.
    pose proof (kept_agreed g _ _ K A) as A2.
    match goal with |- context [process_requests E r ?x] => set (c3 := x) end.
    assert (S3 : held c c3 /\ agreed g c3).
    { subst c3. destruct (u8 (3 :: l) 1 =? 0); cbn [andb]; [|split; [apply kept_held; exact K|exact A2]].
      destruct (has_encoding c2 ENC_EXTDESKTOPSIZE) eqn:XD; [|split; [apply kept_held; exact K|exact A2]].
      split; [apply kept_held in K; exact K|]. destruct g as [w h|]; cbn [agreed] in *; [|exact A2].
      exfalso; apply (proj2 A2); apply has_in; exact XD. }
    clearbody c3. destruct S3 as [S3 A3].
    destruct (process_fine E r c3 (nofence_same _ _ (proj1 S3) N)) as (c4 & R4 & K4). rewrite R4. cbn [bind].
    exists c4, 10. split; [reflexivity|]. split; [left; sizes|].
    split; [eapply held_trans; [exact S3|apply kept_held; exact K4]|eapply kept_agreed; eassumption].
  - destruct O; cbn [List.app hd set_encodings_msg cut_text_msg qemu_key_msg ntp_msg] in H2; try discriminate H2.
    cbn [on_message List.app]. unfold on_set_desktop_size. rewrite ltb_f by sizes. cbn zeta.
    change (u8 (251 :: p :: w1 :: w2 :: h1 :: h2 :: n :: q :: l) 6) with n. rewrite ltb_f by sizes.
    unfold check_layout. destruct (existsb _ _).
    + cbn [bind]. eexists _, _. split; [reflexivity|]. split; [left; sizes|]. split; [repeat split|exact A].
    + destruct (e_layout E).
      * cbn zeta. match goal with |- context [react E app r ?x] => destruct (react_fine E app r x STAYS N) as (c2 & R2 & K2) end.
        rewrite R2. cbn [bind]. eexists _, _. split; [reflexivity|]. split; [left; sizes|].
        split; [apply kept_held in K2; exact K2|apply (kept_agreed g _ _ K2); exact A].
      * cbn [bind]. eexists _, _. split; [reflexivity|]. split; [left; sizes|]. split; [repeat split|exact A].
  - destruct (ordinary_fine E r g c m Q A O) as (c1 & n & R & NN & S & A1).
    rewrite on_message_other by assumption. rewrite R. cbn [bind].
    destruct (called c c1) eqn:CL; [|exists c1, n; auto].
    destruct NN as [NN|[_ ->]]; [|rewrite called_id in CL; discriminate CL].
    destruct (react_fine E app r c1 STAYS (nofence_same _ _ (proj1 S) N)) as (c2 & R2 & K2). rewrite R2. cbn [bind].
    exists c2, n. split; [reflexivity|]. split; [left; exact NN|].
    split; [eapply held_trans; [exact S|apply kept_held; exact K2]|eapply kept_agreed; eassumption].
Qed.

Section S.
Variable E : env.
Variable app : list out -> list reaction.
Variable g : agreement.
Hypothesis STAYS : forall h, ~ In Leave (app h).

Definition todo_ok (ms : list (list Z)) : Prop := Forall (ordinary g (e_experimental E)) ms.

(* what a receive loop leaves behind: [b] is the buffer, [i] how much of it is dealt with *)
Definition left_behind (b : list Z) (i : Z) (s : list Z) (c : client) : Prop :=
  agreed g c /\
  ((quiet c /\ exists todo, todo_ok todo /\ skipn (Z.to_nat i) b ++ s = concat todo) \/
   (nofence c /\ block_next c = false /\ i = zlen b /\ exists n l1 l2 todo, cut c = Some (mk_cut false false n l1) /\
      zlen l1 < n <= 10000000 /\ zlen (l1 ++ l2) = n /\ todo_ok todo /\ s = l2 ++ concat todo)).

Lemma loop_fine r : forall todo fuel c b i s,
  quiet c -> agreed g c -> 0 <= i <= zlen b -> todo_ok todo -> skipn (Z.to_nat i) b ++ s = concat todo ->
  (length (skipn (Z.to_nat i) b) + 2 <= fuel)%nat ->
  exists c2 i2, message_loop E app r fuel (with_buf b i c) = Ok (with_buf b i2 c2) /\ 0 <= i2 <= zlen b /\
    closed c2 = closed c /\ left_behind b i2 s c2.
Proof.
  induction todo as [|m todo IH]; intros fuel c b i s Q A Hi T K F.
  - cbn [concat] in K. assert (K' := K). apply app_eq_nil in K as [K _].
    destruct fuel as [|fuel]; [lia|].
    rewrite (loop_unfinished_r E app r fuel c b i Q Hi) by (rewrite K; apply unfinished_nil).
    exists c, i. split; [reflexivity|]. split; [exact Hi|]. split; [reflexivity|]. split; [exact A|].
    left. split; [exact Q|]. exists []. split; [constructor|exact K'].
  - apply Forall_cons_iff in T as [Tm T]. pose proof (Safe2_Proofs.ordinary_whole _ _ _ Tm) as W. cbn [concat] in K.
    destruct (le_lt_dec (length m) (length (skipn (Z.to_nat i) b))) as [L|L].
    + assert (B : skipn (Z.to_nat i) b = m ++ skipn (length m) (skipn (Z.to_nat i) b)).
      { rewrite <- (firstn_skipn (length m) (skipn (Z.to_nat i) b)) at 1. f_equal.
        assert (X := f_equal (firstn (length m)) K). rewrite firstn_app_exact, fs_app in X by exact L. exact X. }
      set (t := skipn (length m) (skipn (Z.to_nat i) b)) in *.
      assert (KT : t ++ s = concat todo) by (rewrite B, <- app_assoc in K; apply app_inv_head in K; exact K).
      clearbody t.
      destruct (ordinary_fine_r E app r STAYS g (with_buf b i c) m Q A Tm) as (c1 & n & R & N & S & A1).
      assert (C1 : with_buf b i c1 = c1) by (apply with_buf_id; apply S).
      destruct fuel as [|fuel]; [lia|].
      rewrite (loop_step_r E app r fuel c b i c1 n Q Hi) by (rewrite B, on_message_app_r, C1 by exact W; exact R).
      pose proof (Safe2_Proofs.held_quiet _ _ S Q) as Q1. assert (CL : closed c1 = closed c) by apply S.
      destruct (n =? 0) eqn:N0.
      * exists c1, i. split; [reflexivity|]. split; [exact Hi|]. split; [exact CL|]. split; [exact A1|].
        left. split; [exact Q1|]. exists (m :: todo). split; [constructor; assumption|exact K].
      * destruct N as [->|[N _]]; [|rewrite N in N0; discriminate N0].
        destruct (skip_more _ _ _ _ (proj1 Hi) B) as [K2 L2]. pose proof (whole_nonempty _ W) as NE.
        assert (Hi2 : 0 <= i + zlen m <= zlen b) by (rewrite (zlen_len m) in *; lia).
        destruct (IH fuel c1 b (i + zlen m) s Q1 A1 Hi2 T) as (c2 & i2 & R2 & I2 & C2 & LB).
        -- rewrite K2. exact KT.
        -- rewrite K2. rewrite B, app_length in F. lia.
        -- exists c2, i2. split; [exact R2|]. split; [exact I2|]. split; [congruence|exact LB].
    + set (lft := skipn (Z.to_nat i) b) in *.
      assert (M : m = lft ++ skipn (length lft) m).
      { rewrite <- (firstn_skipn (length lft) m) at 1. f_equal.
        assert (X := f_equal (firstn (length lft)) K). rewrite firstn_app_exact, fs_app in X by lia. symmetry. exact X. }
      assert (NQ : skipn (length lft) m <> []).
      { intros X. apply (f_equal (@length Z)) in X. rewrite skipn_length in X. cbn in X. lia. }
      destruct fuel as [|fuel]; [lia|].
      destruct (part_cases m lft _ W NQ M) as [U|(x & y & z & n & l & LE & Hn & ZL & ME)].
      * rewrite (loop_unfinished_r E app r fuel c b i Q Hi U). exists c, i. split; [reflexivity|]. split; [exact Hi|].
        split; [reflexivity|]. split; [exact A|]. left. split; [exact Q|]. exists (m :: todo). split; [constructor; assumption|exact K].
      * destruct fuel as [|fuel]; [lia|]. set (q := skipn (length lft) m) in *.
        assert (ZQ : zlen l < n). { destruct q; [congruence|]. sizes. }
        rewrite (loop_cut_r E app r fuel c b i x y z n l Q Hi Hn ZQ LE). eexists _, _. split; [reflexivity|].
        split; [rewrite zlen_len; lia|]. split; [reflexivity|]. split; [exact A|]. right.
        split; [apply quiet_nofence in Q; exact Q|]. split; [apply Q|]. split; [reflexivity|].
        exists n, l, q, todo. split; [reflexivity|]. split; [lia|]. split; [exact ZL|]. split; [exact T|].
        rewrite M, <- app_assoc in K. apply app_inv_head in K. exact K.
Qed.

(** The client [c], with the bytes [s] still on their way. *)
Definition bounded (c : client) : Prop :=
  zlen (buf c) <= 4096 /\ forall t, cut c = Some t -> zlen (ct_data t) < ct_length t <= 10000000.

Definition sane (c : client) (s : list Z) : Prop :=
  nofence c /\ bounded c /\ (closed c = true \/ (idx c = 0 /\ left_behind (buf c) 0 s c)).

Lemma behind_small b i s c : zlen (buf c) <= 4096 -> left_behind b i s c -> bounded c.
Proof.
  intros B (_ & D). split; [exact B|]. intros t C. destruct D as [((_ & _ & _ & Q) & _)|(_ & _ & _ & n & l1 & l2 & todo & X & L & _)].
  - congruence.
  - rewrite X in C. injection C as <-. exact L.
Qed.

(* a client that goes on *)
Lemma sane_on c s : nofence c -> idx c = 0 -> zlen (buf c) <= 4096 -> left_behind (buf c) 0 s c -> sane c s.
Proof. intros N I B L. split; [exact N|]. split; [eapply behind_small; eassumption|]. right. split; assumption. Qed.

Lemma read_fine fuel c s k : sane c s ->
  exists c2, step E app fuel c (IRead (Some (firstn (Nat.min k (Z.to_nat (room c))) s))) = Ok c2 /\
    sane c2 (skipn (Nat.min k (Z.to_nat (room c))) s).
Proof.
  intros (N & SM & D). cbn [step]. destruct (closed c) eqn:CL.
  { exists c. split; [reflexivity|]. split; [exact N|]. split; [exact SM|left; exact CL]. }
  destruct D as [D|(I & A & D)]; [congruence|]. pose proof (proj1 SM) as B.
  set (n := Nat.min k (Z.to_nat (room c))). assert (Hn : (n <= Z.to_nat (room c))%nat) by (subst n; lia). clearbody n.
  unfold room in Hn. cbn [receive]. set (r := fun c0 : client => receive E app fuel c0 (e_more E (log c0))).
  unfold on_client_event.
  destruct D as [(Q & todo & T & K)|(_ & BN & IB & len & l1 & l2 & todo & C & L1 & L2 & T & S)].
  - assert (C : cut c = None) by apply Q. rewrite C, I in *. cbn [Z.eqb negb]. cbn [Z.to_nat skipn] in K.
    change (skipn (Z.to_nat 0) (buf c)) with (buf c) in K.
    destruct (MSG_BUFFER_SIZE - zlen (buf c) <=? 0) eqn:SP.
    { eexists. split; [reflexivity|]. split; [exact N|]. split; [exact SM|left; reflexivity]. }
    apply Z.leb_gt in SP. unfold MSG_BUFFER_SIZE in *.
    destruct (firstn n s) as [|d0 d] eqn:D.
    { exists c. split; [reflexivity|]. apply sane_on; [exact N|exact I|exact B|]. split; [exact A|]. left.
      split; [exact Q|]. exists todo. split; [exact T|]. rewrite <- K. change (skipn (Z.to_nat 0) (buf c)) with (buf c). f_equal.
      destruct n; [reflexivity|]. destruct s; [reflexivity|discriminate]. }
    rewrite <- D. set (dd := firstn n s). assert (LD : (length dd <= n)%nat) by (subst dd; rewrite firstn_length; lia).
    rewrite ltb_f by sizes. set (bb := buf c ++ dd).
    replace (set_buf bb c) with (with_buf bb 0 c) by (clear - I; destruct c; cbn in I; subst; reflexivity).
    assert (LB : (length bb <= 4096)%nat) by (subst bb; rewrite app_length; rewrite zlen_len in *; lia).
    assert (KB : skipn (Z.to_nat 0) bb ++ skipn n s = concat todo).
    { change (skipn (Z.to_nat 0) bb) with bb. subst bb dd. rewrite <- app_assoc, firstn_skipn. exact K. }
    destruct (loop_fine r todo (Z.to_nat 4098) c bb 0 (skipn n s) Q A) as (c2 & i2 & R & I2 & C2 & A2 & LB2);
      [rewrite zlen_len; lia|exact T|exact KB|change (skipn (Z.to_nat 0) bb) with bb; lia|].
    rewrite R. cbn [bind]. change (buf (with_buf bb i2 c2)) with bb. change (idx (with_buf bb i2 c2)) with i2.
    rewrite ltb_f by lia. eexists. split; [reflexivity|].
    change (set_idx 0 (set_buf (skipn (Z.to_nat i2) bb) (with_buf bb i2 c2))) with (with_buf (skipn (Z.to_nat i2) bb) 0 c2).
    apply sane_on.
    { destruct LB2 as [(Q2 & _)|(N2 & _)]; [apply quiet_nofence in Q2; exact Q2|exact N2]. }
    { reflexivity. }
    { change (buf (with_buf (skipn (Z.to_nat i2) bb) 0 c2)) with (skipn (Z.to_nat i2) bb). rewrite zlen_len, skipn_length; lia. }
    change (buf (with_buf (skipn (Z.to_nat i2) bb) 0 c2)) with (skipn (Z.to_nat i2) bb). split; [exact A2|].
    destruct LB2 as [(Q2 & todo2 & T2 & K2)|(N2 & BN2 & IB2 & len & l1 & l2 & todo2 & CC & X1 & X2 & T2 & X3)].
    + left. split; [exact Q2|]. exists todo2. split; [exact T2|exact K2].
    + right. split; [exact N2|]. split; [exact BN2|].
      split; [rewrite IB2, skipn_all2 by (rewrite zlen_len; lia); reflexivity|].
      exists len, l1, l2, todo2. auto.
  - rewrite C in *. cbn [ct_length ct_data] in *.
    assert (LL : (n <= length l2)%nat) by sizes.
    assert (D2 : firstn n s = firstn n l2) by (rewrite S; apply fs_app; exact LL).
    assert (S2 : skipn n s = skipn n l2 ++ concat todo) by (rewrite S; apply sk_app; exact LL).
    rewrite D2. assert (LF : length (firstn n l2) = n) by (rewrite firstn_length; lia).
    destruct (firstn n l2) as [|d0 d] eqn:D.
    { exists c. split; [reflexivity|]. apply sane_on; [exact N|exact I|exact B|]. split; [exact A|]. right.
      cbn in LF. subst n. split; [exact N|]. split; [exact BN|]. split; [exact IB|]. exists len, l1, l2, todo. auto. }
    rewrite <- D. rewrite <- D in LF. clear D2 d0 d D.
    rewrite ltb_f by (unfold MSG_BUFFER_SIZE; rewrite (zlen_len (firstn n l2)), LF; lia).
    unfold big_cut_text. cbn [ct_length ct_data ct_zlib ct_provide].
    replace (len <=? zlen l1) with false by (symmetry; apply Z.leb_gt; lia).
    assert (B0 : buf c = []) by (destruct (buf c); [reflexivity|exfalso; unfold zlen in IB; cbn [length] in IB; lia]).
    destruct (zlen (l1 ++ firstn n l2) =? len) eqn:F; cbn [negb bind].
    + apply Z.eqb_eq in F. assert (N2 : n = length l2) by sizes.
      set (c1 := say (CutText (l1 ++ firstn n l2)) c).
      assert (C3 : exists c3, (if called c c1 then react E app r c1 else Ok c1) = Ok c3 /\ kept c1 c3).
      { destruct (called c c1); [apply react_fine; [exact STAYS|exact N]|exists c1; split; [reflexivity|apply kept_refl]]. }
      destruct C3 as (c3 & -> & K3). cbn [bind]. pose proof (kept_nofence _ _ K3 N) as N3. pose proof (kept_agreed g _ _ K3 A) as A3.
      destruct K3 as (K31 & _ & _ & KB & KI). change (buf c1) with (buf c) in KB. change (idx c1) with (idx c) in KI.
      assert (BN3 : block_next c3 = false) by (destruct K31 as (_ & _ & X & _); rewrite X; exact BN). clear K31.
      eexists. split; [reflexivity|]. apply sane_on.
      { exact N3. } { change (idx (set_cut None c3)) with (idx c3). congruence. }
      { change (buf (set_cut None c3)) with (buf c3). rewrite KB. exact B. }
      split; [exact A3|]. left.
      split; [split; [apply N3|split; [apply N3|split; [exact BN3|reflexivity]]]|].
      exists todo. split; [exact T|]. rewrite S2, N2, skipn_all. change (buf (set_cut None c3)) with (buf c3). rewrite KB, B0. reflexivity.
    + apply Z.eqb_neq in F. eexists. split; [reflexivity|]. apply sane_on; [exact N|exact I|exact B|]. split; [exact A|]. right.
      split; [exact N|]. split; [exact BN|]. split; [exact IB|]. exists len, (l1 ++ firstn n l2), (skipn n l2), todo.
      split; [reflexivity|]. split; [sizes|]. split; [rewrite <- app_assoc, firstn_skipn; exact L2|]. split; [exact T|exact S2].
Qed.

Lemma sane_kept c c' s : same c c' -> buf c' = buf c -> idx c' = idx c -> (agreed g c -> agreed g c') -> sane c s -> sane c' s.
Proof.
  intros S B I A (N & SM & D). split; [eapply nofence_same; eassumption|]. destruct S as (S1 & S2 & S3 & S4 & S5).
  split; [unfold bounded; rewrite B, S5; exact SM|].
  destruct D as [D|(D1 & D3 & D4)]; [left; congruence|]. right. split; [congruence|].
  rewrite B. split; [apply A; exact D3|]. destruct D4 as [(Q & X)|(N4 & BN & IB & X)].
  - left. split; [unfold quiet in *; intuition congruence|exact X].
  - right. split; [unfold nofence in *; intuition congruence|]. split; [congruence|]. split; [exact IB|]. rewrite S5. exact X.
Qed.

Lemma kept_sane c c' s : kept c c' -> sane c s -> sane c' s.
Proof. intros (S & K & X & B & I). apply sane_kept; try assumption. apply agreed_same; assumption. Qed.

Lemma other_fine fuel c s i : sane c s -> may_happen g (Meanwhile i) ->
  exists c2, step E app fuel c i = Ok c2 /\ sane c2 s.
Proof.
  intros D M. pose proof (proj1 D) as N. destruct i; cbn [step call]; [destruct M|..].
  - match goal with |- context [process_requests E ?r ?x] => destruct (process_fine E r x) as (c2 & R & K);
      [destruct (closed (set_disp (Some f) c)); exact N|]; exists c2; split; [exact R|]; eapply kept_sane; [exact K|];
      eapply kept_sane; [|exact D] end. destruct (closed (set_disp (Some f) c)); repeat split.
  - destruct (closed c) eqn:CL.
    + unfold finish_update. rewrite CL.
      match goal with |- context [complete_update E ?r ?x] => destruct (complete_fine E r x N) as (c2 & R & K) end.
      exists c2. split; [exact R|]. eapply kept_sane; [exact K|exact D].
    + destruct D as (_ & SM & [D|D]); [congruence|]. assert (A : agreed g c) by apply D.
      match goal with |- context [finish_update E ?r ?x ?y] => destruct (finish_fine E r g y x N A M) as (c2 & R & S & B & I & A2) end.
      exists c2. split; [exact R|]. eapply sane_kept; [exact S|exact B|exact I|intros _; exact A2|]. split; [exact N|]. split; [exact SM|right; exact D].
  - match goal with |- context [complete_update E ?r ?x] => destruct (complete_fine E r x N) as (c2 & R & K) end.
    exists c2. split; [exact R|]. eapply kept_sane; [exact K|exact D].
  - match goal with |- context [process_requests E ?r ?x] => destruct (process_fine E r x N) as (c2 & R & K) end.
    exists c2. split; [exact R|]. eapply kept_sane; [exact K|]. eapply kept_sane; [|exact D]. repeat split.
  - match goal with |- context [process_requests E ?r ?x] => destruct (process_fine E r x N) as (c2 & R & K) end.
    exists c2. split; [exact R|]. eapply kept_sane; [exact K|]. eapply kept_sane; [|exact D]. repeat split.
  - eexists. split; [reflexivity|]. split; [exact N|]. split; [apply D|left; reflexivity].
Qed.

Lemma live_fine fuel l : forall c s, Forall (may_happen g) l -> sane c s ->
  exists c2 s2, live_with E app fuel c s l = Ok (c2, s2) /\ sane c2 s2.
Proof.
  induction l as [|x l IH]; intros c s M D; [exists c, s; split; [reflexivity|exact D]|].
  apply Forall_cons_iff in M as [Mx M]. destruct x as [k|i]; cbn [live_with].
  - destruct (read_fine fuel c s k D) as (c2 & R & D2). cbn zeta. rewrite R. cbn [bind]. apply IH; assumption.
  - destruct (other_fine fuel c s i D Mx) as (c2 & R & D2). rewrite R. cbn [bind]. apply IH; assumption.
Qed.
End S.

Lemma start_sane E g c ms : starts g c -> Forall (ordinary g (e_experimental E)) ms -> sane E g c (concat ms).
Proof.
  intros (Q & B & I & A) T. apply sane_on; [apply quiet_nofence; exact Q|exact I|rewrite B; cbn; lia|]. rewrite B. split; [exact A|]. left. split; [exact Q|]. exists ms. split; [exact T|reflexivity].
Qed.

(* without calls everything is as in Msg_Model.v *)
Lemma on_message_silent E r c m : on_message E (fun _ => []) r c m = Msg_Model.on_message E r c m.
Proof.
  destruct (Z.eq_dec (hd 0 m) 3) as [H|H]; [|destruct (Z.eq_dec (hd 0 m) 251) as [H2|H2]].
  - destruct m as [|t m]; [discriminate H|]. cbn [hd] in H. subst t. cbn [on_message Msg_Model.on_message].
    unfold on_fb_update_request, Msg_Model.on_fb_update_request, react. cbn [calls bind]. reflexivity.
  - destruct m as [|t m]; [discriminate H2|]. cbn [hd] in H2. subst t. cbn [on_message Msg_Model.on_message].
    unfold on_set_desktop_size, Msg_Model.on_set_desktop_size, check_layout, Msg_Model.check_layout, react. cbn [calls bind].
    destruct (zlen _ <? 8); [reflexivity|]. cbn zeta. destruct (zlen _ <? _); [reflexivity|].
    destruct (existsb _ _); [reflexivity|]. destruct (e_layout E); reflexivity.
  - rewrite on_message_other by assumption. destruct (Msg_Model.on_message E r c m) as [[c1 n]|f]; [|reflexivity]. cbn [bind].
    destruct (called c c1); reflexivity.
Qed.

Lemma loop_silent E r fuel : forall c, message_loop E (fun _ => []) r fuel c = Msg_Model.message_loop E r fuel c.
Proof.
  induction fuel as [|fuel IH]; intros c; [reflexivity|]. cbn [message_loop Msg_Model.message_loop].
  destruct (blocked c); [reflexivity|]. destruct (zlen (buf c) <? idx c); [reflexivity|]. rewrite on_message_silent.
  destruct (Msg_Model.on_message _ _ _ _) as [[c1 n]|f]; [|reflexivity]. cbn [bind]. destruct (n =? 0); [reflexivity|apply IH].
Qed.

Lemma event_silent E r c d : on_client_event E (fun _ => []) r c d = Msg_Model.on_client_event E r c d.
Proof.
  unfold on_client_event, Msg_Model.on_client_event. destruct (cut c) as [t|].
  - destruct d as [[|x d]|]; [reflexivity| |reflexivity]. destruct (_ <? _); [reflexivity|].
    unfold big_cut_text, Msg_Model.big_cut_text. destruct (_ <=? _); [reflexivity|]. cbn zeta. destruct (negb _); [reflexivity|].
    destruct (if ct_zlib t then _ else _) as [c1|f]; [|reflexivity]. cbn [bind]. destruct (called c c1); reflexivity.
  - destruct (negb _); [reflexivity|]. cbn zeta. destruct (_ <=? _); [reflexivity|].
    destruct d as [[|x d]|]; [reflexivity| |reflexivity]. destruct (_ <? _); [reflexivity|]. rewrite loop_silent. reflexivity.
Qed.
