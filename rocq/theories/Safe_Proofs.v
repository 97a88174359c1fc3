(** Ordinary messages do no harm: handlers. *)
From Verif Require Import Common CommonProofs Msg_Model Msg_Spec Msg2_Spec Msg_Proofs Msg2_Proofs Msg3_Proofs Msg4_Proofs Msg6_Proofs Safe_Spec.

Definition kept (c c' : client) : Prop :=
  same c c' /\ known c' = known c /\ encs c' = encs c /\ buf c' = buf c /\ idx c' = idx c.

Lemma kept_refl c : kept c c.
Proof. repeat split. Qed.
Lemma kept_trans a b c : kept a b -> kept b c -> kept a c.
Proof. unfold kept, same. intuition congruence. Qed.
Lemma kept_nofence c c' : kept c c' -> nofence c -> nofence c'.
Proof. intros (S & _). apply nofence_same. exact S. Qed.

Section S.
Variable E : env.
Variable r : client -> res client.

Lemma answered_fine sent c k : nofence c -> updating c = false ->
  (forall c2, kept c c2 -> updating c2 = false -> exists c', k c2 = Ok c' /\ kept c2 c') ->
  exists c', answered r sent c k = Ok c' /\ kept c c'.
Proof.
  intros N U K. unfold answered. destruct sent; [|apply K; [apply kept_refl|exact U]].
  unfold decrement_pending. rewrite U. destruct (cu_on c).
  - cbn [bind]. change (1 <=? 0) with false. apply K; [apply kept_refl|exact U].
  - unfold process_pending_fence. destruct N as [N1 N2]. rewrite N1, N2. cbn [Z.eqb bind].
    destruct (pending (set_pending (pending c - 1) c) <=? 0).
    + eexists. split; [reflexivity|]. repeat split.
    + destruct (K (set_pending (pending c - 1) c) ltac:(repeat split) U) as (c' & R & Q). exists c'. split; [exact R|].
      eapply kept_trans; [|exact Q]. repeat split.
Qed.

Lemma send_frame_fine f c : exists c', send_frame E f c = Ok c' /\ kept c c'.
Proof.
  unfold send_frame. destruct (negb (has_damage c)); [eexists; split; [reflexivity|apply kept_refl]|].
  destruct (e_limited E (log c) (inflight c) (min_rtt c)); [eexists; split; [reflexivity|apply kept_refl]|].
  unfold start_encoding, ensure_encoder.
  destruct (match encoder c with Some k => k =? choose_encoding E (fb_gbm f) (encs c) | None => false end); cbn [negb].
  - destruct (e_encode E _); [destruct (0 <? pending _)|]; (eexists; split; [reflexivity|repeat split]).
  - destruct (e_encoder E (log c) _); cbn [negb]; [|eexists; split; [reflexivity|repeat split]].
    destruct (e_encode E _); [destruct (0 <? pending _)|]; (eexists; split; [reflexivity|repeat split]).
Qed.

Lemma process_fine c : nofence c -> exists c', process_requests E r c = Ok c' /\ kept c c'.
Proof.
  intros N. unfold process_requests. destruct (closed c); [eexists; split; [reflexivity|apply kept_refl]|].
  destruct (disp c) as [f|]; [|eexists; split; [reflexivity|apply kept_refl]].
  destruct (updating c) eqn:U; [eexists; split; [reflexivity|apply kept_refl]|].
  destruct (negb (cu_on c) && (pending c =? 0)); [eexists; split; [reflexivity|apply kept_refl]|].
  assert (X : forall p, p = (if ext_notified c then (c, false) else send_ext_support (set_ext_notified true c)) ->
             kept c (fst p) /\ updating (fst p) = false).
  { intros p ->. destruct (ext_notified c); [split; [apply kept_refl|exact U]|]. unfold send_ext_support.
    destruct (negb _ && negb _); (split; [repeat split|exact U]). }
  destruct (if ext_notified c then (c, false) else send_ext_support (set_ext_notified true c)) as [c1 s1] eqn:Q.
  destruct (X _ eq_refl) as [K1 U1]. cbn [fst] in K1, U1.
  destruct (answered_fine s1 c1 (fun c =>
        let cur := negb (srv_seq c =? cur_seq c) && has_encoding c ENC_CURSOR in
        answered r cur (if cur then send_cursor_update E c else c) (fun c =>
        let '(c, sent) := send_led_state c in
        answered r sent c (fun c => send_frame E f c))) (kept_nofence _ _ K1 N) U1) as (c' & R & K').
  2:{ exists c'. split; [exact R|eapply kept_trans; eassumption]. }
  intros c2 K2 U2. cbn zeta. assert (N2 : nofence c2) by (eapply kept_nofence; [exact K2|]; eapply kept_nofence; [exact K1|exact N]).
  set (cur := negb (srv_seq c2 =? cur_seq c2) && has_encoding c2 ENC_CURSOR).
  assert (KC : kept c2 (if cur then send_cursor_update E c2 else c2) /\
               updating (if cur then send_cursor_update E c2 else c2) = false).
  { destruct cur; [|split; [apply kept_refl|exact U2]]. unfold send_cursor_update.
    destruct (e_cursor E (log c2) (fmt c2)); (split; [repeat split|exact U2]). }
  destruct KC as [KC UC].
  destruct (answered_fine cur (if cur then send_cursor_update E c2 else c2) (fun c =>
        let '(c, sent) := send_led_state c in
        answered r sent c (fun c => send_frame E f c)) (kept_nofence _ _ KC N2) UC) as (c3 & R3 & K3).
  2:{ exists c3. split; [exact R3|eapply kept_trans; eassumption]. }
  intros c4 K4 U4. assert (N4 : nofence c4) by (eapply kept_nofence; [exact K4|]; eapply kept_nofence; [exact KC|exact N2]).
  destruct (send_led_state c4) as [c5 s5] eqn:LS.
  assert (K5 : kept c4 c5 /\ updating c5 = false).
  { unfold send_led_state in LS. destruct (led_want c4 =? led c4); [injection LS as <- <-; split; [apply kept_refl|exact U4]|].
    destruct (negb _ && negb _); apply pair_equal_spec in LS as [<- _]; (split; [repeat split|exact U4]). }
  destruct K5 as [K5 U5].
  destruct (answered_fine s5 c5 (fun c => send_frame E f c) (kept_nofence _ _ K5 N4) U5) as (c6 & R6 & K6).
  2:{ exists c6. split; [exact R6|eapply kept_trans; eassumption]. }
  intros c7 _ _. apply send_frame_fine.
Qed.

Lemma complete_fine c : nofence c -> exists c', complete_update E r c = Ok c' /\ kept c c'.
Proof.
  intros N. unfold complete_update. destruct (negb (updating c)); [eexists; split; [reflexivity|apply kept_refl]|].
  destruct (process_fine (say Completed (set_updating false c)) N) as (c' & R & K). exists c'. split; [exact R|].
  eapply kept_trans; [|exact K]. repeat split.
Qed.
End S.

(** Sizes as agreed on. *)
Definition agreed (g : agreement) (c : client) : Prop :=
  match g with
  | Fixed w h => known c = (w, h) /\ ~ In (-308) (encs c)
  | Resizable => In (-223) (encs c) \/ In (-308) (encs c)
  end.

Lemma agreed_same g c c' : known c' = known c -> encs c' = encs c -> agreed g c -> agreed g c'.
Proof. intros K X. unfold agreed. rewrite K, X. auto. Qed.

Lemma has_in c e : has_encoding c e = true <-> In e (encs c).
Proof.
  unfold has_encoding. rewrite existsb_exists. split.
  - intros (x & I & Q). apply Z.eqb_eq in Q. subst. exact I.
  - intros I. exists e. split; [exact I|apply Z.eqb_refl].
Qed.

(** A new size is only ever told to a client that can be told. *)
Lemma finish_fine E r g c f : nofence c -> agreed g c -> may_happen g (Meanwhile (IEncoded f)) ->
  exists c', finish_update E r f c = Ok c' /\ same c c' /\ buf c' = buf c /\ idx c' = idx c /\ agreed g c'.
Proof.
  intros N A M. unfold finish_update.
  assert (Z0 : forall c1, kept c c1 -> exists c', complete_update E r c1 = Ok c' /\ same c c' /\ buf c' = buf c /\ idx c' = idx c /\ agreed g c').
  { intros c1 K1. destruct (complete_fine E r c1 (kept_nofence _ _ K1 N)) as (c' & R & K'). exists c'. split; [exact R|].
    destruct (kept_trans _ _ _ K1 K') as (S & KN & EN & B & I). repeat split; try assumption; try apply S. eapply agreed_same; eassumption. }
  destruct (closed c); [apply Z0, kept_refl|].
  destruct (fmt_changed c && negb (has_encoding c ENC_FENCE)); [apply Z0; repeat split|].
  set (pts := pts_rect c f). set (resized := negb ((fst (known c) =? f_w f) && (snd (known c) =? f_h f))).
  assert (NF : resized && negb (supports_resizing c) = false).
  { destruct g as [w h|]; cbn [agreed may_happen] in A, M.
    - destruct A as [A _], M as [M1 M2]. subst resized. rewrite A, M1, M2. cbn [fst snd]. rewrite !Z.eqb_refl. reflexivity.
    - replace (supports_resizing c) with true; [apply andb_false_r|]. symmetry. unfold supports_resizing. apply orb_true_iff.
      destruct A as [A|A]; [left|right]; apply has_in; exact A. }
  rewrite NF. cbn zeta.
  set (c1 := if resized then set_damage (union_rect (damage c) 0 0 (f_w f) (f_h f)) (set_known (f_w f, f_h f) c) else c).
  assert (S1 : same c c1 /\ buf c1 = buf c /\ idx c1 = idx c /\ agreed g c1).
  { subst c1. destruct resized eqn:RS; [|repeat split; exact A]. repeat split.
    destruct g as [w h|]; cbn [agreed may_happen] in *; [|exact A].
    destruct A as [A _], M as [M1 M2]. subst resized. rewrite A, M1, M2 in RS. cbn [fst snd] in RS. rewrite !Z.eqb_refl in RS. discriminate RS. }
  clearbody c1.
  match goal with |- context [e_sync E (log ?x)] => set (c2 := x) end.
  assert (S2 : same c c2 /\ buf c2 = buf c /\ idx c2 = idx c /\ agreed g c2).
  { destruct S1 as (S1 & B1 & I1 & A1). repeat split; try apply S1; try assumption. }
  clearbody c2. assert (N2 : nofence c2) by (eapply nofence_same; [apply S2|exact N]).
  assert (C3 : exists c3, (if e_sync E (log c2) then complete_update E r c2 else Ok c2) = Ok c3 /\ kept c2 c3).
  { destruct (e_sync E (log c2)); [apply complete_fine; exact N2|eexists; split; [reflexivity|apply kept_refl]]. }
  destruct C3 as (c3 & -> & K3). cbn [bind].
  assert (K4 : kept c3 (send_ping E (zlen (f_data f)) c3)).
  { unfold send_ping. repeat match goal with |- context [if ?b then _ else _] => destruct b end; repeat split. }
  set (c4 := send_ping E (zlen (f_data f)) c3) in *. clearbody c4.
  pose proof (kept_trans _ _ _ K3 K4) as K. assert (N4 : nofence c4) by (eapply kept_nofence; [exact K|exact N2]).
  exists c4. split.
  - unfold process_pending_fence. destruct N4 as [-> ->]. reflexivity.
  - destruct S2 as (S2 & B2 & I2 & A2), K as (S & KN & EN & B & I).
    split; [eapply same_trans; eassumption|]. split; [congruence|]. split; [congruence|]. eapply agreed_same; eassumption.
Qed.

Definition held (c c' : client) : Prop := same c c' /\ buf c' = buf c /\ idx c' = idx c.

(** One ordinary message, complete: accepted as a whole, or left for later. *)
Lemma ordinary_fine E r g c m : quiet c -> agreed g c -> ordinary g (e_experimental E) m ->
  exists c1 n, on_message E r c m = Ok (c1, n) /\ (n = zlen m \/ (n = 0 /\ c1 = c)) /\ held c c1 /\ agreed g c1.
Proof.
  intros Q A O. assert (N : nofence c) by (apply quiet_nofence; exact Q). destruct O.
  - cbn [on_message]. unfold on_set_pixel_format. rewrite ltb_f by sizes. eexists _, _. split; [reflexivity|].
    split; [left; sizes|]. destruct (u8 _ 3 =? 0); (split; [repeat split|exact A]).
  - assert (ZL : zlen l < 2 ^ 16) by lia.
    destruct (on_set_encodings E c (set_encodings_msg p l)) as [c1 n] eqn:R.
    assert (R2 : on_message E r c (set_encodings_msg p l) = Ok (c1, n)) by (rewrite <- R; reflexivity).
    destruct (set_encodings_effect E r c p l c1 n H0 ZL R2) as (EN & _ & NN).
    rewrite scan_kept in EN by (cbn; lia). cbn [app length Nat.sub] in EN.
    exists c1, n. split; [exact R2|].
    assert (LEN : n = zlen (set_encodings_msg p l)).
    { rewrite NN. unfold set_encodings_msg, zlen. rewrite !app_length, be_length. cbn [length]. clear.
      enough (X : length (flat_map (fun e => be 4 (e mod 2 ^ 32)) l) = (4 * length l)%nat) by lia.
      induction l as [|e l IH]; [reflexivity|]. cbn [flat_map length]. rewrite app_length, be_length, IH. lia. }
    split; [left; exact LEN|].
    assert (KS : held c c1 /\ known c1 = known c).
    { unfold on_set_encodings in R. destruct (zlen _ <? 4); [apply pair_equal_spec in R as [<- _]; repeat split|].
      destruct (zlen _ <? _); [apply pair_equal_spec in R as [<- _]; repeat split|].
      destruct (scan_encodings _ _ _ _) as [kk qq]. apply pair_equal_spec in R as [<- _].
      unfold send_ping, send_clipboard_caps.
      repeat match goal with |- context [if ?b then _ else _] => destruct b end; repeat split. }
    destruct KS as [SS KK]. split; [exact SS|].
    destruct g as [w h|]; cbn [agreed may_list] in *; rewrite EN; [|exact H1].
    split; [rewrite KK; apply A|]. intros X. apply H1.
    assert (X' : In (-308) (filter (is_known (e_experimental E)) l)).
    { rewrite <- (firstn_skipn 32 (filter _ _)). apply in_or_app. left. exact X. }
    apply filter_In in X' as [X' _]. exact X'.
  - cbn [on_message]. unfold on_fb_update_request. rewrite ltb_f by sizes. cbn zeta.
    destruct (negb (u8 (3 :: l) 1 =? 0) && cu_on c); [exists c, 0; split; [reflexivity|]; split; [right; split; reflexivity|]; split; [repeat split|exact A]|].
    match goal with |- context [process_requests E r ?x] => set (c1 := x) end.
    assert (S1 : held c c1 /\ agreed g c1).
    { subst c1. destruct (u8 (3 :: l) 1 =? 0); cbn [andb].
      - destruct (encoder _); (match goal with |- context [has_encoding ?x ENC_EXTDESKTOPSIZE] =>
          change (has_encoding x ENC_EXTDESKTOPSIZE) with (has_encoding c ENC_EXTDESKTOPSIZE) end);
        destruct (has_encoding c ENC_EXTDESKTOPSIZE) eqn:XD; (split; [repeat split|]); try exact A;
        (destruct g as [w h|]; cbn [agreed] in *; [|exact A]; exfalso; apply (proj2 A); apply has_in; exact XD).
      - split; [repeat split|exact A]. }
    clearbody c1. destruct S1 as [S1 A1].
    destruct (process_fine E r c1 (nofence_same _ _ (proj1 S1) N)) as (c2 & R2 & K2). rewrite R2. cbn [bind].
    exists c2, 10. split; [reflexivity|]. split; [left; sizes|].
    destruct K2 as (S2 & KN & EN & B2 & I2), S1 as (S1 & B1 & I1). split; [split; [eapply same_trans; eassumption|split; congruence]|eapply agreed_same; eassumption].
  - cbn [on_message]. unfold on_key. rewrite ltb_f by sizes. eexists _, _. split; [reflexivity|]. split; [left; sizes|]. split; [repeat split|exact A].
  - cbn [on_message]. unfold on_pointer. rewrite ltb_f by sizes. eexists _, _. split; [reflexivity|]. split; [left; sizes|]. split; [repeat split|exact A].
  - unfold cut_text_msg. rewrite on_message_cut_whole by (try reflexivity; rewrite zlen_len in *; lia).
    eexists _, _. split; [reflexivity|]. split; [left; sizes|]. split; [repeat split|exact A].
  - cbn [on_message]. unfold on_enable_continuous_updates. rewrite ltb_f by sizes. cbn zeta.
    destruct (negb (u8 (150 :: l) 1 =? 0)).
    + match goal with |- context [process_requests E r ?x] => set (c1 := x) end.
      destruct (process_fine E r c1 N) as (c2 & R2 & K2). rewrite R2. cbn [bind].
      exists c2, 10. split; [reflexivity|]. split; [left; sizes|]. destruct K2 as (S2 & KN & EN & B2 & I2).
      split; [split; [exact S2|split; [exact B2|exact I2]]|eapply agreed_same; [exact KN|exact EN|exact A]].
    + eexists _, _. split; [reflexivity|]. split; [left; sizes|]. split; [repeat split|exact A].
  - unfold qemu_key_msg. assert (ZL : zlen ([255; 0] ++ be 2 down ++ be 4 sym ++ be 4 code) = 12) by sizes.
    cbn [on_message app]. unfold on_qemu, on_qemu_key.
    change (255 :: 0 :: be 2 down ++ be 4 sym ++ be 4 code) with ([255; 0] ++ be 2 down ++ be 4 sym ++ be 4 code) in *.
    rewrite ZL. cbn [Z.ltb Z.compare Pos.compare Pos.compare_cont]. change (u8 _ 1) with 0. cbn [Z.eqb].
    replace (u32 ([255; 0] ++ be 2 down ++ be 4 sym ++ be 4 code) 8) with code.
    2:{ unfold u32. rewrite app_assoc, app_assoc, skipn_app_eq by (rewrite !app_length, !be_length; reflexivity).
        rewrite (firstn_all2 (n := 4) (be 4 code)) by (rewrite be_length; lia). symmetry. apply unbe_be. cbn. lia. }
    destruct (nth_error qnum_to_linux (Z.to_nat code)) eqn:NE.
    + eexists _, _. split; [reflexivity|]. split; [left; reflexivity|]. split; [repeat split|exact A].
    + exfalso. apply nth_error_None in NE. change (length qnum_to_linux) with 254%nat in NE. lia.
  - cbn [on_message app]. unfold on_set_desktop_size. rewrite ltb_f by sizes. cbn zeta.
    change (u8 (251 :: p :: w1 :: w2 :: h1 :: h2 :: n :: q :: l) 6) with n. rewrite ltb_f by sizes.
    unfold check_layout. destruct (existsb _ _).
    + eexists _, _. split; [reflexivity|]. split; [left; sizes|]. split; [repeat split|exact A].
    + destruct (e_layout E); (eexists _, _; split; [reflexivity|]; split; [left; sizes|]; split; [repeat split|exact A]).
  - unfold ntp_msg. cbn [on_message app]. unfold on_ntp.
    change (160 :: a :: b :: c0 :: be 4 t0 ++ be 4 t1 ++ be 4 t2 ++ be 4 t3)
      with ([160; a; b; c0] ++ be 4 t0 ++ be 4 t1 ++ be 4 t2 ++ be 4 t3).
    rewrite ltb_f by sizes. cbn zeta.
    assert (U : forall k x y t, length x = k -> 0 <= t < 2 ^ 32 -> u32 (x ++ be 4 t ++ y) k = t).
    { intros k x y t L T. unfold u32. rewrite skipn_app_eq by exact L. rewrite firstn_app_eq by (rewrite be_length; reflexivity).
      apply unbe_be. cbn. lia. }
    set (M := [160; a; b; c0] ++ be 4 t0 ++ be 4 t1 ++ be 4 t2 ++ be 4 t3).
    assert (U0 : u32 M 4 = t0) by (apply U; [reflexivity|assumption]).
    assert (U1 : u32 M 8 = t1) by (unfold M; rewrite app_assoc; apply U; [rewrite app_length, be_length; reflexivity|assumption]).
    assert (U2 : u32 M 12 = t2) by (unfold M; rewrite app_assoc, app_assoc; apply U; [rewrite !app_length, !be_length; reflexivity|assumption]).
    assert (U3 : u32 M 16 = t3).
    { unfold M. rewrite app_assoc, app_assoc, app_assoc. rewrite <- (app_nil_r (be 4 t3)). apply U; [rewrite !app_length, !be_length; reflexivity|assumption]. }
    rewrite U0, U1, U2, U3. assert (ZM : zlen M = 20) by (unfold M; sizes).
    destruct (t3 =? 0) eqn:T3; cbn [negb].
    + eexists _, _. split; [reflexivity|]. split; [left; lia|]. split; [repeat split|exact A].
    + destruct H3 as [H3|[H3 H4]]; [lia|]. unfold int32, later in H3, H4.
      match goal with |- context [if ?x then Ok (c, 20) else _] => replace x with true by (symmetry; rewrite !andb_true_iff, !Z.leb_le, !Z.ltb_lt; lia) end.
      eexists _, _. split; [reflexivity|]. split; [left; lia|]. split; [repeat split|exact A].
Qed.
