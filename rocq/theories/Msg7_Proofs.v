(** Updates, fences, cut text and input events. *)
From Verif Require Import Common CommonProofs Pixels_Model Msg_Model Msg_Proofs Msg_Spec
  Msg2_Spec Msg3_Proofs Msg4_Proofs Upd_Proofs Msg5_Proofs Msg6_Proofs.

(** ** The rectangle count *)
Lemma pseudo_one head e body : length head = 8%nat -> - 2 ^ 31 <= e < 2 ^ 31 ->
  payload_size e body = Some (zlen body) -> forall l n, pseudo_rects l n ->
  pseudo_rects ((head ++ be 4 (e mod 2 ^ 32) ++ body) ++ l) (n + 1).
Proof. intros. rewrite <- !app_assoc. apply p_cons; assumption. Qed.

Lemma rect_head_eq x y w h e : rect_head x y w h e = (be 2 x ++ be 2 y ++ be 2 w ++ be 2 h) ++ be 4 (e mod 2 ^ 32).
Proof. unfold rect_head, pattern32. rewrite <- !app_assoc. reflexivity. Qed.

Lemma head8 x y w h : length (be 2 x ++ be 2 y ++ be 2 w ++ be 2 h) = 8%nat.
Proof. rewrite !app_length, !be_length. reflexivity. Qed.

Lemma pseudo_head x y w h e body l n : - 2 ^ 31 <= e < 2 ^ 31 ->
  payload_size e body = Some (zlen body) -> pseudo_rects l n ->
  pseudo_rects (rect_head x y w h e ++ body ++ l) (n + 1).
Proof.
  intros R P L. rewrite rect_head_eq, <- app_assoc. apply p_cons; try assumption. apply head8.
Qed.

Lemma resize_pseudo c w h l n : pseudo_rects l n -> pseudo_rects (resize_rect c w h ++ l) (n + 1).
Proof.
  intros L. unfold resize_rect. destruct (has_encoding _ _).
  - unfold ext_size_rect. rewrite <- app_assoc.
    apply pseudo_head; [unfold ENC_EXTDESKTOPSIZE; lia| |exact L].
    unfold zlen. rewrite !app_length, !be_length. reflexivity.
  - change (rect_head 0 0 w h ENC_DESKTOPSIZE ++ l) with (rect_head 0 0 w h ENC_DESKTOPSIZE ++ [] ++ l).
    apply pseudo_head; [unfold ENC_DESKTOPSIZE; lia|reflexivity|exact L].
Qed.

Lemma frame_update E r f c c' : (forall c c', r c = Ok c' -> mv c c') ->
  closed c = false -> fmt_changed c && negb (has_encoding c ENC_FENCE) = false ->
  finish_update E r f c = Ok c' ->
  exists pseudo k new, pseudo_rects pseudo k /\ 0 <= k <= 2 /\
    log c' = log c ++
      Update KFrame ([0; 0] ++ be 2 ((f_rects f + k) mod 2 ^ 16) ++ pseudo ++ f_data f) :: new.
Proof.
  intros R CL DR. unfold finish_update. rewrite CL, DR. cbv zeta.
  set (resized := negb (_ && _)). destruct (resized && _); [discriminate|].
  set (pts := pts_rect c f). set (np := if match pts with [] => true | _ => false end then 0 else 1).
  assert (P : pseudo_rects (pts ++ []) np /\ 0 <= np <= 1).
  { subst np pts. unfold pts_rect. destruct (f_pts f) as [t|]; [|split; [constructor|lia]].
    destruct (has_encoding c ENC_PTS); [|split; [constructor|lia]]. split; [|cbn; lia].
    change 1 with (0 + 1). rewrite <- app_assoc.
    apply pseudo_head; [unfold ENC_PTS; lia| |constructor].
    unfold zlen. rewrite be_length. reflexivity. }
  rewrite app_nil_r in P. destruct P as [P P1].
  set (rs := if resized then resize_rect c (f_w f) (f_h f) else []).
  set (nr := if resized then f_rects f + np + 1 else f_rects f + np).
  assert (Q : exists k, pseudo_rects (rs ++ pts) k /\ 0 <= k <= 2 /\ nr = f_rects f + k).
  { subst rs nr. destruct resized.
    - exists (np + 1). split; [apply resize_pseudo; exact P|]. lia.
    - exists np. split; [exact P|]. lia. }
  destruct Q as (k & Q & K & N). clearbody nr. subst nr.
  set (c1 := if resized then set_damage _ _ else c).
  assert (L1 : log c1 = log c) by (subst c1; destruct resized; reflexivity). clearbody c1.
  intros H. apply bind_ok in H as (c3 & H & H2).
  set (o := Update KFrame _) in H. set (c2 := say o c1) in H.
  assert (M3 : mv c2 c3).
  { destruct (e_sync _ _); [apply (complete_mv E r R) in H; exact H|].
    apply ok_inj in H. subst c3. apply mv_refl. }
  apply (ppf_mv r R) in H2.
  assert (M : mv c2 c') by (eapply mv_trans; [exact M3|]; eapply mv_trans; [apply ping_mv|exact H2]).
  apply mv_log in M as [t T]. exists (rs ++ pts), k, t. split; [exact Q|]. split; [exact K|].
  rewrite T. cbn [c2 say log set_log]. rewrite L1, <- app_assoc. cbn [app].
  unfold o, update_head. rewrite <- !app_assoc. reflexivity.
Qed.

Lemma ext_support_update c c' : send_ext_support c = (c', true) ->
  exists k body, pseudo_rects body k /\ 1 <= k <= 2 /\
    log c' = log c ++ [Update KExt ([0; 0] ++ be 2 k ++ body)].
Proof.
  unfold send_ext_support. set (q := has_encoding c ENC_QEMU_KEY). set (n := has_encoding c ENC_NTP).
  destruct (negb q && negb n) eqn:Z; [discriminate|].
  intros H. apply (f_equal fst) in H. cbn [fst] in H. subst c'.
  exists (Z.b2z q + Z.b2z n), ((if q then rect_head 0 0 0 0 ENC_QEMU_KEY else []) ++
      (if n then rect_head 0 0 0 0 ENC_NTP else [])).
  split; [|split].
  - assert (N : pseudo_rects (if n then rect_head 0 0 0 0 ENC_NTP else []) (Z.b2z n)).
    { destruct n; [|constructor]. change (rect_head 0 0 0 0 ENC_NTP) with (rect_head 0 0 0 0 ENC_NTP ++ [] ++ []).
      apply (pseudo_head 0 0 0 0 ENC_NTP [] [] 0); [unfold ENC_NTP; lia|reflexivity|constructor]. }
    destruct q; [|exact N]. rewrite Z.add_comm.
    apply (pseudo_head 0 0 0 0 ENC_QEMU_KEY []); [unfold ENC_QEMU_KEY; lia|reflexivity|exact N].
  - destruct q, n; cbn in *; try discriminate; lia.
  - cbn [say log set_log]. destruct q, n; reflexivity.
Qed.

Lemma led_effect c : has_encoding c ENC_QEMU_LED = true -> led_want c <> led c ->
  send_led_state c =
  (set_led (led_want c) (say (Update KLed ([0; 0] ++ be 2 1 ++ be 2 0 ++ be 2 0 ++ be 2 0 ++ be 2 0 ++
      be 4 (-261 mod 2 ^ 32) ++ [led_want c mod 256])) c), true).
Proof.
  intros Q N. unfold send_led_state. replace (led_want c =? led c) with false by lia.
  rewrite Q. cbn [negb andb]. reflexivity.
Qed.

(** ** Fences *)
Lemma fence_parts p1 p2 p3 flags payload : 0 <= flags < 2 ^ 32 ->
  let m := fence_msg p1 p2 p3 flags payload in
  zlen m = 9 + zlen payload /\ u32 m 4 = flags /\ u8 m 8 = zlen payload /\
  firstn (Z.to_nat (zlen payload)) (skipn 9 m) = payload.
Proof.
  intros F m. subst m. unfold fence_msg. split; [|split; [|split]].
  - unfold zlen. rewrite !app_length, be_length. cbn [length]. lia.
  - apply u32_at; auto.
  - rewrite app_assoc. apply u8_at. rewrite app_length, be_length. reflexivity.
  - rewrite !app_assoc. rewrite skipn_app_eq by (rewrite !app_length, be_length; reflexivity).
    replace (Z.to_nat (zlen payload)) with (length payload) by (unfold zlen; lia). apply firstn_all.
Qed.

Lemma fence_msg_eq E r c p1 p2 p3 flags payload : 2 ^ 31 <= flags < 2 ^ 32 -> zlen payload <= 64 ->
  on_message E r c (fence_msg p1 p2 p3 flags payload) =
  (let '(c, ok) := on_fence_request flags payload c in
   Ok (c, if ok then zlen (fence_msg p1 p2 p3 flags payload) else 0)).
Proof.
  intros F P. destruct (fence_parts p1 p2 p3 flags payload) as (A & B & C & D); [lia|].
  pose proof (zlen_pos payload).
  unfold on_message. unfold fence_msg at 1. cbn [app]. unfold on_fence.
  rewrite A, B, C, D. rewrite !ltb_f by lia. cbn zeta.
  replace (2 ^ 31 <=? flags) with true by lia.
  destruct (on_fence_request _ _ _) as [c1 ok]. destruct ok; reflexivity.
Qed.

Lemma fence_now E r c p1 p2 p3 flags payload : 2 ^ 31 <= flags < 2 ^ 32 -> zlen payload <= 64 ->
  pending c = 0 -> updating c = false -> pf_n c = 0 ->
  let m := fence_msg p1 p2 p3 flags payload in
  on_message E r c m =
  Ok (say (Sent (fence_msg 0 0 0 (Z.land flags 7) payload))
        (say (FenceReq (Z.land flags 7) payload) c), zlen m).
Proof.
  intros F P A B C m. subst m. rewrite fence_msg_eq by assumption.
  unfold on_fence_request. rewrite A. cbn [Z.ltb Z.compare].
  change (pending (say _ c)) with (pending c). change (updating (say _ c)) with (updating c).
  rewrite A, B. cbn [Z.b2z Z.add Z.ltb Z.compare]. rewrite !andb_false_r.
  change (pf_n (say _ c)) with (pf_n c). rewrite C. reflexivity.
Qed.

Lemma fence_wait E r c p1 p2 p3 flags payload : 2 ^ 31 <= flags < 2 ^ 32 -> zlen payload <= 64 ->
  pending c = 0 -> updating c = true -> Z.land flags 1 <> 0 ->
  let m := fence_msg p1 p2 p3 flags payload in
  exists c', on_message E r c m = Ok (c', zlen m) /\
    log c' = log c ++ [FenceReq (Z.land flags 7) payload] /\
    pf_n c' = 1 /\ pf_flags c' = Z.land flags 7 /\ pf_payload c' = payload /\
    updating c' = true /\ closed c' = closed c /\ fmt_changed c' = fmt_changed c /\ encs c' = encs c.
Proof.
  intros F P A B C m. subst m. rewrite fence_msg_eq by assumption.
  unfold on_fence_request. rewrite A. cbn [Z.ltb Z.compare].
  change (pending (say _ c)) with (pending c). change (updating (say _ c)) with (updating c).
  rewrite A, B. cbn [Z.b2z Z.add Z.ltb Z.compare].
  assert (G : flag (Z.land flags 7) 1 = true).
  { unfold flag. rewrite <- Z.land_assoc. change (Z.land 7 1) with 1. lia. }
  rewrite G. cbn [andb]. eexists. split; [reflexivity|]. repeat split. exact B.
Qed.

(* the answer that was put off is sent right after the frame *)
Lemma fence_done E r f c c' : (forall c c', r c = Ok c' -> mv c c') ->
  pf_n c = 1 -> closed c = false -> fmt_changed c && negb (has_encoding c ENC_FENCE) = false ->
  (forall l, e_sync E l = false) -> finish_update E r f c = Ok c' ->
  exists u ping rest, log c' = log c ++ [Update KFrame u] ++ ping ++
    [Sent (fence_msg 0 0 0 (pf_flags c) (pf_payload c))] ++ rest /\ (length ping <= 1)%nat.
Proof.
  intros R PF CL DR SY. unfold finish_update. rewrite CL, DR. cbv zeta.
  set (resized := negb (_ && _)). destruct (resized && _); [discriminate|].
  set (c1 := if resized then set_damage _ _ else c).
  assert (L1 : log c1 = log c /\ pf_n c1 = 1 /\ pf_flags c1 = pf_flags c /\ pf_payload c1 = pf_payload c)
    by (subst c1; destruct resized; auto).
  clearbody c1. set (o := Update KFrame _). set (c2 := say o c1).
  rewrite SY. cbn [bind].
  assert (X : exists ping, (length ping <= 1)%nat /\
     let c3 := send_ping E (zlen (f_data f)) c2 in
     log c3 = log c ++ [o] ++ ping /\ pf_n c3 = 1 /\ pf_flags c3 = pf_flags c /\ pf_payload c3 = pf_payload c).
  { unfold send_ping. destruct L1 as (L1 & L2 & L3 & L4). destruct (negb (has_encoding c2 _)).
    - exists []. split; [cbn; lia|]. cbn. rewrite L1. auto.
    - eexists [_]. split; [cbn; lia|]. cbn. rewrite L1, <- app_assoc. cbn. auto. }
  destruct X as (ping & LP & X). cbv zeta in X. destruct X as (X1 & X2 & X3 & X4).
  set (c3 := send_ping _ _ _) in *. clearbody c3. clearbody c2.
  unfold process_pending_fence. rewrite X2. cbn [Z.eqb].
  change (pf_n (set_pf_n (1 - 1) c3)) with 0. cbn [Z.eqb negb].
  intros H. apply R in H. apply mv_log in H as [rest L].
  eexists _, ping, rest. split; [|exact LP]. rewrite L. cbn. rewrite X1, X3, X4.
  rewrite <- !app_assoc. reflexivity.
Qed.

(** ** Legacy cut text *)
Lemma cut_text_handled E c p1 p2 p3 text : zlen text <= 10000000 ->
  on_message E (fun c => Ok c) c (cut_text_msg p1 p2 p3 text) =
  Ok (say (CutText text) c, zlen (cut_text_msg p1 p2 p3 text)).
Proof.
  intros N. unfold cut_text_msg, on_message. cbn [app]. unfold on_cut_text.
  pose proof (zlen_pos text).
  assert (ZL : zlen (6 :: p1 :: p2 :: p3 :: be 4 (zlen text) ++ text) = 8 + zlen text).
  { unfold zlen. cbn [length]. rewrite app_length, be_length. lia. }
  rewrite ZL. rewrite ltb_f by lia.
  change (6 :: p1 :: p2 :: p3 :: ?x) with ([6; p1; p2; p3] ++ x) in *.
  unfold i32, on_plain_cut_text. rewrite !u32_at by (auto; lia).
  rewrite small_signed by lia. rewrite ltb_f by lia. rewrite andb_false_r.
  unfold MAX_CUT_TEXT_SIZE. rewrite ltb_f by lia. rewrite ZL.
  replace (_ <=? _) with true by lia. rewrite app_assoc.
  rewrite skipn_app_eq by (rewrite app_length, be_length; reflexivity).
  replace (Z.to_nat (zlen text)) with (length text) by (unfold zlen; lia).
  rewrite firstn_all. reflexivity.
Qed.

Lemma cut_text_whole p1 p2 p3 text : zlen text <= 10000000 -> whole (cut_text_msg p1 p2 p3 text).
Proof. intros. apply w_cut; [pose proof (zlen_pos text); lia|reflexivity]. Qed.

Lemma cut_text_any_split E fuel c ks p1 p2 p3 text : zlen text <= 10000000 ->
  quiet c -> buf c = [] -> idx c = 0 ->
  exists c2 s, feed E fuel c ks (cut_text_msg p1 p2 p3 text) = Ok (c2, s) /\
    (s = [] -> log c2 = log c ++ [CutText text]).
Proof.
  intros N Q B I.
  destruct (feed_all E fuel c [cut_text_msg p1 p2 p3 text] (say (CutText text) c) [] ks) as (c2 & s & F & G);
    try assumption.
  - constructor; [apply cut_text_whole; exact N|constructor].
  - econstructor; [apply cut_text_handled; exact N|constructor].
  - apply unfinished_nil.
  - cbn [concat] in F. rewrite !app_nil_r in F. exists c2, s. split; [exact F|].
    intros S. rewrite (G S). reflexivity.
Qed.
