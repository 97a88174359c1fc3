From Verif Require Import Common CommonProofs Ws_Model Ws_Spec Ws_Proofs
  WsStream_Model WsStream_Spec WsStream_Proofs.

(** ** What was sent stays sent *)
Definition keeps (st st' : ws_stream) : Prop := exists more, sent st' = sent st ++ more.

Lemma keeps_refl : forall st, keeps st st.
Proof. intros st. exists []. rewrite app_nil_r. reflexivity. Qed.

Lemma keeps_trans : forall a b c, keeps a b -> keeps b c -> keeps a c.
Proof. intros a b c [x Hx] [y Hy]. exists (x ++ y). rewrite Hy, Hx, <- app_assoc. reflexivity. Qed.

Lemma keeps_same : forall st st', sent st' = sent st -> keeps st st'.
Proof. intros st st' H. exists []. rewrite H, app_nil_r. reflexivity. Qed.

Lemma keeps_send : forall st b, keeps st (tcp_send st b).
Proof.
  intros st b. unfold tcp_send, keeps. cbn [sent].
  destruct (closed st); [exists []; rewrite app_nil_r|exists [b]]; reflexivity.
Qed.

Lemma advance_sent : forall st size offset st',
  advance_read_buffer st size offset = Ok st' -> sent st' = sent st.
Proof.
  intros st size offset st' H. unfold advance_read_buffer in H.
  destruct (move_down _ _ _); [|discriminate]. cbn [bind] in H. inversion H. reflexivity.
Qed.

Lemma copy_sent : forall st size offset st' l,
  copy_payload st size offset = Ok (st', l) -> sent st' = sent st.
Proof.
  intros st size offset st' l H. unfold copy_payload in H.
  destruct (ws_copy_payload _ _ _); [|discriminate]. cbn [bind] in H.
  destruct (advance_read_buffer st size offset) eqn:E; [|discriminate]. cbn [bind] in H.
  inversion H; subst. eapply advance_sent; exact E.
Qed.

Lemma ping_keeps : forall st offset st', process_ping st offset = Ok st' -> keeps st st'.
Proof.
  intros st offset st' H. unfold process_ping in H.
  destruct (ping_head st offset) as [st1|] eqn:E; [|discriminate]. cbn [bind] in H.
  destruct (get _ _ _) as [b|]; [|discriminate]. cbn [bind] in H.
  apply advance_sent in H.
  assert (K1 : keeps st st1).
  { unfold ping_head in E. destruct (0 <? offset); [|inversion E; apply keeps_refl].
    destruct (ws_write_frame_header _ _) as [[buf n]|]; [|discriminate]. cbn [bind] in E.
    destruct (get buf 0 n); [|discriminate]. cbn [bind] in E. inversion E. apply keeps_send. }
  eapply keeps_trans; [exact K1|]. eapply keeps_trans; [apply keeps_send|].
  apply keeps_same. exact H.
Qed.

Lemma payload_keeps : forall st size offset st' r,
  process_payload st size offset = Ok (st', r) -> keeps st st'.
Proof.
  intros st size offset st' r H. unfold process_payload in H.
  assert (K : forall x, (let* s := advance_read_buffer st SIZE_MAX offset in Ok (s, x)) = Ok (st', r) -> keeps st st').
  { intros x E. destruct (advance_read_buffer st SIZE_MAX offset) eqn:A; [|discriminate].
    cbn [bind] in E. inversion E; subst. apply keeps_same. eapply advance_sent. exact A. }
  destruct (current_opcode st =? WS_OPCODE_CONT); [inversion H; apply keeps_same; reflexivity|].
  destruct (current_opcode st =? WS_OPCODE_TEXT); [exact (K _ H)|].
  destruct (current_opcode st =? WS_OPCODE_BIN).
  { destruct (copy_payload st size offset) as [[s out]|] eqn:C; [|discriminate]. cbn [bind] in H.
    inversion H; subst. apply keeps_same. eapply copy_sent. exact C. }
  destruct (current_opcode st =? WS_OPCODE_CLOSE); [inversion H; apply keeps_same; reflexivity|].
  destruct (current_opcode st =? WS_OPCODE_PING).
  { destruct (process_ping st offset) eqn:P; [|discriminate]. cbn [bind] in H. inversion H; subst.
    eapply ping_keeps. exact P. }
  destruct (current_opcode st =? WS_OPCODE_PONG); [exact (K _ H)|].
  inversion H. apply keeps_refl.
Qed.

Lemma frame_keeps : forall st size st' r, read_frame st size = Ok (st', r) -> keeps st st'.
Proof.
  intros st size st' r H. unfold read_frame in H.
  destruct (0 <? payload_length (hdr st)); [eapply payload_keeps; exact H|].
  destruct (ws_parse_frame_header _ _) as [ok h]. destruct ok.
  - apply payload_keeps in H. exact H.
  - inversion H. apply keeps_same. reflexivity.
Qed.

Lemma loop_keeps : forall fuel eagain st size total st' r,
  read_ready_loop fuel eagain st size total = Ok (st', r) -> keeps st st'.
Proof.
  intros fuel. induction fuel as [|fuel IH]; intros eagain st size total st' r H; [discriminate|].
  cbn [read_ready_loop] in H. destruct (read_frame st size) as [[s x]|] eqn:E; [|discriminate].
  cbn [bind] in H. apply frame_keeps in E. destruct x as [[|y l]|].
  - inversion H; subst. exact E.
  - eapply keeps_trans; [exact E|]. eapply IH. exact H.
  - destruct eagain; inversion H; subst; exact E.
Qed.

(** ** Reading what is in the buffer: whole frames *)
Lemma buffered_frames : forall eagain st size fs,
  holds st (wire fs) -> payload_length (hdr st) = 0 -> binary_stream fs -> 4096 <= size ->
  exists st', read_ready eagain st size = Ok (st', Got (data fs)) /\
    holds st' [] /\ keeps st st'.
Proof.
  intros eagain st size fs Hh Hp (Hv & Hop & Hf) Hs.
  assert (Hg : Forall good fs).
  { rewrite Forall_forall in *. intros f Hin. split; [auto|]. apply Hop. exact Hin. }
  assert (R : exists st', read_ready eagain st size = Ok (st', Got (data fs)) /\ holds st' []).
  2:{ destruct R as (st' & E & H). exists st'. split; [exact E|]. split; [exact H|].
      eapply loop_keeps. exact E. }
  pose proof Hh as (Hri & (junk & Hrb) & Hl & Hc & Hr).
  assert (H4 : zlen (wire fs) <= 4096) by (rewrite Hrb, app_length in Hl; unfold zlen; lia).
  unfold read_ready. destruct fs as [|f fs].
  - destruct (loop_empty (Z.to_nat (ri st)) eagain st size [] None []) as (st' & E & H & _); try assumption.
    + split; [exact Hp|]. intros C. contradiction.
    + right; reflexivity.
    + lia.
    + exists st'. split; [exact E|exact H].
  - inversion Hg as [|? ? Hgf Hg']; subst.
    pose proof (sfx_frames fs (h_key (f_head f)) (f_data f) []) as Hs'. rewrite app_nil_r in Hs'.
    rewrite wire_cons in Hh. cbn [app] in *.
    set (seg := enc (h_key (f_head f)) (f_data f) ++ wire fs) in *.
    destruct (loop_header (Z.to_nat (ri st)) eagain st size [] f seg)
        as (st2 & E2 & (junk1 & Hrb1) & Hri1 & Hl1 & Hc1 & Hr1 & Ho1 & Hp2); try assumption.
    { right; exact Hf. }
    rewrite wire_cons, zlen_app in H4. fold seg in H4.
    destruct (run_sfx _ _ _ _ _ _ _ Hs' (Z.to_nat (ri st)) eagain st2 size []
                    (header_bytes (f_head f)) seg junk1)
          as (st3 & E3 & R & _); try assumption.
    + apply Hgf.
    + unfold seg. unfold wire at 3. cbn [map concat].
      replace (enc _ []) with (@nil Z)
        by (match goal with |- [] = enc ?k [] => destruct k; reflexivity end).
      rewrite !app_nil_r. reflexivity.
    + destruct Hh as (Hri2 & _). rewrite Hri2, zlen_app. unfold zlen. lia.
    + pose proof (zlen_nonneg (header_bytes (f_head f))). lia.
    + exists st3. rewrite E2, E3. split; [reflexivity|exact R].
Qed.

(** ** Before the upgrade *)
Definition waiting (st : ws_stream) (old : list Z) : Prop :=
  ri st = zlen old /\ (exists junk, rb st = old ++ junk) /\ length (rb st) = 4096%nat /\
  closed st = false /\ ready st = false.

Lemma cstr_app_nul : forall l r, cstr (l ++ 0 :: r) = cstr l.
Proof.
  intros l r. induction l as [|x l IH]; cbn [app cstr]; [reflexivity|].
  destruct (x =? 0); [reflexivity|]. rewrite IH. reflexivity.
Qed.

Lemma cstr_le : forall l, (length (cstr l) <= length l)%nat.
Proof. intros l. induction l as [|x l IH]; cbn; [lia|]. destruct (x =? 0); cbn; lia. Qed.

Lemma receive_waiting : forall st old seg, waiting st old -> seg <> [] -> zlen (old ++ seg) <= 4096 ->
  exists st', read_into_buffer st (Bytes seg) = Ok st' /\ waiting st' (old ++ seg) /\
    hdr st' = hdr st /\ current_opcode st' = current_opcode st /\ sent st' = sent st.
Proof.
  intros st old seg (Hri & (junk & Hrb) & Hl & Hc & Hr) Hn Hz. rewrite zlen_app in Hz.
  unfold read_into_buffer. rewrite Hc.
  assert (0 < zlen seg) by (destruct seg; [contradiction|unfold zlen; cbn [length]; lia]).
  assert (E0 : WS_BUF - ri st =? 0 = false) by (unfold WS_BUF; lia).
  rewrite E0. destruct seg as [|x seg]; [contradiction|]. set (S := x :: seg) in *.
  pose proof (zlen_nonneg old).
  rewrite put_ok by (unfold zlen in *; lia). cbn [bind].
  eexists. split; [reflexivity|]. split; [|repeat split; reflexivity].
  unfold waiting. cbn [ri rb closed ready]. rewrite zlen_app, Hri. split; [reflexivity|]. split.
  - rewrite Hrb. replace (Z.to_nat (zlen old)) with (length old) by (unfold zlen; lia).
    rewrite firstn_app_exact. eexists. rewrite <- app_assoc. reflexivity.
  - split; [|split; [reflexivity|assumption]].
    rewrite !app_length, firstn_length, skipn_length. unfold zlen in *. lia.
Qed.

Lemma not_yet : forall hs eagain st old size,
  waiting st old -> zlen old < 4096 -> hs (cstr old) = Ok None ->
  exists st', read_handshake hs eagain st size = Ok (st', Got []) /\ waiting st' old /\
    hdr st' = hdr st /\ current_opcode st' = current_opcode st /\ sent st' = sent st.
Proof.
  intros hs eagain st old size (Hri & (junk & Hrb) & Hl & Hc & Hr) Hz Hs. unfold read_handshake.
  replace (WS_BUF <=? ri st) with false by (unfold WS_BUF; lia).
  pose proof (zlen_nonneg old).
  rewrite put_ok by (unfold zlen in *; cbn [length]; lia). cbn [bind].
  replace (Z.to_nat (ri st)) with (length old) by (rewrite Hri; unfold zlen; lia).
  assert (Ec : forall r, cstr (firstn (length old) (rb st) ++ [0] ++ r) = cstr old).
  { intros r. rewrite Hrb, firstn_app_exact. apply cstr_app_nul. }
  rewrite Ec, Hs. cbn [bind].
  eexists. split; [reflexivity|]. split; [|repeat split; reflexivity].
  unfold waiting. cbn [ri rb closed ready]. split; [exact Hri|]. split.
  - rewrite Hrb, firstn_app_exact. eexists. reflexivity.
  - split; [|split; assumption]. rewrite !app_length, firstn_length, skipn_length. cbn [length].
    unfold zlen in *. lia.
Qed.

Lemma upgraded : forall hs eagain st old size n reply,
  waiting st old -> zlen old < 4096 -> hs (cstr old) = Ok (Some (n, reply)) -> 0 <= n <= zlen old ->
  exists st1, read_handshake hs eagain st size = read_ready eagain st1 size /\
    holds st1 (skipn (Z.to_nat n) old) /\ hdr st1 = hdr st /\ sent st1 = reply :: sent st.
Proof.
  intros hs eagain st old size n reply (Hri & (junk & Hrb) & Hl & Hc & Hr) Hz Hs Hn. unfold read_handshake.
  replace (WS_BUF <=? ri st) with false by (unfold WS_BUF; lia).
  rewrite put_ok by (unfold zlen in *; cbn [length]; lia). cbn [bind].
  replace (Z.to_nat (ri st)) with (length old) by (rewrite Hri; unfold zlen; lia).
  assert (Ec : forall r, cstr (firstn (length old) (rb st) ++ [0] ++ r) = cstr old).
  { intros r. rewrite Hrb, firstn_app_exact. apply cstr_app_nul. }
  rewrite Ec, Hs. cbn [bind].
  rewrite Z.mod_small by (rewrite Hri; lia).
  set (rest := skipn (Z.to_nat n) old).
  assert (Hrest : zlen rest = zlen old - n) by (unfold rest, zlen in *; rewrite skipn_length; lia).
  set (rb1 := (firstn (length old) (rb st) ++ [0] ++ _)%list).
  assert (Erb1 : exists j, rb1 = firstn (Z.to_nat n) old ++ rest ++ j).
  { assert (Ef : firstn (length old) (rb st) = firstn (Z.to_nat n) old ++ rest)
      by (unfold rest; rewrite Hrb, firstn_app_exact, firstn_skipn; reflexivity).
    unfold rb1. rewrite Ef, <- app_assoc. eexists. reflexivity. }
  assert (Hl1 : length rb1 = 4096%nat).
  { unfold rb1. rewrite !app_length, firstn_length, skipn_length. cbn [length]. unfold zlen in *. lia. }
  clearbody rb1. destruct Erb1 as [j Erb1].
  assert (Hmv : move_down rb1 n (ri st - n) = Ok (rest ++ skipn (length rest) rb1)).
  { unfold move_down.
    assert (Hf : zlen (firstn (Z.to_nat n) old) = n) by (unfold zlen in *; rewrite firstn_length; lia).
    replace (get rb1 n (ri st - n)) with (@Ok (list Z) rest)
      by (rewrite Erb1, Hri, <- Hrest; rewrite <- Hf at 2; rewrite get_mid; reflexivity). cbn [bind].
    rewrite put_ok; [reflexivity|lia|]. unfold zlen in *. lia. }
  rewrite Hmv. cbn [bind]. rewrite Hc. eexists. split; [reflexivity|].
  split; [|split; reflexivity]. unfold holds. cbn [ri rb closed ready].
  split; [rewrite Hri; lia|]. split; [eexists; reflexivity|].
  split; [|split; reflexivity]. rewrite app_length, skipn_length. unfold zlen in *. lia.
Qed.

Lemma feed_app : forall hs eagain size a b st st1 r1,
  feed hs eagain st size a = Ok (st1, r1) ->
  feed hs eagain st size (a ++ b) =
    bind (feed hs eagain st1 size b) (fun x => Ok (fst x, r1 ++ snd x)).
Proof.
  intros hs eagain size a b. induction a as [|s a IH]; intros st st1 r1 H.
  - cbn in H. inversion H; subst. cbn [app]. destruct (feed hs eagain st1 size b) as [[x y]|]; reflexivity.
  - cbn [feed app] in *. destruct (ws_read hs eagain st size (Bytes s)) as [[s1 r]|]; [|discriminate].
    cbn [bind] in *. destruct (feed hs eagain s1 size a) as [[s2 rs]|] eqn:E; [|discriminate].
    cbn [bind] in H. inversion H; subst. rewrite (IH _ _ _ E).
    destruct (feed hs eagain st1 size b) as [[x y]|]; reflexivity.
Qed.

Lemma feed_waiting : forall hs eagain size segs st old,
  waiting st old -> Forall (fun s => s <> []) segs -> zlen (old ++ concat segs) < 4096 ->
  (forall x y, segs = x ++ y -> x <> [] -> hs (cstr (old ++ concat x)) = Ok None) ->
  exists st', feed hs eagain st size segs = Ok (st', map (fun _ => Got []) segs) /\
    waiting st' (old ++ concat segs) /\
    hdr st' = hdr st /\ current_opcode st' = current_opcode st /\ sent st' = sent st.
Proof.
  intros hs eagain size segs. induction segs as [|s segs IH]; intros st old Hw Hn Hz Hs.
  - exists st. split; [reflexivity|]. cbn [concat]. rewrite app_nil_r. repeat split; apply Hw.
  - inversion Hn as [|? ? Hs0 Hn']; subst. cbn [concat] in *. rewrite app_assoc in *.
    rewrite zlen_app in Hz. pose proof (zlen_nonneg (concat segs)).
    destruct (receive_waiting st old s Hw Hs0) as (st1 & E1 & Hw1 & A1 & B1 & C1); [lia|].
    destruct (not_yet hs eagain st1 (old ++ s) size Hw1) as (st2 & E2 & Hw2 & A2 & B2 & C2); [lia| |].
    { specialize (Hs [s] segs eq_refl ltac:(discriminate)). cbn [concat] in Hs. rewrite app_nil_r in Hs. exact Hs. }
    destruct (IH st2 (old ++ s) Hw2 Hn') as (st3 & E3 & Hw3 & A3 & B3 & C3).
    { rewrite zlen_app. lia. }
    { intros x y -> Hx. specialize (Hs (s :: x) y eq_refl ltac:(discriminate)). cbn [concat] in Hs.
      rewrite app_assoc in Hs. exact Hs. }
    exists st3. cbn [feed map]. unfold ws_read. rewrite E1. cbn [bind].
    destruct Hw1 as (_ & _ & _ & Hc1 & Hr1). rewrite Hc1, Hr1, E2. cbn [bind]. rewrite E3. cbn [bind].
    split; [reflexivity|]. split; [exact Hw3|]. repeat split; congruence.
Qed.

Lemma upgrade_run : forall hs eagain size segs last queue request reply fs,
  4096 <= size -> Forall (fun s => s <> []) (segs ++ [last]) ->
  concat segs ++ last = request ++ wire fs -> zlen (request ++ wire fs) < 4096 -> binary_stream fs ->
  (forall x y, segs = x ++ y -> x <> [] -> hs (cstr (concat x)) = Ok None) ->
  hs (cstr (request ++ wire fs)) = Ok (Some (zlen request, reply)) ->
  exists st more,
    feed hs eagain (mk_ws hdr0 0 0 (repeat 0 4096) false queue false true) size (segs ++ [last])
      = Ok (st, map (fun _ => Got []) segs ++ [Got (data fs)]) /\
    sent st = (reply :: queue) ++ more /\ ready st = true /\ closed st = false.
Proof.
  intros hs eagain size segs last queue request reply fs Hsz Hn Hw Hz Hb Hs Hh.
  set (st0 := mk_ws hdr0 0 0 (repeat 0 4096) false queue false true).
  assert (W0 : waiting st0 []).
  { split; [reflexivity|]. split; [exists (repeat 0 4096); reflexivity|].
    split; [apply repeat_length|split; reflexivity]. }
  apply Forall_app in Hn. destruct Hn as [Hn Hl]. inversion Hl as [|? ? Hl0 _]; subst.
  pose proof (zlen_nonneg last).
  assert (Hzz : zlen (concat segs) + zlen last = zlen (request ++ wire fs)) by (rewrite <- zlen_app, Hw; reflexivity).
  destruct (feed_waiting hs eagain size segs st0 [] W0 Hn) as (st1 & E1 & Hw1 & A1 & B1 & C1).
  { cbn [app]. lia. }
  { exact Hs. }
  rewrite (feed_app _ _ _ _ [last] _ _ _ E1). cbn [feed]. cbn [app] in Hw1.
  destruct (receive_waiting st1 (concat segs) last Hw1 Hl0) as (st2 & E2 & Hw2 & A2 & B2 & C2).
  { rewrite zlen_app. lia. }
  rewrite Hw in Hw2. unfold ws_read. rewrite E2. cbn [bind].
  pose proof Hw2 as (_ & _ & _ & Hc2 & Hr2). rewrite Hc2, Hr2.
  destruct (upgraded hs eagain st2 (request ++ wire fs) size (zlen request) reply Hw2) as (st3 & E3 & H3 & A3 & C3);
    [lia|exact Hh|rewrite zlen_app; pose proof (zlen_nonneg request); pose proof (zlen_nonneg (wire fs)); lia|].
  rewrite E3.
  replace (skipn (Z.to_nat (zlen request)) (request ++ wire fs)) with (wire fs) in H3
    by (unfold zlen; rewrite Nat2Z.id, skipn_app_exact; reflexivity).
  destruct (buffered_frames eagain st3 size fs H3) as (st4 & E4 & H4 & [more K]); [|exact Hb|exact Hsz|].
  { rewrite A3, A2, A1. reflexivity. }
  rewrite E4. cbn [bind fst snd]. exists st4, more. split; [reflexivity|].
  split; [rewrite K, C3, C2, C1; reflexivity|]. split; apply H4.
Qed.

(** ** Safety before the upgrade *)
Lemma put_segment_inv : forall st seg, inv st -> all_bytes seg -> zlen seg <= 4096 - ri st ->
  exists st1, read_into_buffer st (Bytes seg) = Ok st1 /\ inv st1 /\ ready st1 = ready st.
Proof.
  intros st seg Hi Hs Hz. pose proof Hi as (Hl & Hri & Hb & Hp). unfold read_into_buffer.
  destruct (closed st); [exists st; split; [reflexivity|split; [exact Hi|reflexivity]]|].
  destruct (WS_BUF - ri st =? 0).
  { eexists. split; [reflexivity|]. split; [|reflexivity].
    split; [exact Hl|]. split; [exact Hri|]. split; assumption. }
  destruct seg as [|x seg]; [exists st; split; [reflexivity|split; [exact Hi|reflexivity]]|].
  set (S := x :: seg) in *. pose proof (zlen_nonneg S).
  rewrite put_ok by (unfold zlen in *; lia). cbn [bind]. eexists. split; [reflexivity|].
  split; [|reflexivity]. split; cbn [rb ri hdr].
  - rewrite !app_length, firstn_length, skipn_length. unfold zlen in *. lia.
  - split; [lia|]. split; [|exact Hp].
    apply Forall_app. split; [apply Forall_firstn; exact Hb|].
    apply Forall_app. split; [exact Hs|apply Forall_skipn; exact Hb].
Qed.

Lemma handshake_safe : forall hs eagain st size, inv st -> 0 <= size ->
  (forall s n reply, hs s = Ok (Some (n, reply)) -> 0 <= n <= zlen s) ->
  match read_handshake hs eagain st size with
  | Fault e => e = OobRead \/ exists s, hs s = Fault e
  | Ok (st', Neg) => inv st'
  | Ok (st', Got l) => inv st' /\ zlen l <= size
  end.
Proof.
  intros hs eagain st size Hi Hs Hn. pose proof Hi as (Hl & Hri & Hb & Hp). unfold read_handshake.
  destruct (WS_BUF <=? ri st) eqn:E; [exact Hi|]. unfold WS_BUF in E.
  rewrite put_ok by (unfold zlen in *; cbn [length]; lia). cbn [bind].
  set (rb1 := (firstn (Z.to_nat (ri st)) (rb st) ++ [0] ++ skipn _ _)%list).
  assert (Hl1 : length rb1 = 4096%nat).
  { unfold rb1. rewrite !app_length, firstn_length, skipn_length. cbn [length]. lia. }
  assert (Hb1 : all_bytes rb1).
  { apply Forall_app. split; [apply Forall_firstn; exact Hb|].
    constructor; [unfold is_byte; lia|apply Forall_skipn; exact Hb]. }
  assert (Hlc : zlen (cstr rb1) <= ri st).
  { unfold rb1. change ([0] ++ ?r) with (0 :: r). rewrite cstr_app_nul.
    pose proof (cstr_le (firstn (Z.to_nat (ri st)) (rb st))) as L. rewrite firstn_length in L. unfold zlen. lia. }
  clearbody rb1.
  destruct (hs (cstr rb1)) as [[[n reply]|]|e] eqn:Eh; cbn [bind].
  - specialize (Hn _ _ _ Eh). rewrite Z.mod_small by lia. unfold move_down.
    destruct (get_ok rb1 n (ri st - n)) as [l El]; [lia|lia|unfold zlen; lia|].
    rewrite El. cbn [bind]. destruct (get_bytes _ _ _ _ Hb1 El) as [Hlb Hll].
    rewrite put_ok by (unfold zlen in *; lia). cbn [bind Z.to_nat firstn app Nat.add].
    match goal with |- context [read_ready eagain ?s size] => set (st1 := s) end.
    assert (Hi1 : inv st1).
    { split; cbn [st1 rb ri hdr]; [rewrite app_length, skipn_length; unfold zlen in *; lia|].
      split; [lia|]. split; [|exact Hp]. apply Forall_app. split; [exact Hlb|apply Forall_skipn; exact Hb1]. }
    pose proof (ready_safe eagain st1 size Hi1 Hs) as R.
    destruct (read_ready eagain st1 size) as [[st' [l'|]]|e]; cbn in R; [exact R|exact R|left; exact R].
  - split; [|unfold zlen; cbn [length]; lia]. split; cbn [rb ri hdr]; [exact Hl1|]. split; [lia|]. split; assumption.
  - right. eexists. exact Eh.
Qed.

Lemma ws_read_safe : forall hs eagain st size seg, inv st -> 0 <= size ->
  all_bytes seg -> zlen seg <= 4096 - ri st ->
  (forall s n reply, hs s = Ok (Some (n, reply)) -> 0 <= n <= zlen s) ->
  match ws_read hs eagain st size (Bytes seg) with
  | Fault e => e = OobRead \/ exists s, hs s = Fault e
  | Ok (st', Neg) => inv st'
  | Ok (st', Got l) => inv st' /\ zlen l <= size
  end.
Proof.
  intros hs eagain st size seg Hi Hs Hb Hz Hn. unfold ws_read.
  destruct (put_segment_inv st seg Hi Hb Hz) as (st1 & E & Hi1 & _). rewrite E. cbn [bind].
  destruct (closed st1); [split; [exact Hi1|unfold zlen; cbn [length]; lia]|].
  destruct (ready st1); [|apply handshake_safe; assumption].
  pose proof (ready_safe eagain st1 size Hi1 Hs) as R.
  destruct (read_ready eagain st1 size) as [[st' [l'|]]|e]; cbn in R; [exact R|exact R|left; exact R].
Qed.

Lemma full_buffer : forall hs eagain st size n, closed st = false -> ri st = 4096 ->
  exists st', ws_read hs eagain st size n = Ok (st', Got []) /\ closed st' = true /\
    rb st' = rb st /\ ri st' = ri st /\ sent st' = sent st.
Proof.
  intros hs eagain st size n Hc Hr. unfold ws_read, read_into_buffer. rewrite Hc, Hr.
  change (WS_BUF - 4096 =? 0) with true. cbn iota. cbn [bind closed].
  eexists. split; [reflexivity|]. repeat split. 
Qed.

Lemma request_too_long : forall hs eagain st size old seg,
  waiting st old -> seg <> [] -> zlen (old ++ seg) = 4096 ->
  exists st', ws_read hs eagain st size (Bytes seg) = Ok (st', Neg) /\ closed st' = true /\
    rb st' = old ++ seg /\ sent st' = sent st.
Proof.
  intros hs eagain st size old seg Hw Hn Hz.
  destruct (receive_waiting st old seg Hw Hn) as (st1 & E & Hw1 & _ & _ & Hs); [lia|].
  unfold ws_read. rewrite E. cbn [bind]. destruct Hw1 as (Hri & (junk & Hrb) & Hl & Hc & Hr).
  rewrite Hc, Hr. unfold read_handshake. replace (WS_BUF <=? ri st1) with true by (unfold WS_BUF; lia).
  eexists. split; [reflexivity|]. cbn [remote_closed closed rb sent]. split; [reflexivity|].
  split; [|exact Hs]. rewrite Hrb, app_length in Hl. unfold zlen in Hz.
  destruct junk; [rewrite app_nil_r in Hrb; exact Hrb|cbn [length] in Hl; lia].
Qed.

(** ** Frames that carry no data *)
Definition idle (st : ws_stream) (op : Z) (size offset : Z) : Prop :=
  forall st1, current_opcode st1 = op ->
  process_payload st1 size offset = (let* s := advance_read_buffer st1 SIZE_MAX offset in Ok (s, Got [])).

Lemma idle_text : forall st op size offset, op = 1 \/ op = 10 -> idle st op size offset.
Proof.
  intros st op size offset H st1 E. unfold process_payload. rewrite E.
  destruct H as [-> | ->]; reflexivity.
Qed.

Lemma advance_exact : forall st pre d rest junk left size,
  rb st = pre ++ d ++ rest ++ junk -> length (rb st) = 4096%nat ->
  ri st = zlen pre + zlen d + zlen rest -> payload_length (hdr st) = zlen d + left ->
  0 <= left -> (left = 0 \/ rest = []) -> zlen d + zlen rest <= size ->
  exists st', advance_read_buffer st size (zlen pre) = Ok st' /\
    ri st' = zlen rest /\ (exists junk', rb st' = rest ++ junk') /\ length (rb st') = 4096%nat /\
    payload_length (hdr st') = left /\ mask (hdr st') = mask (hdr st) /\
    masking_key (hdr st') = masking_key (hdr st) /\
    closed st' = closed st /\ ready st' = ready st /\ sent st' = sent st /\ current_opcode st' = current_opcode st.
Proof.
  intros st pre d rest junk left size Hrb Hl Hri Hp Hle Hor Hsz.
  assert (Htot : zlen pre + zlen d + zlen rest + zlen junk = 4096).
  { rewrite Hrb, !app_length in Hl. unfold zlen. lia. }
  pose proof (zlen_nonneg pre). pose proof (zlen_nonneg d). pose proof (zlen_nonneg rest). pose proof (zlen_nonneg junk).
  unfold advance_read_buffer.
  replace ((ri st - zlen pre) mod 2 ^ 64) with (zlen d + zlen rest)
    by (rewrite Hri, Z.mod_small by lia; lia).
  rewrite Hp.
  replace (Z.min (Z.min size (zlen d + zlen rest)) (zlen d + left)) with (zlen d).
  2:{ destruct Hor as [-> | ->]; [|change (zlen []) with 0 in *]; lia. }
  replace ((ri st - (zlen pre + zlen d)) mod 2 ^ 64) with (zlen rest)
    by (rewrite Hri, Z.mod_small by lia; lia).
  assert (Hmv : move_down (rb st) (zlen pre + zlen d) (zlen rest) = Ok (rest ++ skipn (length rest) (rb st))).
  { unfold move_down.
    replace (rb st) with ((pre ++ d) ++ rest ++ junk) at 1 by (rewrite Hrb, <- !app_assoc; reflexivity).
    rewrite <- zlen_app, get_mid. cbn [bind]. rewrite put_ok; [reflexivity|lia|]. unfold zlen in *. lia. }
  rewrite Hmv. cbn [bind]. eexists. split; [reflexivity|].
  cbn [ri rb hdr set_plen payload_length mask masking_key closed ready sent current_opcode].
  split; [reflexivity|]. split; [eexists; reflexivity|].
  split; [rewrite app_length, skipn_length; unfold zlen in *; lia|].
  split; [lia|]. repeat split; reflexivity.
Qed.

Lemma nodata_frame : forall eagain st size f d rest,
  valid_header f -> (h_opcode f = 1 \/ h_opcode f = 10) ->
  holds st (header_bytes f ++ d ++ rest) -> payload_length (hdr st) = 0 ->
  zlen d <= h_len f -> (zlen d = h_len f \/ rest = []) ->
  exists st', read_ready eagain st size = Ok (st', Got []) /\ holds st' rest /\
    sent st' = sent st /\ payload_length (hdr st') = h_len f - zlen d /\
    current_opcode st' = h_opcode f.
Proof.
  intros eagain st size f d rest Hv Hop (Hri & (junk & Hrb) & Hl & Hc & Hr) Hp Hd Hor.
  unfold read_ready. cbn [read_ready_loop]. unfold read_frame. rewrite Hp. cbn [Z.ltb Z.compare].
  assert (Hf : firstn (Z.to_nat (ri st)) (rb st) = header_bytes f ++ d ++ rest).
  { rewrite Hrb, Hri. apply firstn_app_eq. unfold zlen. lia. }
  rewrite Hf, parse_complete by exact Hv. cbn iota.
  replace (opcode (parsed (hdr st) f)) with (h_opcode f) by reflexivity.
  replace (h_opcode f =? WS_OPCODE_CONT) with false
    by (unfold WS_OPCODE_CONT; destruct Hop as [-> | ->]; reflexivity).
  set (st1 := set_hdr st (parsed (hdr st) f) (h_opcode f)).
  change (header_length (parsed (hdr st) f)) with (zlen (header_bytes f)).
  rewrite (idle_text st (h_opcode f) size _ Hop st1 eq_refl).
  destruct (advance_exact st1 (header_bytes f) d rest junk (h_len f - zlen d) SIZE_MAX)
    as (st' & E & H1 & H2 & H3 & H4 & H5 & H6 & H7 & H8 & H9 & H10).
  - cbn [st1 set_hdr rb]. rewrite Hrb, <- !app_assoc. reflexivity.
  - exact Hl.
  - cbn [st1 set_hdr ri]. rewrite Hri, !zlen_app. lia.
  - cbn [st1 set_hdr hdr parsed payload_length]. lia.
  - lia.
  - destruct Hor as [H|H]; [left; lia|right; exact H].
  - rewrite Hrb, !app_length in Hl. unfold SIZE_MAX, zlen. lia.
  - rewrite E. cbn [bind]. exists st'. split; [reflexivity|].
    split; [split; [exact H1|]; split; [exact H2|]; split; [exact H3|]; split; [rewrite H7; exact Hc|rewrite H8; exact Hr]|].
    split; [exact H9|]. split; [exact H4|exact H10].
Qed.

Lemma nodata_more : forall eagain st size d rest,
  (current_opcode st = 1 \/ current_opcode st = 10) ->
  holds st (d ++ rest) -> 0 < payload_length (hdr st) ->
  zlen d <= payload_length (hdr st) -> (zlen d = payload_length (hdr st) \/ rest = []) ->
  exists st', read_ready eagain st size = Ok (st', Got []) /\ holds st' rest /\
    sent st' = sent st /\ payload_length (hdr st') = payload_length (hdr st) - zlen d /\
    current_opcode st' = current_opcode st.
Proof.
  intros eagain st size d rest Hop (Hri & (junk & Hrb) & Hl & Hc & Hr) Hp Hd Hor.
  unfold read_ready. cbn [read_ready_loop]. unfold read_frame.
  replace (0 <? payload_length (hdr st)) with true by lia.
  rewrite (idle_text st (current_opcode st) size 0 Hop st eq_refl).
  destruct (advance_exact st [] d rest junk (payload_length (hdr st) - zlen d) SIZE_MAX)
    as (st' & E & H1 & H2 & H3 & H4 & H5 & H6 & H7 & H8 & H9 & H10).
  - cbn [app]. rewrite Hrb, <- app_assoc. reflexivity.
  - exact Hl.
  - rewrite Hri, zlen_app. unfold zlen. cbn [length]. lia.
  - lia.
  - lia.
  - destruct Hor as [H|H]; [left; lia|right; exact H].
  - rewrite Hrb, !app_length in Hl. unfold SIZE_MAX, zlen. lia.
  - change (zlen []) with 0 in E. rewrite E. cbn [bind]. exists st'. split; [reflexivity|].
    split; [split; [exact H1|]; split; [exact H2|]; split; [exact H3|]; split; [rewrite H7; exact Hc|rewrite H8; exact Hr]|].
    split; [exact H9|]. split; [exact H4|exact H10].
Qed.

Lemma close_frame : forall eagain st size f rest,
  valid_header f -> h_opcode f = 8 ->
  holds st (header_bytes f ++ rest) -> payload_length (hdr st) = 0 ->
  exists st', read_ready eagain st size = Ok (st', Got []) /\ closed st' = true /\ sent st' = sent st.
Proof.
  intros eagain st size f rest Hv Hop (Hri & (junk & Hrb) & Hl & Hc & Hr) Hp.
  unfold read_ready. cbn [read_ready_loop]. unfold read_frame. rewrite Hp. cbn [Z.ltb Z.compare].
  assert (Hf : firstn (Z.to_nat (ri st)) (rb st) = header_bytes f ++ rest).
  { rewrite Hrb, Hri. apply firstn_app_eq. unfold zlen. lia. }
  rewrite Hf, parse_complete by exact Hv. cbn iota.
  replace (opcode (parsed (hdr st) f)) with 8 by (cbn [parsed opcode]; lia).
  change (8 =? WS_OPCODE_CONT) with false. cbn iota.
  eexists. split; [reflexivity|]. split; reflexivity.
Qed.

Lemma unknown_frame : forall eagain st size f rest,
  valid_header f -> ~ In (h_opcode f) [0; 1; 2; 8; 9; 10] ->
  holds st (header_bytes f ++ rest) -> payload_length (hdr st) = 0 ->
  exists st', read_ready eagain st size = Ok (st', if eagain then Got [] else Neg) /\ sent st' = sent st.
Proof.
  intros eagain st size f rest Hv Hop (Hri & (junk & Hrb) & Hl & Hc & Hr) Hp.
  unfold read_ready. cbn [read_ready_loop]. unfold read_frame. rewrite Hp. cbn [Z.ltb Z.compare].
  assert (Hf : firstn (Z.to_nat (ri st)) (rb st) = header_bytes f ++ rest).
  { rewrite Hrb, Hri. apply firstn_app_eq. unfold zlen. lia. }
  rewrite Hf, parse_complete by exact Hv. cbn iota.
  replace (opcode (parsed (hdr st) f)) with (h_opcode f) by reflexivity.
  cbn [In] in Hop. unfold process_payload, WS_OPCODE_CONT, WS_OPCODE_TEXT, WS_OPCODE_BIN, WS_OPCODE_CLOSE,
    WS_OPCODE_PING, WS_OPCODE_PONG.
  replace (h_opcode f =? 0) with false by lia. cbn [set_hdr current_opcode].
  replace (h_opcode f =? 0) with false by lia. replace (h_opcode f =? 1) with false by lia.
  replace (h_opcode f =? 2) with false by lia. replace (h_opcode f =? 8) with false by lia.
  replace (h_opcode f =? 9) with false by lia. replace (h_opcode f =? 10) with false by lia.
  cbn [bind]. destruct eagain; eexists; (split; [reflexivity|reflexivity]).
Qed.
