From Verif Require Import Common CommonProofs Ws_Model Ws_Spec Ws_Proofs WsStream_Model WsStream_Spec WsStream_Proofs WsFault_Spec.

Definition received (st : ws_stream) : list Z := firstn (Z.to_nat (ri st)) (rb st).

Lemma received_len st : inv st -> zlen (received st) = ri st.
Proof. intros (L & R & _). unfold received, zlen. rewrite firstn_length. lia. Qed.

Lemma advance_rest st size offset st' : inv st -> 0 <= size -> 0 <= offset <= ri st ->
  advance_read_buffer st size offset = Ok st' ->
  let pl := Z.min (Z.min size (ri st - offset)) (payload_length (hdr st)) in
  received st' = skipn (Z.to_nat (offset + pl)) (received st) /\ payload_length (hdr st') = payload_length (hdr st) - pl.
Proof.
  intros (Hl & Hri & Hb & Hp) Hs Ho H. unfold advance_read_buffer in H.
  rewrite (Z.mod_small (ri st - offset)) in H by lia.
  set (pl := Z.min (Z.min size (ri st - offset)) (payload_length (hdr st))) in *.
  assert (Hpl : 0 <= pl <= ri st - offset /\ pl <= payload_length (hdr st)) by lia.
  rewrite Z.mod_small in H by lia. unfold move_down in H.
  unfold get in H. replace (_ && _ && _)%bool with true in H by lia. cbn [bind] in H.
  set (q := firstn (Z.to_nat (ri st - (offset + pl))) (skipn (Z.to_nat (offset + pl)) (rb st))) in *.
  assert (Q : zlen q = ri st - (offset + pl)) by (unfold q, zlen; rewrite firstn_length, skipn_length; lia).
  rewrite put_ok in H by (unfold zlen in *; lia). cbn [bind Z.to_nat firstn app Nat.add] in H.
  apply (f_equal (fun r => match r with Ok s => s | Fault _ => st end)) in H. cbv beta iota in H. subst st'.
  unfold received. cbn [ri rb hdr payload_length set_plen]. split; [|reflexivity].
  rewrite firstn_app_eq by (unfold zlen in Q; lia). unfold q. rewrite skipn_firstn_comm. f_equal. lia.
Qed.

Lemma payload_fault st size offset e : inv st -> 0 <= size -> 0 <= offset <= ri st ->
  process_payload st size offset = Fault e ->
  e = OobRead /\ current_opcode st = 9 /\ 4096 < offset + Z.min (ri st) (payload_length (hdr st)).
Proof.
  intros Hi Hs Ho H. pose proof (payload_safe st size offset Hi Hs Ho) as [SF _]. rewrite H in SF. cbn in SF.
  split; [exact SF|]. pose proof Hi as (Hl & Hri & Hb & Hp).
  assert (Hskip : (let* st' := advance_read_buffer st SIZE_MAX offset in Ok (st', Got [])) <> Fault e).
  { destruct (advance_safe st SIZE_MAX offset Hi ltac:(unfold SIZE_MAX; lia) Ho) as (st' & E & _). rewrite E. discriminate. }
  unfold process_payload in H.
  destruct (current_opcode st =? WS_OPCODE_CONT); [discriminate H|].
  destruct (current_opcode st =? WS_OPCODE_TEXT); [contradiction|].
  destruct (current_opcode st =? WS_OPCODE_BIN).
  { exfalso. unfold copy_payload in H. rewrite (Z.mod_small (ri st - offset)) in H by lia.
    set (pl := Z.min (Z.min size (ri st - offset)) (payload_length (hdr st))) in *.
    destruct (get_ok (skipn (Z.to_nat offset) (rb st)) 0 pl) as [p Ep]; [lia|lia|unfold zlen; rewrite skipn_length; lia|].
    unfold ws_copy_payload in H. rewrite Ep in H. cbn [bind] in H.
    destruct (advance_safe st size offset Hi Hs Ho) as (st' & E & _). rewrite E in H.
    destruct (mask (hdr st)); discriminate H. }
  destruct (current_opcode st =? WS_OPCODE_CLOSE); [discriminate H|].
  destruct (current_opcode st =? WS_OPCODE_PING) eqn:OP.
  2:{ destruct (current_opcode st =? WS_OPCODE_PONG); [contradiction|discriminate H]. }
  apply Z.eqb_eq in OP. split; [exact OP|].
  destruct (Z.lt_ge_cases 4096 (offset + Z.min (ri st) (payload_length (hdr st)))) as [X|X]; [exact X|exfalso].
  unfold process_ping in H.
  assert (Hst1 : exists st1, ping_head st offset = Ok st1 /\ ri st1 = ri st /\ rb st1 = rb st /\ hdr st1 = hdr st).
  { unfold ping_head. destruct (0 <? offset); [|exists st; repeat split; reflexivity].
    unfold ws_write_frame_header. cbn [fin opcode mask payload_length].
    destruct (payload_length (hdr st) <=? 125); [|destruct (payload_length (hdr st) <=? 65535)];
      cbn; eexists; (split; [reflexivity|]); repeat split; reflexivity. }
  destruct Hst1 as (st1 & E1 & Er1 & Erb1 & Eh1). rewrite E1 in H. cbn [bind] in H. rewrite Er1, Erb1, Eh1 in H.
  destruct (get_ok (rb st) offset (Z.min (ri st) (payload_length (hdr st)))) as [b Eb]; [lia|lia|unfold zlen; lia|].
  rewrite Eb in H. cbn [bind] in H.
  assert (Hi1 : inv (tcp_send st1 b)).
  { unfold inv, tcp_send. cbn [rb ri hdr]. rewrite Er1, Erb1, Eh1. exact Hi. }
  destruct (advance_safe (tcp_send st1 b) (Z.min (ri st) (payload_length (hdr st))) offset Hi1) as (st' & E & _); [lia|cbn [tcp_send ri]; lia|].
  rewrite E in H. discriminate H.
Qed.

Lemma payload_go st size offset st' x l : inv st -> 0 <= size -> 0 <= offset <= ri st ->
  process_payload st size offset = Ok (st', Got (x :: l)) ->
  current_opcode st' = 2 /\
  exists c, received st = firstn (Z.to_nat offset) (received st) ++ c ++ received st' /\
    zlen c <= payload_length (hdr st) /\ payload_length (hdr st') = payload_length (hdr st) - zlen c.
Proof.
  intros Hi Hs Ho H. pose proof Hi as (Hl & Hri & Hb & Hp).
  assert (Hskip : (let* st' := advance_read_buffer st SIZE_MAX offset in Ok (st', Got [])) <> Ok (st', Got (x :: l))).
  { destruct (advance_read_buffer st SIZE_MAX offset); discriminate. }
  unfold process_payload in H.
  destruct (current_opcode st =? WS_OPCODE_CONT); [discriminate H|].
  destruct (current_opcode st =? WS_OPCODE_TEXT); [contradiction|].
  destruct (current_opcode st =? WS_OPCODE_BIN) eqn:OP.
  2:{ exfalso. destruct (current_opcode st =? WS_OPCODE_CLOSE); [discriminate H|].
      destruct (current_opcode st =? WS_OPCODE_PING).
      - destruct (process_ping st offset); discriminate H.
      - destruct (current_opcode st =? WS_OPCODE_PONG); [contradiction|discriminate H]. }
  apply Z.eqb_eq in OP. unfold copy_payload in H.
  destruct (ws_copy_payload _ _ _) as [o|]; [|discriminate H]. cbn [bind] in H.
  destruct (advance_safe st size offset Hi Hs Ho) as (st2 & E & _ & _ & _ & _ & CO). rewrite E in H. cbn [bind] in H.
  apply (f_equal (fun r => match r with Ok (s, _) => s | Fault _ => st end)) in H. cbv beta iota in H. subst st2.
  split; [rewrite CO; exact OP|].
  destruct (advance_rest st size offset st' Hi Hs Ho E) as [R P].
  set (pl := Z.min (Z.min size (ri st - offset)) (payload_length (hdr st))) in *.
  pose proof (received_len st Hi) as RL. unfold zlen in RL.
  exists (firstn (Z.to_nat pl) (skipn (Z.to_nat offset) (received st))).
  assert (CL : zlen (firstn (Z.to_nat pl) (skipn (Z.to_nat offset) (received st))) = pl).
  { unfold zlen. rewrite firstn_length, skipn_length. lia. }
  rewrite CL, R. split; [|split; [lia|exact P]].
  replace (Z.to_nat (offset + pl)) with (Z.to_nat pl + Z.to_nat offset)%nat by lia.
  rewrite <- skipn_skipn, firstn_skipn, firstn_skipn. reflexivity.
Qed.

Definition culprit (st : ws_stream) : Prop :=
  exists b l f rest, received st = b ++ l ++ header_bytes f ++ rest /\ zlen b = payload_length (hdr st) /\ whole_frames l /\
    valid_header f /\ (h_opcode f = 9 \/ h_opcode f = 0 /\ current_opcode st = 9) /\
    4096 < zlen (header_bytes f) + Z.min (zlen (header_bytes f ++ rest)) (h_len f).

Lemma loop_culprit fuel : forall eagain st size total e, inv st -> 0 <= size ->
  read_ready_loop fuel eagain st size total = Fault e -> (Z.to_nat (ri st) < fuel)%nat -> culprit st.
Proof.
  induction fuel as [|fuel IH]; intros eagain st size total e Hi Hs H F; [lia|].
  cbn [read_ready_loop] in H. pose proof (frame_safe st size Hi Hs) as [SF DEC].
  pose proof Hi as (Hl & Hri & Hb & Hp). unfold read_frame in *.
  destruct (0 <? payload_length (hdr st)) eqn:P0.
  - destruct (process_payload st size 0) as [[st' r]|e'] eqn:PP.
    + cbn [bind] in H. destruct r as [l|]; [|destruct eagain; discriminate H].
      destruct l as [|x l]; [discriminate H|].
      destruct (payload_go st size 0 st' x l Hi Hs ltac:(lia) PP) as (OC & c & R & CL & PL).
      specialize (DEC st' (x :: l) eq_refl ltac:(discriminate)). destruct SF as [Hi' LS].
      pose proof Hi' as (_ & Hri' & _).
      apply IH in H; [|exact Hi'|lia|lia]. destruct H as (b & w & f & rest & R' & BL & W & V & O & LONG).
      exists (c ++ b), w, f, rest. rewrite R at 1. cbn [Z.to_nat firstn app]. rewrite R', <- app_assoc. split; [reflexivity|].
      split; [rewrite zlen_app; lia|]. split; [exact W|]. split; [exact V|]. split; [|exact LONG].
      destruct O as [O|[_ O]]; [auto|]. rewrite OC in O. discriminate O.
    + exfalso. destruct (payload_fault st size 0 e' Hi Hs ltac:(lia) PP) as (_ & OP & LONG).
      unfold process_payload in PP. rewrite OP in PP. cbn [Z.eqb WS_OPCODE_CONT WS_OPCODE_TEXT WS_OPCODE_BIN WS_OPCODE_CLOSE WS_OPCODE_PING Pos.eqb] in PP.
      unfold process_ping, ping_head in PP. cbn [Z.ltb Z.compare bind] in PP.
      destruct (get_ok (rb st) 0 (Z.min (ri st) (payload_length (hdr st)))) as [b Eb]; [lia|lia|unfold zlen; lia|].
      rewrite Eb in PP. cbn [bind] in PP.
      destruct (advance_safe (tcp_send st b) (Z.min (ri st) (payload_length (hdr st))) 0) as (st' & E & _);
        [exact Hi|lia|cbn [tcp_send ri]; lia|]. rewrite E in PP. discriminate PP.
  - apply Z.ltb_ge in P0. fold (received st) in *.
    destruct (ws_parse_frame_header (hdr st) (received st)) as [ok h] eqn:E. destruct ok; [|discriminate H].
    assert (RB : all_bytes (received st)) by (apply Forall_firstn, Hb).
    destruct (parse_sound _ _ _ RB E) as (f & rest & V & EQ & HF).
    assert (HL : header_length h = zlen (header_bytes f) /\ payload_length h = h_len f /\ opcode h = h_opcode f) by (subst h; repeat split).
    destruct HL as (HL & PL & OP). rewrite HL in *.
    match type of H with context [process_payload ?s _ _] => set (st1 := s) in * end.
    assert (LV : 0 <= h_len f). { destruct V as (_ & _ & Hf & _). destruct (h_form f); cbn in Hf; lia. }
    assert (Hi1 : inv st1).
    { split; [exact Hl|split; [exact Hri|split; [exact Hb|]]]. cbn [st1 set_hdr hdr]. lia. }
    assert (RL : received st1 = received st) by reflexivity.
    assert (HO : 0 <= zlen (header_bytes f) <= ri st1).
    { split; [apply zlen_nonneg|]. rewrite <- (received_len st1 Hi1), RL, EQ, zlen_app. pose proof (zlen_nonneg rest). lia. }
    destruct (process_payload st1 size (zlen (header_bytes f))) as [[st' r]|e'] eqn:PP.
    + cbn [bind] in H. destruct r as [l|]; [|destruct eagain; discriminate H].
      destruct l as [|x l]; [discriminate H|].
      destruct (payload_go st1 size _ st' x l Hi1 Hs HO PP) as (OC & c & R & CL & PL').
      specialize (DEC st' (x :: l) eq_refl ltac:(discriminate)). destruct SF as [Hi' LS].
      pose proof Hi' as (_ & Hri' & _).
      apply IH in H; [|exact Hi'|lia|lia]. destruct H as (b & w & g & rest' & R' & BL & W & VG & O & LONG).
      cbn [st1 set_hdr hdr] in CL, PL'.
      exists [], (header_bytes f ++ (c ++ b) ++ w), g, rest'. split.
      { rewrite RL in R. rewrite R at 1. rewrite EQ. unfold zlen. rewrite Nat2Z.id, firstn_app_exact, R'.
        rewrite <- !app_assoc. reflexivity. }
      split; [change (zlen []) with 0; lia|]. split; [constructor; [exact V| |exact W]; rewrite zlen_app; lia|].
      split; [exact VG|]. split; [|exact LONG]. destruct O as [O|[_ O]]; [auto|]. rewrite OC in O. discriminate O.
    + destruct (payload_fault st1 size _ e' Hi1 Hs HO PP) as (_ & OC & LONG).
      exists [], [], f, rest. split; [exact EQ|]. split; [change (zlen []) with 0; lia|]. split; [constructor|]. split; [exact V|].
      cbn [st1 set_hdr current_opcode hdr] in OC, LONG. split; [|rewrite <- EQ, <- RL, (received_len st1 Hi1); lia].
      rewrite OP in OC. destruct (h_opcode f =? WS_OPCODE_CONT) eqn:Z0; [right; apply Z.eqb_eq in Z0; auto|left; exact OC].
Qed.
