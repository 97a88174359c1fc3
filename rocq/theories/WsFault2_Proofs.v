From Verif Require Import Common CommonProofs Ws_Model Ws_Spec Ws_Proofs WsStream_Model WsStream_Spec WsStream_Proofs
  WsStream2_Proofs WsFault_Spec WsFault_Proofs WsFault_Props.

Lemma segment_received st seg : inv st -> all_bytes seg -> zlen seg <= 4096 - ri st ->
  exists st1, read_into_buffer st (Bytes seg) = Ok st1 /\ inv st1 /\
    (closed st1 = true \/ closed st = false /\ received st1 = received st ++ seg /\
      ready st1 = ready st /\ hdr st1 = hdr st /\ current_opcode st1 = current_opcode st).
Proof.
  intros Hi Hb Hz. destruct (put_segment_inv st seg Hi Hb Hz) as (st1 & E & Hi1 & R). exists st1. split; [exact E|]. split; [exact Hi1|].
  pose proof Hi as (Hl & Hri & _). unfold read_into_buffer in E.
  destruct (closed st) eqn:C; [left; injection E as <-; exact C|].
  destruct (WS_BUF - ri st =? 0); [left; injection E as <-; reflexivity|]. right. split; [reflexivity|].
  destruct seg as [|x seg].
  - injection E as <-. rewrite app_nil_r. auto.
  - set (q := x :: seg) in *. pose proof (zlen_nonneg q). rewrite put_ok in E by (unfold zlen in *; lia). cbn [bind] in E.
    apply (f_equal (fun r => match r with Ok s => s | Fault _ => st end)) in E. cbv beta iota in E. subst st1.
    split; [|cbn [ready hdr current_opcode]; auto]. unfold received. cbn [ri rb].
    rewrite app_assoc. apply firstn_app_eq. rewrite app_length, firstn_length. unfold zlen in *. lia.
Qed.

Lemma handshake_fault hs eagain st size e : inv st -> 0 <= size ->
  (forall s n reply, hs s = Ok (Some (n, reply)) -> 0 <= n <= zlen s) ->
  read_handshake hs eagain st size = Fault e ->
  hs (cstr (received st)) = Fault e \/
  e = OobRead /\ exists n reply, hs (cstr (received st)) = Ok (Some (n, reply)) /\
    long_ping (payload_length (hdr st)) (current_opcode st) (skipn (Z.to_nat n) (received st)).
Proof.
  intros Hi Hs Hn H. pose proof Hi as (Hl & Hri & Hb & Hp). unfold read_handshake in H.
  destruct (WS_BUF <=? ri st) eqn:E; [discriminate H|]. unfold WS_BUF in E.
  rewrite put_ok in H by (unfold zlen in *; cbn [length]; lia). cbn [bind] in H.
  set (rb1 := (firstn (Z.to_nat (ri st)) (rb st) ++ [0] ++ skipn _ _)%list) in *.
  assert (Hl1 : length rb1 = 4096%nat).
  { unfold rb1. rewrite !app_length, firstn_length, skipn_length. cbn [length]. lia. }
  assert (Hb1 : all_bytes rb1).
  { apply Forall_app. split; [apply Forall_firstn; exact Hb|].
    constructor; [unfold is_byte; lia|apply Forall_skipn; exact Hb]. }
  assert (CS : cstr rb1 = cstr (received st)).
  { unfold rb1. change ([0] ++ ?r) with (0 :: r). apply cstr_app_nul. }
  assert (R1 : firstn (Z.to_nat (ri st)) rb1 = received st).
  { unfold rb1, received. apply firstn_app_eq. rewrite firstn_length. lia. }
  assert (Hlc : zlen (cstr rb1) <= ri st).
  { rewrite CS. pose proof (cstr_le (received st)). pose proof (received_len st Hi). unfold zlen in *. lia. }
  clearbody rb1. rewrite <- CS.
  destruct (hs (cstr rb1)) as [[[n reply]|]|e'] eqn:Eh; cbn [bind] in H; [|discriminate H|left; injection H as <-; reflexivity].
  specialize (Hn _ _ _ Eh). rewrite Z.mod_small in H by lia. unfold move_down in H.
  destruct (get_ok rb1 n (ri st - n)) as [l El]; [lia|lia|unfold zlen; lia|].
  rewrite El in H. cbn [bind] in H. destruct (get_bytes _ _ _ _ Hb1 El) as [Hlb Hll].
  rewrite put_ok in H by (unfold zlen in *; lia). cbn [bind Z.to_nat firstn app Nat.add] in H.
  match type of H with read_ready eagain ?s size = _ => set (st1 := s) in * end.
  assert (Hi1 : inv st1).
  { split; cbn [st1 rb ri hdr]; [rewrite app_length, skipn_length; unfold zlen in *; lia|].
    split; [lia|]. split; [|exact Hp]. apply Forall_app. split; [exact Hlb|apply Forall_skipn; exact Hb1]. }
  destruct Hi1 as (A1 & A2 & A3 & A4).
  destruct (C56_only_long_pings_overread eagain st1 size e A1 A2 A3 A4 Hs H) as [-> LP]. right. split; [reflexivity|].
  exists n, reply. split; [reflexivity|]. cbn [st1 hdr current_opcode ri rb] in LP.
  rewrite firstn_app_eq in LP by (unfold zlen in Hll; lia).
  unfold get in El. destruct (_ && _ && _)%bool; [|discriminate El]. injection El as El.
  rewrite <- R1, skipn_firstn_comm. replace (Z.to_nat (ri st) - Z.to_nat n)%nat with (Z.to_nat (ri st - n)) by lia.
  rewrite El. exact LP.
Qed.
