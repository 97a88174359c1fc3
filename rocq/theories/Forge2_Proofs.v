(** Proofs for Forge_Props.v: WebSocket frames that end the connection. *)
From Verif Require Import Common CommonProofs Ws_Model Ws_Spec Ws_Proofs WsStream_Model WsStream_Proofs.
From Verif Require Msg_Model.
From Verif Require Import Talk_Model Forge_Spec.

Lemma nothing_read E fuel c : reading c -> Msg_Model.receive E (S fuel) c (Some []) = Ok c.
Proof.
  intros (Cu & Ix & Bu). cbn [Msg_Model.receive]. unfold Msg_Model.on_client_event. rewrite Cu, Ix. cbn [Z.eqb negb].
  change Msg_Model.MSG_BUFFER_SIZE with 4096. rewrite (proj2 (Z.leb_gt _ _)) by lia. reflexivity.
Qed.

Lemma web_over hs E fuel st c f more segs : between st -> reading c -> valid_header f ->
  zlen (header_bytes f ++ more) <= 4096 -> h_opcode f = 8 \/ meaningless (h_opcode f) ->
  exists st', talk (web_read hs false) E fuel st c ((header_bytes f ++ more) :: segs) = Ok (st', Msg_Model.set_closed true c).
Proof.
  intros (R0 & RL & Cl & Rd & PL) RC V L OP. cbn [talk]. unfold web_read at 1, ws_read.
  assert (H : holds st []).
  { split; [exact R0|]. split; [exists (rb st); reflexivity|]. auto. }
  destruct (put_segment st (header_bytes f ++ more) H L) as (st1 & E1 & (Hri & (junk & Hrb) & Hl & Hc & Hr) & Eh & _); [discriminate|].
  rewrite E1. cbn [bind]. rewrite Hc, Hr. unfold read_ready. cbn [read_ready_loop]. unfold read_frame.
  rewrite Eh, PL. cbn [Z.ltb Z.compare]. rewrite Hri, Hrb. unfold zlen. rewrite Nat2Z.id, firstn_app_exact.
  rewrite parse_complete by exact V.
  assert (OC : (opcode (parsed (hdr st) f) =? WS_OPCODE_CONT) = false).
  { cbn [parsed opcode]. unfold WS_OPCODE_CONT, meaningless in *. apply Z.eqb_neq. lia. }
  rewrite OC. unfold process_payload.
  change (current_opcode (set_hdr st1 (parsed (hdr st) f) (opcode (parsed (hdr st) f)))) with (h_opcode f).
  unfold WS_OPCODE_CONT, WS_OPCODE_TEXT, WS_OPCODE_BIN, WS_OPCODE_CLOSE, WS_OPCODE_PING, WS_OPCODE_PONG.
  destruct OP as [->|OP].
  - cbn [Z.eqb Pos.eqb bind WsStream_Model.closed remote_closed]. rewrite nothing_read by exact RC. cbn [bind]. eexists. reflexivity.
  - unfold meaningless in OP. rewrite !(proj2 (Z.eqb_neq _ _)) by lia. cbn [bind].
    rewrite nothing_read by exact RC. cbn [bind]. eexists. reflexivity.
Qed.
