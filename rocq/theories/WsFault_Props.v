(** C56: which input makes the server read past its WebSocket buffer. *)
From Verif Require Import Common CommonProofs Ws_Model Ws_Spec Ws_Proofs WsStream_Model WsStream_Spec WsStream_Proofs WsFault_Spec WsFault_Proofs.

(** If reading goes outside the buffer, then because of a ping longer than 4082
    bytes that begins where the server is looking for a header. *)
Theorem C56_only_long_pings_overread : forall eagain st size e,
  length (rb st) = 4096%nat -> 0 <= ri st <= 4096 -> all_bytes (rb st) ->
  0 <= payload_length (hdr st) -> 0 <= size ->
  read_ready eagain st size = Fault e ->
  e = OobRead /\ long_ping (payload_length (hdr st)) (current_opcode st) (firstn (Z.to_nat (ri st)) (rb st)).
Proof.
  intros eagain st size e H1 H2 H3 H4 H5 H.
  assert (I : inv st) by exact (conj H1 (conj H2 (conj H3 H4))).
  split.
  - pose proof (ready_safe eagain st size I H5) as S1. rewrite H in S1. exact S1.
  - destruct (loop_culprit _ eagain st size [] e I H5 H ltac:(lia)) as (b & l & f & rest & R & B & W & V & O & L).
    exists b, l, f, rest. split; [exact R|]. split; [exact B|]. split; [exact W|]. split; [exact V|].
    split; [exact O|]. split; [exact L|].
    assert (K : zlen (header_bytes f) <= 14).
    { pose proof V as (_ & _ & _ & KV). unfold header_bytes, key_bytes, zlen. cbn [length]. rewrite app_length.
      destruct (h_form f); cbn [len_ext]; rewrite ?be_length; destruct (h_key f); cbn [length] in *; lia. }
    lia.
Qed.
Print Assumptions C56_only_long_pings_overread.

(** So a client that keeps to the 125 bytes RFC 6455 allows a ping is read
    without leaving the buffer, however many frames it sends and wherever they
    are cut. *)
Theorem C56_allowed_pings_are_safe : forall eagain st size,
  length (rb st) = 4096%nat -> 0 <= ri st <= 4096 -> all_bytes (rb st) ->
  0 <= payload_length (hdr st) -> 0 <= size ->
  (forall payload frames f rest,
     firstn (Z.to_nat (ri st)) (rb st) = payload ++ frames ++ header_bytes f ++ rest ->
     zlen payload = payload_length (hdr st) -> whole_frames frames -> valid_header f ->
     h_opcode f = 9 \/ h_opcode f = 0 /\ current_opcode st = 9 -> h_len f <= 125) ->
  exists st' r, read_ready eagain st size = Ok (st', r).
Proof.
  intros eagain st size H1 H2 H3 H4 H5 A.
  destruct (read_ready eagain st size) as [[st' r]|e] eqn:E; [eauto|exfalso].
  destruct (C56_only_long_pings_overread eagain st size e H1 H2 H3 H4 H5 E) as (_ & b & l & f & rest & R & B & W & V & O & _ & L).
  specialize (A b l f rest R B W V O). lia.
Qed.
Print Assumptions C56_allowed_pings_are_safe.

(** A binary frame of one byte, then a ping announcing 5000. *)
Example C56_ping_behind_data :
  let f := FH true 0 9 (Some [1; 2; 3; 4]) L16 5000 in
  let received := header_bytes (FH true 0 2 None L7 1) ++ [7] ++ header_bytes f ++ repeat 0 4085 in
  read_ready false (mk_ws hdr0 0 4096 received false [] true false) 4096 = Fault OobRead /\
  whole_frames (header_bytes (FH true 0 2 None L7 1) ++ [7] ++ []) /\ valid_header f /\
  4096 < zlen (header_bytes f) + Z.min (zlen (header_bytes f ++ repeat 0 4085)) (h_len f).
Proof.
  cbv zeta. split; [vm_compute; reflexivity|]. split.
  { constructor; [|reflexivity|constructor]. repeat split; cbn; lia. }
  split; [|vm_compute; reflexivity]. split; [cbn; lia|]. split; [cbn; lia|]. split; [cbn; lia|].
  split; [reflexivity|repeat constructor; cbn; lia].
Qed.

(** A ping of two bytes meets the condition. *)
Example C56_short_ping :
  let st := mk_ws hdr0 0 4 ([0x89; 2; 65; 66] ++ repeat 0 4092) false [] true false in
  (forall payload frames f rest,
     firstn (Z.to_nat (ri st)) (rb st) = payload ++ frames ++ header_bytes f ++ rest ->
     zlen payload = payload_length (hdr st) -> whole_frames frames -> valid_header f ->
     h_opcode f = 9 \/ h_opcode f = 0 /\ current_opcode st = 9 -> h_len f <= 125) /\
  exists st', read_ready true st 4096 = Ok (st', Got []) /\ concat (sent st') = [0x8a; 2; 65; 66].
Proof.
  cbv zeta. split; [|eexists; split; vm_compute; reflexivity].
  intros p l f rest E P W V _. cbn [ri rb hdr] in E, P.
  destruct (Z.le_gt_cases (h_len f) 125) as [|X]; [assumption|exfalso].
  change (firstn (Z.to_nat 4) ([0x89; 2; 65; 66] ++ repeat 0 4092)) with [0x89; 2; 65; 66] in E.
  destruct p; [|pose proof (zlen_nonneg p); unfold zlen in P; cbn [length hdr0 payload_length] in P; lia].
  pose proof V as (_ & _ & F & _). pose proof (f_equal (@length Z) E) as EL. cbn [app] in E, EL.
  rewrite !app_length in EL. unfold header_bytes in EL. cbn [length] in EL. rewrite app_length in EL.
  destruct (h_form f) eqn:FM; cbn [fits len_ext] in *; rewrite ?be_length in EL; [lia| |];
    (destruct l; [|cbn [length] in EL; lia]); cbn [app] in E; unfold header_bytes in E; rewrite FM in E;
    cbn [app] in E; injection E as _ E2 _; unfold bit in E2; destruct (is_masked f); cbn [len_field] in E2; lia.
Qed.
