(** WebSocket streams: the upgrade stage (C86), frames without data (C87). *)
From Verif Require Import Common CommonProofs Ws_Model Ws_Spec Ws_Proofs
  WsStream_Model WsStream_Spec WsStream_Proofs WsStream2_Proofs WsStream_Props.
From Verif Require Http_Model Http_Spec Http_Props.

(** ** C86
    [handshake] is what the request parser says about the text received so far:
    nothing yet, or how long the request is and what to answer.  The stream
    before the upgrade holds back [queue], what the server wanted to send. *)
Definition before_upgrade (queue : list (list Z)) : ws_stream :=
  mk_ws hdr0 0 0 (repeat 0 4096) false queue false true.

(** A request of any length below the buffer's, arriving in any pieces, the last
    one together with any binary frames: nothing is read until the request is
    complete; then the answer is sent, in front of all that was held back, and the
    data of the frames is read. *)
Theorem C86_upgrade : forall handshake eagain size segs last queue request reply fs,
  4096 <= size -> Forall (fun s => s <> []) (segs ++ [last]) ->
  concat segs ++ last = request ++ wire fs -> zlen (request ++ wire fs) < 4096 -> binary_stream fs ->
  (forall x y, segs = x ++ y -> x <> [] -> handshake (cstr (concat x)) = Ok None) ->
  handshake (cstr (request ++ wire fs)) = Ok (Some (zlen request, reply)) ->
  exists st more,
    feed handshake eagain (before_upgrade queue) size (segs ++ [last])
      = Ok (st, map (fun _ => Got []) segs ++ [Got (data fs)]) /\
    sent st = (reply :: queue) ++ more /\ ready st = true /\ closed st = false.
Proof. exact upgrade_run. Qed.
Print Assumptions C86_upgrade.

Definition sample_request : list Z := Http_Spec.request Http_Props.sample_path Http_Props.sample.
Definition some_sha (_ : list Z) : list Z := repeat 7 20.

(* the request in two pieces, with a masked frame behind it *)
Example C86_example :
  let all := sample_request ++ wire [hello] in
  let hs := Http_Model.ws_handshake some_sha in
  hs (cstr (firstn 20 all)) = Ok None /\
  exists reply, hs (cstr all) = Ok (Some (zlen sample_request, reply)) /\
  exists st, feed hs false (before_upgrade [[1; 2]]) 4096 [firstn 20 all; skipn 20 all]
     = Ok (st, [Got []; Got (codes "Hello"%string)]) /\ sent st = [reply; [1; 2]].
Proof.
  cbv zeta. split; [vm_compute; reflexivity|]. eexists. split; [vm_compute; reflexivity|].
  eexists. split; vm_compute; reflexivity.
Qed.

(** Whatever arrives, before or after the upgrade, as long as the kernel delivers
    no more than was asked for: the reads stay within the 4096 bytes of the
    buffer and return at most [size] bytes.  The faults left are those of the
    request parser itself (C10, C11) and the over-read by a ping (C09). *)
Theorem C86_reading_is_safe_partial : forall sha1 eagain st size seg,
  length (rb st) = 4096%nat -> 0 <= ri st <= 4096 -> all_bytes (rb st) ->
  0 <= payload_length (hdr st) -> 0 <= size -> all_bytes seg -> zlen seg <= 4096 - ri st ->
  match ws_read (Http_Model.ws_handshake sha1) eagain st size (Bytes seg) with
  | Fault e => e = OobRead \/ exists text, Http_Model.ws_handshake sha1 text = Fault e
  | Ok (st', r) =>
      length (rb st') = 4096%nat /\ 0 <= ri st' <= 4096 /\ all_bytes (rb st') /\
      0 <= payload_length (hdr st') /\
      match r with Got l => zlen l <= size | Neg => True end
  end.
Proof.
  intros sha1 eagain st size seg H1 H2 H3 H4 H5 H6 H7.
  assert (Hn : forall s n reply, Http_Model.ws_handshake sha1 s = Ok (Some (n, reply)) -> 0 <= n <= zlen s).
  { intros s n reply E. unfold Http_Model.ws_handshake in E.
    destruct (Http_Model.http_req_parse s) as [[req|]|] eqn:P; try discriminate. cbn [bind] in E.
    assert (Hr : (Http_Model.req_header_length req <= length s)%nat).
    { unfold Http_Model.http_req_parse in P.
      destruct (Http_Model.http_request _ _) as [[l ok]|]; [|discriminate]. cbn [bind] in P.
      destruct ok; [|discriminate]. cbn [negb] in P.
      destruct (Http_Model.http_header _ _ _) as [[[r l'] ok]|]; [|discriminate]. cbn [bind] in P.
      destruct ok; [|discriminate]. cbn [negb] in P.
      destruct (Http_Model.nxt l'); [|discriminate]. inversion P; subst. cbn [Http_Model.req_header_length]. lia. }
    destruct (Http_Model.scan_fields _ _ _ _) as [[[ch pr] ve]|]; [|discriminate]. cbn [bind] in E.
    destruct ch as [ch|]; [|discriminate].
    destruct (_ && _); [discriminate|]. destruct (_ && _); [discriminate|].
    destruct (_ <? 512)%nat; [|discriminate].
    injection E as En _. rewrite <- En. unfold zlen. lia. }
  pose proof (ws_read_safe (Http_Model.ws_handshake sha1) eagain st size seg
    (conj H1 (conj H2 (conj H3 H4))) H5 H6 H7 Hn) as H.
  destruct (ws_read _ eagain st size (Bytes seg)) as [[st' [l|]]|e]; [| |exact H].
  - destruct H as [(A & B & C & D) E]. auto.
  - destruct H as (A & B & C & D). auto.
Qed.
Print Assumptions C86_reading_is_safe_partial.

Example C86_safe_example : exists st,
  ws_read (Http_Model.ws_handshake some_sha) false ws_new 4096 (Bytes (repeat 65 4095)) = Ok (st, Got []) /\
  ri st = 4095 /\ closed st = false.
Proof. eexists. split; [vm_compute; reflexivity|]. split; reflexivity. Qed.

(** A request that fills the buffer closes the connection, and leaves everything
    else as it was; so does reading on with a full buffer. *)
Theorem C86_too_long_a_request : forall handshake eagain st size old seg junk,
  ri st = zlen old -> rb st = old ++ junk -> length (rb st) = 4096%nat ->
  closed st = false -> ready st = false -> seg <> [] -> zlen (old ++ seg) = 4096 ->
  exists st', ws_read handshake eagain st size (Bytes seg) = Ok (st', Neg) /\ closed st' = true /\
    rb st' = old ++ seg /\ sent st' = sent st.
Proof.
  intros handshake eagain st size old seg junk H1 H2 H3 H4 H5 H6 H7.
  apply request_too_long; [|exact H6|exact H7].
  split; [exact H1|]. split; [exists junk; exact H2|]. split; [exact H3|split; assumption].
Qed.
Print Assumptions C86_too_long_a_request.

Theorem C86_full_buffer_closes : forall handshake eagain st size n, closed st = false -> ri st = 4096 ->
  exists st', ws_read handshake eagain st size n = Ok (st', Got []) /\ closed st' = true /\
    rb st' = rb st /\ ri st' = ri st /\ sent st' = sent st.
Proof. exact full_buffer. Qed.
Print Assumptions C86_full_buffer_closes.

Example C86_too_long_example : exists st,
  ws_read (Http_Model.ws_handshake some_sha) false ws_new 4096 (Bytes (repeat 65 4096)) = Ok (st, Neg) /\ closed st = true.
Proof. eexists. split; vm_compute; reflexivity. Qed.

(** ** C87
    [st] holds [bytes]: they are what was received and not yet looked at. *)
Definition received (st : ws_stream) (bytes : list Z) : Prop :=
  ri st = zlen bytes /\ (exists junk, rb st = bytes ++ junk) /\ length (rb st) = 4096%nat /\
  closed st = false /\ ready st = true.

(** A text or pong frame of any length, of which [d] has arrived ([rest] follows
    it if it is complete): no data is read, nothing is sent, exactly the frame is
    taken away. *)
Theorem C87_text_and_pong_are_skipped : forall eagain st size f d rest,
  valid_header f -> (h_opcode f = 1 \/ h_opcode f = 10) ->
  received st (header_bytes f ++ d ++ rest) -> payload_length (hdr st) = 0 ->
  zlen d <= h_len f -> (zlen d = h_len f \/ rest = []) ->
  exists st', read_ready eagain st size = Ok (st', Got []) /\ received st' rest /\
    sent st' = sent st /\ payload_length (hdr st') = h_len f - zlen d /\
    current_opcode st' = h_opcode f.
Proof. exact nodata_frame. Qed.
Print Assumptions C87_text_and_pong_are_skipped.

(** The remaining payload of such a frame. *)
Theorem C87_rest_is_skipped : forall eagain st size d rest,
  (current_opcode st = 1 \/ current_opcode st = 10) ->
  received st (d ++ rest) -> 0 < payload_length (hdr st) ->
  zlen d <= payload_length (hdr st) -> (zlen d = payload_length (hdr st) \/ rest = []) ->
  exists st', read_ready eagain st size = Ok (st', Got []) /\ received st' rest /\
    sent st' = sent st /\ payload_length (hdr st') = payload_length (hdr st) - zlen d /\
    current_opcode st' = current_opcode st.
Proof. exact nodata_more. Qed.
Print Assumptions C87_rest_is_skipped.

(** A close frame closes the stream; no data is read and nothing is sent. *)
Theorem C87_close_frame_closes : forall eagain st size f rest,
  valid_header f -> h_opcode f = 8 ->
  received st (header_bytes f ++ rest) -> payload_length (hdr st) = 0 ->
  exists st', read_ready eagain st size = Ok (st', Got []) /\ closed st' = true /\ sent st' = sent st.
Proof. exact close_frame. Qed.
Print Assumptions C87_close_frame_closes.

(** Other frame types make the read fail, unless errno happens to be EAGAIN. *)
Theorem C87_unknown_frame_fails : forall eagain st size f rest,
  valid_header f -> ~ In (h_opcode f) [0; 1; 2; 8; 9; 10] ->
  received st (header_bytes f ++ rest) -> payload_length (hdr st) = 0 ->
  exists st', read_ready eagain st size = Ok (st', if eagain then Got [] else Neg) /\ sent st' = sent st.
Proof. exact unknown_frame. Qed.
Print Assumptions C87_unknown_frame_fails.

Definition text_frame : frame := Frame (FH true 0 1 (Some [1; 2; 3; 4]) L7 5) (codes "Hello"%string).

Example C87_example : exists st,
  feed no_handshake false ws_ready0 4096
    [firstn 8 (frame_bytes text_frame); skipn 8 (frame_bytes text_frame);
     frame_bytes hello; frame_bytes (Frame (FH true 0 8 None L7 2) [3; 232])]
  = Ok (st, [Got []; Got []; Got (codes "Hello"%string); Got []]) /\ closed st = true.
Proof. eexists. split; vm_compute; reflexivity. Qed.
