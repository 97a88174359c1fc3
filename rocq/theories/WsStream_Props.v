(** WebSocket stream: C08, C09, C56, C57. *)
From Verif Require Import Common CommonProofs Ws_Model Ws_Spec Ws_Proofs
  WsStream_Model WsStream_Spec WsStream_Proofs.

(** C08.  Full claim: however the peer's bytes are cut into segments, the data
    read is the data of the binary frames.  It is false in four ways:
    - the mask phase restarts in every chunk (a cut inside a masked payload);
    - a cut inside a header leaves the 7-bit length behind, and the rest of the
      header is then delivered as payload;
    - an empty frame stops the read with later frames still in the buffer;
    - so does any control frame. *)
Definition segmentation_independent : Prop :=
  forall hs fs segs, binary_stream fs ->
    Forall (fun s => s <> [] /\ zlen s <= 4096) segs ->
    concat segs = wire fs ->
    exists st outs, feed hs false ws_ready0 4096 segs = Ok (st, map Got outs) /\
      concat outs = data fs.

Definition no_handshake (_ : list Z) : res (option (Z * list Z)) := Ok None.

Definition hello : frame :=
  Frame (FH true 0 2 (Some [1; 2; 3; 4]) L7 5) (codes "Hello"%string).

Lemma hello_ok : binary_stream [hello].
Proof.
  assert (B : all_bytes [1; 2; 3; 4]) by (repeat constructor; unfold is_byte; lia).
  repeat split; repeat constructor; cbn; try lia; try discriminate; try exact B.
Qed.

Theorem C08_segmentation_refuted : ~ segmentation_independent.
Proof.
  intros H. specialize (H no_handshake [hello]
    [header_bytes (f_head hello) ++ firstn 1 (body hello); skipn 1 (body hello)] hello_ok).
  destruct H as (st & outs & E & Ed).
  - repeat constructor; discriminate.
  - reflexivity.
  - vm_compute in E. inversion E as [[E1 E2]]. 
    destruct outs as [|o1 [|o2 [|o3 outs]]]; try discriminate.
    cbn in E2. inversion E2; subst. discriminate.
Qed.
Print Assumptions C08_segmentation_refuted.

(* the same frame cut inside its header *)
Theorem C08_header_cut_refuted : exists fs segs,
  binary_stream fs /\ concat segs = wire fs /\
  exists st outs, feed no_handshake false ws_ready0 4096 segs = Ok (st, map Got outs) /\
    concat outs <> data fs /\ closed st = true.
Proof.
  exists [hello], [firstn 3 (wire [hello]); skipn 3 (wire [hello])].
  split; [exact hello_ok|]. split; [reflexivity|].
  eexists. exists [[]; []]. split; [vm_compute; reflexivity|]. split; [discriminate|reflexivity].
Qed.
Print Assumptions C08_header_cut_refuted.

(* one segment holding an empty continuation followed by data: the data stays
   in the buffer *)
Theorem C08_empty_frame_refuted :
  exists a b, valid_frame a /\ valid_frame b /\
    h_opcode (f_head a) = 2 /\ f_data a = [] /\ h_opcode (f_head b) = 2 /\
    exists st, ws_read no_handshake false ws_ready0 4096 (Bytes (wire [a; b])) = Ok (st, Got []) /\
      data [a; b] <> [] /\ closed st = false.
Proof.
  exists (Frame (FH false 0 2 None L7 0) []), (Frame (FH true 0 2 None L7 2) [65; 66]).
  repeat split; cbn; try lia.
  eexists. split; [vm_compute; reflexivity|]. split; [discriminate|reflexivity].
Qed.
Print Assumptions C08_empty_frame_refuted.

(** What does hold: if every segment ends at a cut point (between frames, or
    inside a payload, at a multiple of four bytes when masked), then after any
    number of segments exactly the data before the cut has been delivered, in
    order, and the stream is still open.  Any number and size of frames, all
    length forms, fragmented messages, any buffer size of at least 4096. *)
Theorem C08_segmentation_partial : forall hs eagain size fs segs rest before,
  4096 <= size -> binary_stream fs ->
  Forall (fun s => s <> [] /\ zlen s <= 4096) segs ->
  concat segs ++ rest = wire fs ->
  (forall x y, segs = x ++ y -> exists b, cut_point fs (zlen (concat x)) b) ->
  cut_point fs (zlen (concat segs)) before ->
  exists st outs, feed hs eagain ws_ready0 size segs = Ok (st, map Got outs) /\
    closed st = false /\ concat outs = before.
Proof. exact feed_cut. Qed.
Print Assumptions C08_segmentation_partial.

Example C08_example :
  let segs := [header_bytes (f_head hello) ++ firstn 4 (body hello);
               skipn 4 (body hello) ++ wire [hello]] in
  concat segs = wire [hello; hello] /\
  (forall x y, segs = x ++ y -> exists b, cut_point [hello; hello] (zlen (concat x)) b) /\
  exists st, feed no_handshake false ws_ready0 4096 segs
             = Ok (st, [Got (codes "Hell"%string); Got (codes "oHello"%string)]).
Proof.
  split; [reflexivity|]. split.
  - intros x y H. destruct x as [|a [|b [|c x]]]; cbn in H; inversion H; subst.
    + exists []. apply (cut_between _ [] [hello; hello]). reflexivity.
    + exists (codes "Hell"%string).
      apply (cut_inside _ [] hello [hello] 4); [reflexivity|cbn; lia|right; reflexivity].
    + exists (codes "HelloHello"%string). apply (cut_between _ [hello; hello] []). reflexivity.
  - eexists. vm_compute. reflexivity.
Qed.

(** C09.  Full claim: a ping is answered with a pong carrying the same data. *)
Theorem C09_ping_echo_refuted :
  exists f, valid_frame f /\ h_opcode (f_head f) = 9 /\
    exists st, ws_read no_handshake false ws_ready0 4096 (Bytes (frame_bytes f)) = Ok (st, Got []) /\
    concat (sent st) <> frame_bytes (Frame (FH true 0 10 None L7 (h_len (f_head f))) (f_data f)).
Proof.
  exists (Frame (FH true 0 9 (Some [1; 2; 3; 4]) L7 2) [65; 66]).
  split; [repeat split; cbn; try lia; repeat constructor; unfold is_byte; lia|].
  split; [reflexivity|]. eexists. split; [vm_compute; reflexivity|]. discriminate.
Qed.
Print Assumptions C09_ping_echo_refuted.

(** A ping announcing more than is in a full buffer makes the server read past
    the end of its receive buffer (and send what it finds to the client). *)
Definition big_ping : list Z :=
  header_bytes (FH true 0 9 (Some [1; 2; 3; 4]) L16 5000) ++ repeat 0 4088.

Theorem C09_ping_overread_refuted : exists bytes, zlen bytes = 4096 /\
  ws_read no_handshake false ws_ready0 4096 (Bytes bytes) = Fault OobRead.
Proof. exists big_ping. split; vm_compute; reflexivity. Qed.
Print Assumptions C09_ping_overread_refuted.

(** What does hold: a complete ping is answered by a pong frame of the same
    length whose payload is the ping's payload as it was on the wire, so the
    same data exactly when the ping was unmasked; the ping is consumed. *)
Theorem C09_ping_echo_partial : forall st size key d junk,
  let f := FH true 0 9 key (minimal_form (zlen d)) (zlen d) in
  let on_wire := match key with None => d | Some k => masked k d end in
  valid_header f ->
  hdr st = hdr0 -> ready st = true -> closed st = false ->
  rb st = header_bytes f ++ on_wire ++ junk -> length (rb st) = 4096%nat ->
  ri st = zlen (header_bytes f) + zlen d ->
  exists st', read_ready false st size = Ok (st', Got []) /\
    concat (sent st') = concat (sent st)
       ++ header_bytes (FH true 0 10 None (minimal_form (zlen d)) (zlen d)) ++ on_wire /\
    ri st' = 0 /\ closed st' = false /\ payload_length (hdr st') = 0.
Proof.
  intros st size key d junk f on_wire Hv Hh Hr Hc Hrb Hl Hri.
  destruct (ping_complete st size f key d junk eq_refl Hv Hh Hr Hc Hrb Hl Hri) as (st' & E & Hs & Hhold & Hp).
  exists st'. split; [exact E|]. split.
  - rewrite Hs, concat_app. cbn [concat]. rewrite app_nil_r. reflexivity.
  - destruct Hhold as (R & _ & _ & C & _). split; [exact R|]. split; [exact C|exact Hp].
Qed.
Print Assumptions C09_ping_echo_partial.

Example C09_example :
  exists st, ws_read no_handshake false ws_ready0 4096
     (Bytes (header_bytes (FH true 0 9 None L7 2) ++ [65; 66])) = Ok (st, Got []) /\
  concat (sent st) = [0x8a; 2; 65; 66].
Proof. eexists. split; vm_compute; reflexivity. Qed.

(** C56.  Whatever bytes arrive, reading terminates, stores at most [size]
    bytes for the caller and never writes outside the receive buffer; the only
    memory fault is the over-read of C09.  [inv] is the state invariant: buffer
    of 4096 bytes, fill level within it. *)
Theorem C56_ws_read_safe_partial : forall eagain st size,
  length (rb st) = 4096%nat -> 0 <= ri st <= 4096 -> all_bytes (rb st) ->
  0 <= payload_length (hdr st) -> 0 <= size ->
  match read_ready eagain st size with
  | Fault e => e = OobRead
  | Ok (st', r) =>
      length (rb st') = 4096%nat /\ 0 <= ri st' <= 4096 /\ all_bytes (rb st') /\
      0 <= payload_length (hdr st') /\
      match r with Got l => zlen l <= size | Neg => True end
  end.
Proof.
  intros eagain st size H1 H2 H3 H4 H5.
  pose proof (ready_safe eagain st size (conj H1 (conj H2 (conj H3 H4))) H5) as H.
  destruct (read_ready eagain st size) as [[st' [l|]]|e]; cbn in H; [| |exact H].
  - destruct H as [(A & B & C & D) E]. auto.
  - destruct H as (A & B & C & D). auto.
Qed.
Print Assumptions C56_ws_read_safe_partial.

Theorem C56_ws_read_safe_refuted :
  exists st size, length (rb st) = 4096%nat /\ 0 <= ri st <= 4096 /\ all_bytes (rb st) /\
    payload_length (hdr st) = 0 /\ 0 <= size /\ read_ready false st size = Fault OobRead.
Proof.
  exists (mk_ws hdr0 0 4096 big_ping false [] true false), 4096.
  assert (Ha : all_bytes big_ping).
  { unfold big_ping. apply Forall_app. split.
    - repeat constructor; unfold is_byte; cbn; lia.
    - apply Forall_forall. intros x Hx. apply repeat_spec in Hx. subst. unfold is_byte. lia. }
  repeat split; try (cbn [rb ri]; lia); try exact Ha; vm_compute; reflexivity.
Qed.
Print Assumptions C56_ws_read_safe_refuted.

(** C57.  Everything the server sends to a WebSocket client, directly or
    through a deferred send, is one unmasked binary frame holding exactly the
    payload. *)
Theorem C57_sent_frames : forall st payload,
  closed st = false -> zlen payload < 2 ^ 64 ->
  exists st', ws_send st payload = Ok st' /\
    concat (sent st') = concat (sent st) ++
      frame_bytes (Frame (FH true 0 2 None (minimal_form (zlen payload)) (zlen payload)) payload).
Proof.
  intros st payload Hc Hp. eexists. split; [exact (ws_send_frames st payload Hc Hp)|].
  cbn [tcp_send sent closed]. rewrite Hc, !concat_app. cbn [concat].
  rewrite !app_nil_r, <- app_assoc. reflexivity.
Qed.
Print Assumptions C57_sent_frames.

Theorem C57_deferred_frames : forall buf, zlen buf < 2 ^ 64 ->
  ws_chained_exec buf =
    Ok (frame_bytes (Frame (FH true 0 2 None (minimal_form (zlen buf)) (zlen buf)) buf)).
Proof. exact ws_chained_frames. Qed.
Print Assumptions C57_deferred_frames.

Example C57_example :
  exists st', ws_send ws_ready0 (codes "abc"%string) = Ok st' /\ concat (sent st') = [0x82; 3; 97; 98; 99].
Proof. eexists. split; vm_compute; reflexivity. Qed.
