(** WebSocket framing: C04 - C07. *)
From Verif Require Import Common CommonProofs Ws_Model Ws_Spec Ws_Proofs.

(** C04.  Every unmasked header the server writes (any opcode, any payload
    length up to 2^64 - 1, whatever was in the 14-byte buffer) is exactly the
    RFC 6455 header with the shortest length form, is at most 10 bytes, stays
    in the buffer, and is parsed back to the same fields whatever follows it
    and whatever the parser's struct held. *)
Theorem C04_server_header_round_trip : forall dst fn op n hl k,
  zlen dst = 14 -> 0 <= op < 16 -> 0 <= n < 2 ^ 64 ->
  let h := mk_hdr fn op false n k hl in
  let wire := header_bytes (FH fn 0 op None (minimal_form n) n) in
  zlen wire <= 10 /\
  (exists junk, ws_write_frame_header dst h = Ok (wire ++ junk, zlen wire) /\
                zlen (wire ++ junk) = 14) /\
  (forall h0 rest, exists h1,
     ws_parse_frame_header h0 (wire ++ rest) = (true, h1) /\
     fin h1 = fn /\ opcode h1 = op /\ mask h1 = false /\
     payload_length h1 = n /\ header_length h1 = zlen wire).
Proof.
  intros dst fn op n hl k Hd Ho Hn h wire.
  split; [exact (server_header_size h)|]. split.
  - destruct (write_unmasked dst h eq_refl Ho Hn) as (tl & E1 & E2); [lia|].
    exists tl. split; [exact E1|]. unfold zlen in *. fold wire in E2.
    change (server_header h) with (FH fn 0 op None (minimal_form n) n) in E2.
    fold wire in E2. rewrite E2. exact Hd.
  - intros h0 rest. eexists.
    split; [exact (parse_complete h0 _ rest (server_header_valid h Ho Hn))|].
    repeat split.
Qed.
Print Assumptions C04_server_header_round_trip.

(* a 70000-byte binary frame *)
Example C04_example :
  header_bytes (FH true 0 2 None (minimal_form 70000) 70000)
  = [0x82; 127; 0; 0; 0; 0; 0; 1; 0x11; 0x70] /\
  ws_write_frame_header (repeat 0xaa 14) (mk_hdr true 2 false 70000 [0;0;0;0] 0)
  = Ok ([0x82; 127; 0; 0; 0; 0; 0; 1; 0x11; 0x70] ++ [0xaa; 0xaa; 0xaa; 0xaa], 10).
Proof. split; reflexivity. Qed.

(** C05.  The parser accepts exactly the byte strings that start with a
    complete header and reports that header's fields; on every strict prefix of
    a header it asks for more data.  All three length forms, masked or not, any
    reserved bits. *)
Theorem C05_parser_accepts_complete : forall h0 f rest,
  valid_header f ->
  exists h1, ws_parse_frame_header h0 (header_bytes f ++ rest) = (true, h1) /\
    fin h1 = h_fin f /\ opcode h1 = h_opcode f /\ mask h1 = is_masked f /\
    payload_length h1 = h_len f /\
    (forall k, h_key f = Some k -> masking_key h1 = k) /\
    header_length h1 = zlen (header_bytes f).
Proof.
  intros h0 f rest Hv. eexists. split; [exact (parse_complete h0 f rest Hv)|].
  cbn. repeat split. intros k ->. reflexivity.
Qed.
Print Assumptions C05_parser_accepts_complete.

Theorem C05_parser_waits_on_prefix : forall h0 f p q,
  valid_header f -> header_bytes f = p ++ q -> q <> [] ->
  fst (ws_parse_frame_header h0 p) = false.
Proof. exact parse_prefix. Qed.
Print Assumptions C05_parser_waits_on_prefix.

Theorem C05_parser_sound : forall h0 buf h1,
  all_bytes buf -> ws_parse_frame_header h0 buf = (true, h1) ->
  exists f rest, valid_header f /\ buf = header_bytes f ++ rest /\
    fin h1 = h_fin f /\ opcode h1 = h_opcode f /\ mask h1 = is_masked f /\
    payload_length h1 = h_len f /\ header_length h1 = zlen (header_bytes f).
Proof.
  intros h0 buf h1 Hb H. destruct (parse_sound h0 buf h1 Hb H) as (f & rest & Hv & E & ->).
  exists f, rest. repeat split; try assumption; try apply Hv.
Qed.
Print Assumptions C05_parser_sound.

(* masked ping with a 200-byte payload, length in the 16-bit form, cut at every
   place inside the header *)
Example C05_example :
  let f := FH true 0 9 (Some [1; 2; 3; 4]) L16 200 in
  valid_header f /\
  header_bytes f = [0x89; 0xfe; 0; 200; 1; 2; 3; 4] /\
  map (fun i => fst (ws_parse_frame_header hdr0 (firstn i (header_bytes f ++ [5; 6]))))
      (seq 0 11)
  = [false; false; false; false; false; false; false; false; true; true; true].
Proof.
  split; [|split; reflexivity]. repeat split; cbn; try lia.
  repeat constructor; unfold is_byte; lia.
Qed.

(** C06.  "A masked header written by the server code is the RFC header with
    the key after the length" is false: the key is stored over the first four
    bytes, for every masked header that is written at all. *)
Theorem C06_masked_header_write_refuted :
  exists dst h f dst' n,
    zlen dst = 14 /\ valid_header f /\ mask h = true /\
    fin h = h_fin f /\ opcode h = h_opcode f /\ payload_length h = h_len f /\
    h_key f = Some (masking_key h) /\ h_form f = minimal_form (h_len f) /\
    ws_write_frame_header dst h = Ok (dst', n) /\
    firstn (Z.to_nat n) dst' <> header_bytes f.
Proof.
  exists (repeat 0 14), (mk_hdr true 2 true 5 [1; 2; 3; 4] 0),
         (FH true 0 2 (Some [1; 2; 3; 4]) L7 5), ([1; 2; 3; 4] ++ repeat 0 10), 6.
  repeat split; try discriminate; cbn; try lia.
  repeat constructor; unfold is_byte; lia.
Qed.
Print Assumptions C06_masked_header_write_refuted.

Theorem C06_masked_header_is_key_partial : forall dst h dst' n,
  mask h = true -> length (masking_key h) = 4%nat ->
  ws_write_frame_header dst h = Ok (dst', n) -> firstn 4 dst' = masking_key h.
Proof. exact write_masked_overwrites. Qed.
Print Assumptions C06_masked_header_is_key_partial.

(** C07.  Copying a masked payload out of the receive buffer undoes the
    client's masking, for every payload, key and following bytes; it never
    reads past the bytes present. *)
Theorem C07_masking_undone : forall h d rest,
  mask h = true ->
  ws_copy_payload h (masked (masking_key h) d ++ rest) (zlen d) = Ok d.
Proof. exact copy_payload_unmask. Qed.
Print Assumptions C07_masking_undone.

Theorem C07_unmasked_copied : forall h d rest,
  mask h = false -> ws_copy_payload h (d ++ rest) (zlen d) = Ok d.
Proof. exact copy_payload_plain. Qed.
Print Assumptions C07_unmasked_copied.

Theorem C07_in_place_masking_undone : forall h d rest,
  mask h = true -> payload_length h = zlen d ->
  ws_apply_mask h (masked (masking_key h) d ++ rest) = Ok (d ++ rest).
Proof. exact apply_mask_unmask. Qed.
Print Assumptions C07_in_place_masking_undone.

Example C07_example :
  masked [0x37; 0xfa; 0x21; 0x3d] (codes "Hello"%string) = [0x7f; 0x9f; 0x4d; 0x51; 0x58] /\
  ws_copy_payload (mk_hdr true 2 true 5 [0x37; 0xfa; 0x21; 0x3d] 6)
    [0x7f; 0x9f; 0x4d; 0x51; 0x58; 99] 5 = Ok (codes "Hello"%string).
Proof. split; reflexivity. Qed.
