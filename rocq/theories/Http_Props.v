(** HTTP upgrade: C10, C11, C58, C59, C60. *)
From Verif Require Import Common CommonProofs Base64_Model Base64_Spec Base64_Proofs
  Http_Model Http_Spec Http_Proofs.

(** ** Sample data used below *)
Definition L (n v : string) : line := Line (codes n) [32] (codes v).
Definition sample : list line :=
  [L "Host" "example.org"; L "Upgrade" "websocket"; L "Connection" "Upgrade";
   L "Content-Length" "0"; L "Sec-WebSocket-Key" "dGhlIHNhbXBsZSBub25jZQ==";
   L "sec-websocket-version" "13"].
Definition sample_path : list (list Z) := [codes "websockify"%string].

Definition name_charb (c : Z) : bool :=
  (65 <=? c) && (c <=? 90) || (97 <=? c) && (c <=? 122) || (48 <=? c) && (c <=? 57) || (c =? 45).
Definition validb (h : line) : bool :=
  negb (length (name h) =? 0)%nat && forallb name_charb (name h) &&
  forallb (fun c => (c =? 32) || (c =? 9)) (gap h) &&
  forallb (fun c => negb (c =? 13) && negb (c =? 0)) (val h) &&
  match val h with [] => true | c :: _ => negb ((c =? 32) || (c =? 9)) end.

Lemma validb_ok : forall h, validb h = true -> valid_line h.
Proof.
  intros h H. unfold validb in H. rewrite !andb_true_iff, !forallb_forall in H.
  destruct H as ((((A & B) & C) & D) & E). split; [|split; [|split; [|split]]].
  - destruct (name h); [discriminate|discriminate].
  - apply Forall_forall. intros c Hc. specialize (B c Hc). unfold name_charb, name_char in *. lia.
  - apply Forall_forall. intros c Hc. specialize (C c Hc). cbn beta in C. unfold blank. lia.
  - apply Forall_forall. intros c Hc. specialize (D c Hc). cbn beta in D. lia.
  - destruct (val h); [exact I|]. unfold blank. lia.
Qed.

Lemma valids : forall hs, forallb validb hs = true -> Forall valid_line hs.
Proof.
  intros hs H. rewrite forallb_forall in H. apply Forall_forall. intros h Hh. apply validb_ok, H, Hh.
Qed.

Lemma sample_path_ok : valid_path sample_path.
Proof. repeat constructor; cbn; try discriminate; lia. Qed.

(** ** C10
    Full claim: a protocol or version list is normalised to its lower-case form
    without white space, for every value.  False: on any white space the server
    never gets past the character, so every request whose first
    Sec-WebSocket-Protocol line has white space in its first 254 characters
    (e.g. "chat, superchat", the RFC's own example) hangs the server. *)
Theorem C10_white_space_hangs : forall sha1 segs hs rest h,
  valid_path segs -> Forall valid_line hs -> (length (plain hs) <= 32)%nat ->
  hd_error (lines_named (codes "Sec-WebSocket-Protocol"%string) hs) = Some h ->
  Exists (fun c => c = 32 \/ 9 <= c <= 13) (firstn 254 (val h)) ->
  lines_named (codes "Sec-WebSocket-Version"%string) hs = [] ->
  ws_handshake sha1 (request segs hs ++ rest) = Fault Diverges.
Proof.
  intros sha1 segs hs rest h Hp Hv H32 Hh Hex Hve.
  apply (handshake_hangs sha1 segs hs rest h Hp Hv H32 Hh); [|exact Hve].
  eapply Exists_impl; [|exact Hex]. cbn beta. intros c Hc. unfold isspace. lia.
Qed.
Print Assumptions C10_white_space_hangs.

Theorem C10_normalise_refuted : forall sha1, exists segs hs,
  valid_path segs /\ Forall valid_line hs /\
  ws_handshake sha1 (request segs hs) = Fault Diverges.
Proof.
  intros sha1. pose (hs := [L "Sec-WebSocket-Key" "dGhlIHNhbXBsZSBub25jZQ==";
                            L "Sec-WebSocket-Protocol" "chat, superchat"]).
  exists sample_path, hs. split; [exact sample_path_ok|]. split; [apply valids; reflexivity|].
  rewrite <- (app_nil_r (request sample_path hs)).
  apply (C10_white_space_hangs sha1 sample_path hs [] (L "Sec-WebSocket-Protocol" "chat, superchat")).
  - exact sample_path_ok.
  - apply valids. reflexivity.
  - vm_compute. lia.
  - reflexivity.
  - apply Exists_exists. exists 32. split; [vm_compute; tauto|left; reflexivity].
  - reflexivity.
Qed.
Print Assumptions C10_normalise_refuted.

(** Without white space the result is the lower-cased text. *)
Theorem C10_normalise_partial : forall s,
  Forall (fun c => ~ (c = 32 \/ 9 <= c <= 13)) s ->
  tolower_and_remove_ws s = Ok (map lower s).
Proof.
  intros s H. apply normalise_ok. eapply Forall_impl; [|exact H]. cbn beta. intros c Hc. unfold isspace. lia.
Qed.
Print Assumptions C10_normalise_partial.

Example C10_case : tolower_and_remove_ws (codes "CHAT,SuperChat"%string) = Ok (codes "chat,superchat"%string).
Proof. reflexivity. Qed.

(** ** C11
    Full claim: no request can make the parser write outside its table.  Every
    request with more than 32 ordinary header lines does. *)
Theorem C11_33_lines_overflow : forall segs hs rest,
  valid_path segs -> Forall valid_line hs -> (32 < length (plain hs))%nat ->
  http_req_parse (request segs hs ++ rest) = Fault OobWrite.
Proof. exact request_overflow. Qed.
Print Assumptions C11_33_lines_overflow.

Theorem C11_field_table_refuted : exists segs hs,
  valid_path segs /\ Forall valid_line hs /\ http_req_parse (request segs hs) = Fault OobWrite.
Proof.
  exists sample_path, (repeat (L "X-A" "1") 33). split; [exact sample_path_ok|]. split; [apply valids; reflexivity|]. rewrite <- (app_nil_r (request _ _)).
  apply C11_33_lines_overflow; [exact sample_path_ok|apply valids; reflexivity|vm_compute; lia].
Qed.

Print Assumptions C11_field_table_refuted.

(** Any bytes at all with fewer than 33 carriage returns are parsed without a
    fault (or refused), and the parser always terminates; whatever the input,
    the only possible fault is the one above. *)
Theorem C11_parser_total_partial : forall input,
  (exists r, http_req_parse input = Ok r) \/
  (http_req_parse input = Fault OobWrite /\ (33 <= count 13 input)%nat).
Proof. exact parse_total. Qed.
Print Assumptions C11_parser_total_partial.

Example C11_total_case : http_req_parse [71; 69; 84; 32; 255; 0; 13; 10] = Ok None.
Proof. reflexivity. Qed.

(** A request with at most 32 ordinary lines is read exactly: names and values
    of the lines in order, and the length of the header, whatever follows. *)
Theorem C11_request_parsed_partial : forall segs hs rest,
  valid_path segs -> Forall valid_line hs -> (length (plain hs) <= 32)%nat ->
  exists req, http_req_parse (request segs hs ++ rest) = Ok (Some req) /\
    fields req = map (fun h => (name h, val h)) (plain hs) /\
    req_header_length req = length (request segs hs).
Proof.
  intros segs hs rest Hp Hv H32. destruct (request_parsed segs hs rest Hp Hv H32) as [ct E].
  eexists. split; [exact E|]. split; reflexivity.
Qed.
Print Assumptions C11_request_parsed_partial.

Example C11_parsed : valid_path sample_path /\ Forall valid_line sample /\
  (length (plain sample) = 5)%nat.
Proof. split; [exact sample_path_ok|]. split; [apply valids; reflexivity|reflexivity]. Qed.

(** ** C58
    Full claim: the server does not answer an upgrade request before the empty
    line that ends it has arrived.  It does: a segment that ends after any
    header line is taken for the whole request. *)
Theorem C58_cut_request_accepted : forall segs hs,
  valid_path segs -> Forall valid_line hs -> hs <> [] -> (length (plain hs) <= 32)%nat ->
  let cut := request_head segs ++ concat (map line_bytes hs) in
  request segs hs = cut ++ crlf /\
  exists req, http_req_parse cut = Ok (Some req) /\ req_header_length req = length cut.
Proof.
  intros segs hs Hp Hv Hne H32 cut. split; [unfold request, cut; rewrite <- app_assoc; reflexivity|].
  destruct (request_truncated segs hs Hp Hv Hne H32) as [ct E]. fold cut in E.
  eexists. split; [exact E|reflexivity].
Qed.
Print Assumptions C58_cut_request_accepted.

(* the reply is sent although the terminating line is missing *)
Theorem C58_early_answer_refuted : exists sha1 segs hs cut out,
  valid_path segs /\ Forall valid_line hs /\ request segs hs = cut ++ crlf /\
  ws_handshake sha1 cut = Ok (Some (zlen cut, out)).
Proof.
  exists (fun _ => repeat 0 20), sample_path, [L "Sec-WebSocket-Key" "dGhlIHNhbXBsZSBub25jZQ=="].
  exists (request_head sample_path ++ concat (map line_bytes [L "Sec-WebSocket-Key" "dGhlIHNhbXBsZSBub25jZQ=="])).
  eexists. split; [exact sample_path_ok|]. split; [apply valids; reflexivity|].
  split; [reflexivity|]. vm_compute. reflexivity.
Qed.
Print Assumptions C58_early_answer_refuted.

(** ** C59
    Full claim: the subprotocol named in the reply is one the client offered.
    The server checks for "chat" and answers "char". *)
Definition offers_chat : list line :=
  [L "Sec-WebSocket-Key" "dGhlIHNhbXBsZSBub25jZQ=="; L "Sec-WebSocket-Protocol" "chat"].

Theorem C59_subprotocol_refuted : forall sha1,
  (forall m, all_bytes (sha1 m) /\ length (sha1 m) = 20%nat) ->
  exists segs hs token, valid_path segs /\ Forall valid_line hs /\
  map val (lines_named (codes "Sec-WebSocket-Protocol"%string) hs) = [codes "chat"%string] /\
  ws_handshake sha1 (request segs hs) =
    Ok (Some (zlen (request segs hs), response token [codes "Sec-WebSocket-Protocol: char"%string])).
Proof.
  intros sha1 Hsha. exists sample_path, offers_chat, (rfc4648 (sha1 (codes "dGhlIHNhbXBsZSBub25jZQ=="%string ++ guid))).
  split; [exact sample_path_ok|]. split; [apply valids; reflexivity|]. split; [reflexivity|].
  unfold ws_handshake. rewrite <- (app_nil_r (request sample_path offers_chat)) at 1.
  destruct (request_parsed sample_path offers_chat [] sample_path_ok) as [ct E];
    [apply valids; reflexivity|vm_compute; lia|]. rewrite E. cbn [bind fields req_header_length].
  destruct (Hsha (codes "dGhlIHNhbXBsZSBub25jZQ=="%string ++ guid)) as [Hb H20].
  change (scan_fields (map kv (plain offers_chat)) None [COMMA] [COMMA])
    with (Ok (Some (codes "dGhlIHNhbXBsZSBub25jZQ=="%string), codes ",chat,"%string, codes ","%string)).
  cbn [bind].
  change (negb (length (codes ",chat,"%string) =? 1)%nat) with true.
  change (negb (length (codes ","%string) =? 1)%nat) with false.
  change (strstr (codes ",chat,"%string) (codes ",chat,"%string)) with true.
  cbn [negb andb]. rewrite reply_text; [|discriminate|exact Hb].
  pose proof (response_fits _ true false (encoded_20 _ Hb H20)) as F. cbn [app] in *. rewrite F. reflexivity.
Qed.
Print Assumptions C59_subprotocol_refuted.

Example C59_hyp : forall m : list Z, all_bytes ((fun _ => repeat 7 20) m) /\ length ((fun _ : list Z => repeat 7 20) m) = 20%nat.
Proof. intros m. split; [|reflexivity]. repeat constructor; unfold is_byte; lia. Qed.

(** ** C60
    An upgrade request without subprotocols, with any other headers and any
    white space around values, whose version lines (if any) say 13, is answered
    with status 101 and the accept token of RFC 6455 for the client's key, and
    exactly the request is consumed. *)
Theorem C60_handshake_accept : forall sha1 segs hs rest key,
  (forall m, all_bytes (sha1 m) /\ length (sha1 m) = 20%nat) ->
  valid_path segs -> Forall valid_line hs -> (length (plain hs) <= 32)%nat ->
  last_value (codes "Sec-WebSocket-Key"%string) hs = Some key -> key <> [] ->
  lines_named (codes "Sec-WebSocket-Protocol"%string) hs = [] ->
  Forall (fun h => val h = codes "13"%string) (lines_named (codes "Sec-WebSocket-Version"%string) hs) ->
  exists extra,
  ws_handshake sha1 (request segs hs ++ rest) =
    Ok (Some (zlen (request segs hs), response (rfc4648 (sha1 (key ++ guid))) extra)) /\
  (extra = [] \/ extra = [codes "Sec-WebSocket-Version: 13"%string]).
Proof.
  intros sha1 segs hs rest key H1 H2 H3 H4 H5 H6 H7 H8. eexists.
  split; [exact (handshake_plain sha1 segs hs rest key H1 H2 H3 H4 H5 H6 H7 H8)|].
  destruct (lines_named (codes "Sec-WebSocket-Version"%string) hs); [left; reflexivity|right; reflexivity].
Qed.
Print Assumptions C60_handshake_accept.

Example C60_hyp :
  last_value (codes "Sec-WebSocket-Key"%string) sample = Some (codes "dGhlIHNhbXBsZSBub25jZQ=="%string) /\
  lines_named (codes "Sec-WebSocket-Protocol"%string) sample = [] /\
  lines_named (codes "Sec-WebSocket-Version"%string) sample = [L "sec-websocket-version" "13"].
Proof. repeat split. Qed.
