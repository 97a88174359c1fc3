(** C168: a query in the address makes no difference to an upgrade request. *)
From Verif Require Import Common CommonProofs Http_Model Http_Spec Http_Proofs Http_Props Query_Spec Query_Proofs.

(** Full claim: the server answers a request for an address with a query as it does the
    one for the address without.  This is so when the path is not just a slash, nor ends
    in one, and names and values have no further = or / and are not empty: the same reply
    or refusal, and all of the request is used up. *)
Theorem C168_query_makes_no_difference_partial : forall sha1 segs qs hs rest,
  valid_path segs -> segs <> [] -> valid_query qs -> qs <> [] -> Forall valid_line hs ->
  ws_handshake sha1 (request_for (path_bytes segs ++ query qs) hs ++ rest) =
  longer (zlen (query qs)) (ws_handshake sha1 (request_for (path_bytes segs) hs ++ rest)).
Proof. exact same_answer. Qed.
Print Assumptions C168_query_makes_no_difference_partial.

(** So with the lines of C60 the request is accepted. *)
Theorem C168_query_is_accepted_partial : forall sha1 segs qs hs rest key,
  (forall m, all_bytes (sha1 m) /\ length (sha1 m) = 20%nat) ->
  valid_path segs -> segs <> [] -> valid_query qs -> qs <> [] -> Forall valid_line hs -> (length (plain hs) <= 32)%nat ->
  last_value (codes "Sec-WebSocket-Key"%string) hs = Some key -> key <> [] ->
  lines_named (codes "Sec-WebSocket-Protocol"%string) hs = [] ->
  Forall (fun h => val h = codes "13"%string) (lines_named (codes "Sec-WebSocket-Version"%string) hs) ->
  exists reply, let r := request_for (path_bytes segs ++ query qs) hs in
    ws_handshake sha1 (r ++ rest) = Ok (Some (zlen r, reply)) /\
    ws_handshake sha1 (request_for (path_bytes segs) hs) = Ok (Some (zlen (request_for (path_bytes segs) hs), reply)).
Proof.
  intros sha1 segs qs hs rest key H1 H2 Hn Hq Hqn H3 H4 H5 H6 H7 H8. eexists. cbv zeta.
  rewrite (same_answer sha1 segs qs hs rest H2 Hn Hq Hqn H3). rewrite <- !request_is.
  rewrite (handshake_plain sha1 segs hs rest key H1 H2 H3 H4 H5 H6 H7 H8).
  pose proof (handshake_plain sha1 segs hs [] key H1 H2 H3 H4 H5 H6 H7 H8) as P. rewrite app_nil_r in P. rewrite P.
  cbn [longer]. split; [|reflexivity].
  do 3 f_equal. rewrite request_is. unfold request_for, zlen. rewrite !app_length. lia.
Qed.
Print Assumptions C168_query_is_accepted_partial.

(** Every request for the root with a query is refused, whatever else it says. *)
Theorem C168_root_with_query_is_refused : forall sha1 rest, ws_handshake sha1 (codes "GET /?"%string ++ rest) = Ok None.
Proof. exact root_refused. Qed.
Print Assumptions C168_root_with_query_is_refused.

Definition sample_query : list (list Z * list Z) :=
  [(codes "token"%string, codes "dGhl"%string); (codes "view_only"%string, codes "1"%string)].

(** The claim fails of "/?token=abc", and of values with an equals sign, as at the end of
    a token in base64. *)
Theorem C168_query_makes_no_difference_refuted : exists sha1 path q hs reply,
  ws_handshake sha1 (request_for path hs) = Ok (Some (zlen (request_for path hs), reply)) /\
  Forall valid_line hs /\ q = codes "?token=abc"%string /\
  ws_handshake sha1 (request_for (path ++ q) hs) = Ok None.
Proof.
  exists (fun _ => repeat 0 20), [47], (codes "?token=abc"%string), sample. eexists.
  split; [vm_compute; reflexivity|]. split; [apply valids; reflexivity|]. split; [reflexivity|]. vm_compute; reflexivity.
Qed.
Print Assumptions C168_query_makes_no_difference_refuted.

Theorem C168_padded_token_refuted : exists sha1 segs q hs reply,
  valid_path segs /\ segs <> [] /\ Forall valid_line hs /\ q = codes "?token=YWJjZA=="%string /\
  ws_handshake sha1 (request_for (path_bytes segs) hs) = Ok (Some (zlen (request_for (path_bytes segs) hs), reply)) /\
  ws_handshake sha1 (request_for (path_bytes segs ++ q) hs) = Ok None.
Proof.
  exists (fun _ => repeat 0 20), sample_path, (codes "?token=YWJjZA=="%string), sample. eexists.
  split; [exact sample_path_ok|]. split; [discriminate|]. split; [apply valids; reflexivity|]. split; [reflexivity|].
  split; vm_compute; reflexivity.
Qed.
Print Assumptions C168_padded_token_refuted.

(** GET /websockify?token=dGhl&view_only=1 *)
Example C168_ex : valid_path sample_path /\ sample_path <> [] /\ valid_query sample_query /\ sample_query <> [] /\
  Forall valid_line sample /\ (length (plain sample) <= 32)%nat /\
  path_bytes sample_path ++ query sample_query = codes "/websockify?token=dGhl&view_only=1"%string /\
  exists used reply, ws_handshake (fun _ => repeat 0 20) (request_for (path_bytes sample_path ++ query sample_query) sample) = Ok (Some (used, reply)) /\
    used = zlen (request_for (path_bytes sample_path) sample) + 23.
Proof.
  split; [exact sample_path_ok|]. split; [discriminate|]. split.
  { assert (W : forall s, codes s <> [] -> forallb (fun c => (33 <=? c) && (c <=? 126) && negb (existsb (Z.eqb c) [47; 63; 38; 61])) (codes s) = true ->
      word (codes s)).
    { intros s N B. split; [exact N|]. apply Forall_forall. intros c C. rewrite forallb_forall in B. specialize (B c C).
      cbn [existsb] in B. unfold seg_char. lia. }
    repeat (apply Forall_cons; [split; apply W; (discriminate || reflexivity)|]). constructor. }
  split; [discriminate|]. split; [apply valids; reflexivity|]. split; [vm_compute; lia|]. split; [reflexivity|].
  do 2 eexists. split; [vm_compute; reflexivity|vm_compute; reflexivity].
Qed.
