(** C86: which input makes reading a WebSocket fail. *)
From Verif Require Import Common CommonProofs Ws_Model Ws_Spec Ws_Proofs WsStream_Model WsStream_Spec WsStream_Proofs
  WsStream2_Proofs WsStream_Props WsStream2_Props WsFault_Spec WsFault_Proofs WsFault_Props WsFault2_Proofs.
From Verif Require Http_Model Http_Spec Http_Props HttpLen_Proofs.

(** If a read faults, before or after the upgrade, with the bytes of [seg] just
    received, then
    - after the upgrade: a ping is too long (C09);
    - before it: the request parser faults on the text received so far (C10,
      C11). *)
Theorem C86_only_known_faults_partial : forall sha1 eagain st size seg e,
  length (rb st) = 4096%nat -> 0 <= ri st <= 4096 -> all_bytes (rb st) ->
  0 <= payload_length (hdr st) -> 0 <= size -> all_bytes seg -> zlen seg <= 4096 - ri st ->
  ws_read (Http_Model.ws_handshake sha1) eagain st size (Bytes seg) = Fault e ->
  let text := firstn (Z.to_nat (ri st)) (rb st) ++ seg in
  if ready st
  then e = OobRead /\ long_ping (payload_length (hdr st)) (current_opcode st) text
  else Http_Model.ws_handshake sha1 (cstr text) = Fault e.
Proof.
  intros sha1 eagain st size seg e H1 H2 H3 H4 H5 H6 H7 H.
  assert (Hi : inv st) by exact (conj H1 (conj H2 (conj H3 H4))).
  assert (Hn : forall s n reply, Http_Model.ws_handshake sha1 s = Ok (Some (n, reply)) -> 15 <= n <= zlen s).
  { intros s n reply E. unfold Http_Model.ws_handshake in E.
    destruct (Http_Model.http_req_parse s) as [[req|]|] eqn:P; try discriminate. cbn [bind] in E.
    pose proof (HttpLen_Proofs.accepted_length s req P) as Hr.
    destruct (Http_Model.scan_fields _ _ _ _) as [[[ch pr] ve]|]; [|discriminate]. cbn [bind] in E.
    destruct ch as [ch|]; [|discriminate].
    destruct (_ && _); [discriminate|]. destruct (_ && _); [discriminate|].
    destruct (_ <? 512)%nat; [|discriminate].
    injection E as En _. rewrite <- En. unfold zlen. lia. }
  cbv zeta. fold (received st). unfold ws_read in H.
  destruct (segment_received st seg Hi H6 H7) as (st1 & E & Hi1 & K). rewrite E in H. cbn [bind] in H.
  destruct K as [C|(_ & R & RD & HD & CO)]; [rewrite C in H; discriminate H|].
  destruct (closed st1); [discriminate H|]. rewrite RD in H. rewrite <- R, <- HD, <- CO.
  destruct (ready st).
  - destruct Hi1 as (A1 & A2 & A3 & A4). exact (C56_only_long_pings_overread eagain st1 size e A1 A2 A3 A4 H5 H).
  - assert (RI : ri st1 < 4096).
    { destruct (Z.lt_ge_cases (ri st1) 4096) as [X|X]; [exact X|]. unfold read_handshake in H.
      replace (WS_BUF <=? ri st1) with true in H by (unfold WS_BUF; lia). discriminate H. }
    destruct (handshake_fault (Http_Model.ws_handshake sha1) eagain st1 size e Hi1 H5) as [X|(-> & n & reply & HS & LP)]; [|exact H|exact X|exfalso].
    { intros s n reply X. pose proof (Hn _ _ _ X). lia. }
    pose proof (Hn _ _ _ HS) as NB. pose proof (cstr_le (received st1)) as CL. pose proof (received_len st1 Hi1) as RL.
    destruct LP as (b & l & f & rest & EQ & _ & _ & V & _ & LONG & _).
    apply (f_equal (@length Z)) in EQ. rewrite skipn_length, !app_length in EQ. rewrite zlen_app in LONG.
    assert (K : zlen (header_bytes f) <= 14).
    { pose proof V as (_ & _ & _ & KV). unfold header_bytes, key_bytes, zlen. cbn [length]. rewrite app_length.
      destruct (h_form f); cbn [len_ext]; rewrite ?be_length; destruct (h_key f); cbn [length] in *; lia. }
    unfold zlen in *. lia.
Qed.
Print Assumptions C86_only_known_faults_partial.

(** Both kinds occur: 33 header lines before the upgrade, a long ping after it. *)
Example C86_known_faults :
  let hs := Http_Model.ws_handshake some_sha in
  let lines := codes "GET / HTTP/1.1"%string ++ [13; 10] ++ flat_map (fun _ => codes "A: b"%string ++ [13; 10]) (repeat tt 33) ++ [13; 10] in
  ws_read hs false ws_new 4096 (Bytes lines) = Fault OobWrite /\ hs (cstr lines) = Fault OobWrite /\
  ws_read hs false ws_ready0 4096 (Bytes big_ping) = Fault OobRead.
Proof. cbv zeta. split; [vm_compute; reflexivity|]. split; vm_compute; reflexivity. Qed.
