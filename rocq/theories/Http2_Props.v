(** Which upgrade requests are accepted: C59, C60. *)
From Verif Require Import Common CommonProofs Base64_Model Base64_Spec Base64_Proofs
  Http_Model Http_Spec Http_Proofs Http2_Spec Http2_Proofs Http_Props.

Lemma seen : forall vs, Forall no_white_space vs -> Forall visible vs.
Proof.
  intros vs H. eapply Forall_impl; [|exact H]. intros v Hv. eapply Forall_impl; [|exact Hv].
  cbn beta. intros c Hc. unfold isspace. lia.
Qed.

(** Values without white space, of any number and in any case, up to 255 bytes
    with the commas: the request is accepted exactly if it offers no subprotocol
    or "chat" among others, and names no version or 13 among others.  The answer
    then has the token for the key; otherwise nothing is answered. *)
Theorem C59_only_chat_is_accepted_partial : forall sha1 segs hs rest key,
  (forall m, all_bytes (sha1 m) /\ length (sha1 m) = 20%nat) ->
  valid_path segs -> Forall valid_line hs -> (length (plain hs) <= 32)%nat ->
  last_value (codes "Sec-WebSocket-Key"%string) hs = Some key -> key <> [] ->
  let protocols := map val (lines_named (codes "Sec-WebSocket-Protocol"%string) hs) in
  let versions := map val (lines_named (codes "Sec-WebSocket-Version"%string) hs) in
  Forall no_white_space protocols -> Forall no_white_space versions ->
  zlen (offer protocols) <= 255 -> zlen (offer versions) <= 255 ->
  let acceptable := (protocols = [] \/ contains (offer protocols) (codes ",chat,"%string)) /\
                    (versions = [] \/ contains (offer versions) (codes ",13,"%string)) in
  (acceptable -> exists extra, ws_handshake sha1 (request segs hs ++ rest) =
      Ok (Some (zlen (request segs hs), response (rfc4648 (sha1 (key ++ guid))) extra))) /\
  (~ acceptable -> ws_handshake sha1 (request segs hs ++ rest) = Ok None).
Proof.
  intros sha1 segs hs rest key H1 H2 H3 H4 H5 H6 protocols versions Hp Hv Zp Zv acceptable.
  destruct (handshake_decides sha1 segs hs rest key H1 H2 H3 H4 H5 H6 (seen _ Hp) (seen _ Hv) Zp Zv) as [A B].
  split; [|exact B]. intros H. eexists. exact (A H).
Qed.
Print Assumptions C59_only_chat_is_accepted_partial.

Definition offers (protocols version : string) : list line :=
  [L "Sec-WebSocket-Key" "dGhlIHNhbXBsZSBub25jZQ=="; L "Sec-WebSocket-Protocol" protocols;
   L "Sec-WebSocket-Version" version].

Example C59_accepted :
  let v := map val (lines_named (codes "Sec-WebSocket-Protocol"%string) (offers "binary,Chat" "13")) in
  Forall no_white_space v /\ zlen (offer v) = 13 /\ contains (offer v) (codes ",chat,"%string).
Proof.
  cbv zeta. split; [|split; [reflexivity|]].
  - repeat constructor; cbv; intros [H|[H1 H2]]; try discriminate; try (apply H1; reflexivity); try (apply H2; reflexivity).
  - exists (codes ",binary"%string), []. reflexivity.
Qed.

(* chatter is not chat *)
Example C59_refused : exists out, (forall rest, ws_handshake (fun _ => repeat 0 20) (request sample_path (offers "chatter,superchat" "13") ++ rest) = Ok None) /\
  ws_handshake (fun _ => repeat 0 20) (request sample_path (offers "binary,CHAT" "8,13")) = Ok (Some (zlen (request sample_path (offers "binary,CHAT" "8,13")), out)).
Proof.
  eexists. split; [|vm_compute; reflexivity]. intros rest.
  assert (Hs : forall m : list Z, all_bytes ((fun _ => repeat 0 20) m) /\ length ((fun _ : list Z => repeat 0 20) m) = 20%nat).
  { intros m. split; [|reflexivity]. repeat constructor; unfold is_byte; lia. }
  destruct (C59_only_chat_is_accepted_partial (fun _ => repeat 0 20) sample_path (offers "chatter,superchat" "13") rest
    (codes "dGhlIHNhbXBsZSBub25jZQ=="%string) Hs sample_path_ok) as [_ R].
  - apply valids. reflexivity.
  - vm_compute. lia.
  - reflexivity.
  - discriminate.
  - repeat constructor; cbv; intros [H|[H1 H2]]; try discriminate; try (apply H1; reflexivity); try (apply H2; reflexivity).
  - repeat constructor; cbv; intros [H|[H1 H2]]; try discriminate; try (apply H1; reflexivity); try (apply H2; reflexivity).
  - vm_compute. discriminate.
  - vm_compute. discriminate.
  - apply R. intros [[H|H] _]; [discriminate|]. apply strstr_spec in H. vm_compute in H. discriminate.
Qed.
