(** C169: what does not come from the other side is not acted on and ends the connection. *)
From Verif Require Import Common CommonProofs Msg_Model Ev_Spec Upd_Spec Upd_Props Talk_Model RsaAes_Spec RsaAes_Props
  Forge_Spec Forge_Proofs Forge2_Proofs.
From Verif Require Ws_Spec WsStream_Model WsStream_Props RsaAes_Model.

(** Whatever bytes come over the network, in whatever pieces, over an RSA-AES stream:
    what the server acts on is the texts of messages at the front of those bytes whose
    authentication codes are right, each for its place in the order, and nothing else. *)
Theorem C169_only_authentic_messages_are_acted_on :
  forall unseal mac E fuel c segs, Forall all_bytes segs ->
  exists ds ms rest, decodes unseal mac 0 (concat segs) ms rest /\ concat ds = concat ms /\
    acted_on E fuel c ds (talk (rsa_read unseal mac) E fuel (RsaAes_Model.rstate0, []) c segs).
Proof.
  intros unseal mac E fuel c segs F. destruct (talk_authentic unseal mac E fuel c segs F) as (ds & ms & rest & A & B & C).
  exists ds, ms, rest. auto.
Qed.
Print Assumptions C169_only_authentic_messages_are_acted_on.

(** A client has sent [ms].  In their place come [ms], then one whose code is not the one
    for its text, its length and its place, then anything: all that is acted on is some
    of [ms], from the first on, and nothing of what comes after them. *)
Theorem C169_nothing_from_an_altered_message_on :
  forall seal unseal mac, cipher_ok seal unseal mac ->
  forall E fuel c segs ms n text tag after,
    Forall all_bytes segs -> Forall (fun m => zlen m < 2 ^ 16) ms ->
    concat segs = wire seal mac 0 ms ++ be 2 n ++ text ++ tag ++ after ->
    zlen text = n -> 0 <= n < 2 ^ 16 -> zlen tag = 16 ->
    tag <> mac (nonce_of (Z.of_nat (length ms))) (be 2 n) text ->
    exists ds j, concat ds = concat (firstn j ms) /\
      acted_on E fuel c ds (talk (rsa_read unseal mac) E fuel (RsaAes_Model.rstate0, []) c segs).
Proof.
  intros seal unseal mac OK E fuel c segs ms n text tag after F FM W TL B T N.
  destruct (talk_authentic unseal mac E fuel c segs F) as (ds & ps & rest & A & D & R). rewrite W in D.
  destruct (decodes_stops unseal mac seal OK ms 0 n text tag after ps rest) as [j ->]; try assumption.
  exists ds, j. auto.
Qed.
Print Assumptions C169_nothing_from_an_altered_message_on.

(** At the first read at which such a message is whole and next, the client is closed,
    with all else about it as it was, and what comes after is not looked at. *)
Theorem C169_altered_message_ends_the_connection :
  forall unseal mac E fuel s c k n text tag more seg segs,
    0 <= k -> taken k s -> reading c ->
    zlen (RsaAes_Model.rbuf s) < 8192 -> zlen (RsaAes_Model.rbuf s ++ seg) <= 8192 ->
    RsaAes_Model.rbuf s ++ seg = be 2 n ++ text ++ tag ++ more ->
    zlen text = n -> 0 <= n < 2 ^ 16 -> zlen tag = 16 -> tag <> mac (nonce_of k) (be 2 n) text ->
    n <= 4096 - zlen (buf c) ->
    exists st, talk (rsa_read unseal mac) E fuel (s, []) c (seg :: segs) = Ok (st, set_closed true c).
Proof.
  intros unseal mac E fuel s c k n text tag more seg segs K (R & C) (Cu & Ix & Bu) L1 L2 W TL B T N A.
  eapply bad_found; eauto. unfold asked. rewrite Cu. exact A.
Qed.
Print Assumptions C169_altered_message_ends_the_connection.

(** Over a WebSocket, a frame that says goodbye, and one of a kind without a meaning,
    of any length, masked or not, end the connection, and what comes after is not
    looked at.  (For the second, an error must not look like one of having to wait: the
    library leaves errno as it is.) *)
Theorem C169_close_frame_ends_the_connection :
  forall hs E fuel st c f more segs, between st -> reading c -> Ws_Spec.valid_header f ->
  zlen (Ws_Spec.header_bytes f ++ more) <= 4096 ->
  Ws_Spec.h_opcode f = 8 \/ meaningless (Ws_Spec.h_opcode f) ->
  exists st', talk (web_read hs false) E fuel st c ((Ws_Spec.header_bytes f ++ more) :: segs) = Ok (st', set_closed true c).
Proof. exact web_over. Qed.
Print Assumptions C169_close_frame_ends_the_connection.

(* a key press, then another one that somebody has altered, then a third *)
Definition one_key (sym : Z) : list Z := Ev_Spec.wire (Key sym 1 0 0).
Definition good_wire : list Z := RsaAes_Spec.wire toy_seal toy_mac 0 [one_key 97].
Definition bad_text : list Z := toy_seal (nonce_of 1) (be 2 8) (one_key 98).
Definition bad_wire : list Z := be 2 8 ++ bad_text ++ repeat 255 16.
Definition late_wire : list Z := RsaAes_Spec.frame toy_seal toy_mac 2 (one_key 99).

Example C169_case :
  cipher_ok toy_seal toy_seal toy_mac /\ reading fresh /\ taken 0 RsaAes_Model.rstate0 /\ between WsStream_Model.ws_ready0 /\
  repeat 255 16 <> toy_mac (nonce_of 1) (be 2 8) bad_text /\
  Forall all_bytes [good_wire; bad_wire; late_wire] /\
  (exists st c, talk (rsa_read toy_seal toy_mac) (calm false none) 3 (RsaAes_Model.rstate0, []) fresh [good_wire; bad_wire; late_wire] = Ok (st, c) /\
     callbacks (log c) = [KeySym 97 true] /\ closed c = true) /\
  (exists f, Ws_Spec.valid_header f /\ Ws_Spec.h_opcode f = 8 /\ Ws_Spec.h_len f = 2 /\
     zlen (Ws_Spec.header_bytes f ++ [3; 232]) <= 4096).
Proof.
  split; [exact toy_ok|]. split; [repeat split; vm_compute; reflexivity|]. split; [split; reflexivity|].
  split; [repeat split; reflexivity|]. split; [vm_compute; discriminate|].
  split. { repeat (apply Forall_cons; [vm_compute; repeat constructor; discriminate|]). constructor. }
  split. { eexists _, _. split; [vm_compute; reflexivity|]. split; vm_compute; reflexivity. }
  exists (Ws_Spec.FH true 0 8 (Some [1; 2; 3; 4]) Ws_Spec.L7 2). split; [|split; [reflexivity|split; [reflexivity|vm_compute; discriminate]]].
  split; [cbn; lia|]. split; [cbn; lia|]. split; [cbn; lia|]. split; [reflexivity|]. repeat constructor; unfold is_byte; lia.
Qed.

(** The messages before it that were right are not all acted on: those taken by the same
    read are lost with it. *)
Theorem C169_messages_read_with_an_altered_one_can_be_lost :
  exists E fuel c segs st c', concat segs = good_wire ++ bad_wire /\
    reading c /\ closed c = false /\
    talk (rsa_read toy_seal toy_mac) E fuel (RsaAes_Model.rstate0, []) c segs = Ok (st, c') /\
    closed c' = true /\ callbacks (log c') = [].
Proof.
  exists (calm false none), 3%nat, fresh, [good_wire ++ bad_wire]. eexists _, _.
  split; [reflexivity|]. split; [repeat split; vm_compute; reflexivity|]. split; [reflexivity|].
  split; [vm_compute; reflexivity|]. split; vm_compute; reflexivity.
Qed.
Print Assumptions C169_messages_read_with_an_altered_one_can_be_lost.
