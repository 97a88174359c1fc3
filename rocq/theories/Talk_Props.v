(** C160: what a client says reaches the server the same through every kind of stream. *)
From Verif Require Import Common CommonProofs Msg_Model Msg_Spec Msg2_Spec Ev_Spec Ev_Proofs Upd_Spec Upd_Props
  Talk_Model Talk_Spec Talk_Proofs Talk4_Proofs.
From Verif Require Ws_Spec WsStream_Model WsStream_Spec WsStream_Props RsaAes_Model RsaAes_Spec RsaAes_Props Gnutls_Model.

(** The messages [ms], each of at most [n] bytes and no cut text, and the beginning of
    another one, [rest], leave the client as handling the messages one by one does, and
    the beginning in its buffer, whatever kind of stream the bytes come through.
    Missing: pieces that end inside a WebSocket header or within four masked bytes,
    WebSocket frames that are empty or not binary, RSA-AES messages that are empty, and
    pieces, records or messages that are longer than what the server asks for. *)
Theorem C160_messages_through_any_stream_partial :
  forall seal unseal mac E n bytes go, way seal unseal mac E n bytes go -> 1 <= n <= 4096 ->
  forall fuel c ms rest c', listening c -> Forall (short n) ms -> begins n rest -> bytes = concat ms ++ rest ->
    handled E c ms c' -> go fuel c = Ok (set_buf rest c').
Proof. exact way_heard. Qed.
Print Assumptions C160_messages_through_any_stream_partial.

(** So it makes no difference which kind of stream it is, nor what the pieces are. *)
Theorem C160_streams_make_no_difference_partial :
  forall seal unseal mac E n bytes go1 go2,
  way seal unseal mac E n bytes go1 -> way seal unseal mac E n bytes go2 -> 1 <= n <= 4096 ->
  forall fuel c ms rest c', listening c -> Forall (short n) ms -> begins n rest -> bytes = concat ms ++ rest ->
    handled E c ms c' -> exists c2, go1 fuel c = Ok c2 /\ go2 fuel c = Ok c2 /\ log c2 = log c' /\ closed c2 = closed c'.
Proof.
  intros seal unseal mac E n bytes go1 go2 W1 W2 N fuel c ms rest c' L SH BE B HA.
  exists (set_buf rest c').
  split; [exact (way_heard _ _ _ _ _ _ _ W1 N fuel c ms rest c' L SH BE B HA)|].
  split; [exact (way_heard _ _ _ _ _ _ _ W2 N fuel c ms rest c' L SH BE B HA)|]. split; reflexivity.
Qed.
Print Assumptions C160_streams_make_no_difference_partial.

(** Key presses, pointer movements and requests cause exactly the callbacks they
    describe, in their order, through every kind of stream. *)
Theorem C160_events_through_any_stream_partial :
  forall seal unseal mac E n bytes go, way seal unseal mac E n bytes go -> 10 <= n <= 4096 ->
  forall fuel c evs rest, listening c -> cu_on c = false -> Forall good_event evs -> begins n rest ->
    bytes = concat (map Ev_Spec.wire evs) ++ rest ->
    exists c2, go fuel c = Ok c2 /\ callbacks (log c2) = callbacks (log c) ++ map callback evs.
Proof.
  intros seal unseal mac E n bytes go W N fuel c evs rest L CU G BE B.
  destruct (events_handled E evs c G (proj1 L) CU) as (c' & HA & CB).
  exists (set_buf rest c'). split; [|exact CB].
  apply (way_heard _ _ _ _ _ _ _ W ltac:(lia) fuel c (map Ev_Spec.wire evs) rest c' L); auto.
  apply Forall_map, Forall_forall. intros e _. split; [apply wire_whole|].
  destruct e; cbn; split; (lia || discriminate).
Qed.
Print Assumptions C160_events_through_any_stream_partial.

(* a key goes down, the pointer moves, a part of another message *)
Definition said : list event := [Key 97 1 0 0; Mouse 1 300 5].
Definition spoken : list Z := concat (map Ev_Spec.wire said) ++ [5; 1].
Definition web_frame (d : list Z) : WsStream_Spec.frame :=
  WsStream_Spec.Frame (Ws_Spec.FH true 0 2 (Some [1; 2; 3; 4]) Ws_Spec.L7 (zlen d)) d.

Lemma web_frame_ok d : zlen d <= 125 -> WsStream_Spec.valid_frame (web_frame d).
Proof.
  intros L. split; [|reflexivity]. split; [cbn; lia|]. split; [cbn; lia|].
  split; [cbn; unfold zlen in *; lia|]. split; [reflexivity|]. repeat constructor; unfold is_byte; lia.
Qed.

Lemma web_pair_ok a b : a <> [] -> b <> [] -> zlen a <= 125 -> zlen b <= 125 -> WsStream_Spec.binary_stream [web_frame a; web_frame b].
Proof.
  intros A B LA LB. split; [|split; [|reflexivity]].
  - apply Forall_cons; [apply web_frame_ok, LA|]. apply Forall_cons; [apply web_frame_ok, LB|constructor].
  - apply Forall_cons; [split; [left; reflexivity|exact A]|]. apply Forall_cons; [split; [left; reflexivity|exact B]|constructor].
Qed.

Example C160_case :
  listening fresh /\ cu_on fresh = false /\ Forall good_event said /\ begins 10 [5; 1] /\
  (exists go, way RsaAes_Props.toy_seal RsaAes_Props.toy_seal RsaAes_Props.toy_mac (calm false none) 10 spoken go) /\
  (exists hs eagain fs segs, WsStream_Spec.binary_stream fs /\ WsStream_Spec.data fs = spoken /\ length segs = 2%nat /\
     Forall (fun s => s <> [] /\ zlen s + 10 <= 4097) segs /\ concat segs = WsStream_Spec.wire fs /\
     (forall x y, segs = x ++ y -> exists b, WsStream_Spec.cut_point fs (zlen (concat x)) b) /\
     exists st c, talk (web_read hs eagain) (calm false none) 3 WsStream_Model.ws_ready0 fresh segs = Ok (st, c) /\
       callbacks (log c) = [KeySym 97 true; Pointer 300 5 1]) /\
  (exists ms segs, concat ms = spoken /\ Forall (fun m => 0 < zlen m <= 9) ms /\ Forall (fun s => zlen s + 9 + 10 <= 4098) segs /\
     concat segs = RsaAes_Spec.wire RsaAes_Props.toy_seal RsaAes_Props.toy_mac 0 ms /\ length segs = 3%nat) /\
  (exists segs, concat segs = spoken /\ length segs = 4%nat /\ Forall (fun s => zlen s + 10 <= 4097) segs).
Proof.
  split; [repeat split|]. split; [reflexivity|]. split; [repeat constructor; cbn; lia|].
  split. { exists [5; 1; 0; 0; 0; 0], [0; 0; 0; 0]. split; [|split; [reflexivity|discriminate]]. split; [constructor; reflexivity|]. split; [cbn; lia|discriminate]. }
  split. { eexists. change spoken with (concat [firstn 3 spoken; skipn 3 spoken]). apply by_tcp. repeat constructor; vm_compute; discriminate. }
  split.
  { set (a := firstn 3 spoken). set (b := skipn 3 spoken). set (fs := [web_frame a; web_frame b]).
    exists WsStream_Props.no_handshake, false, fs, [WsStream_Spec.frame_bytes (web_frame a); WsStream_Spec.frame_bytes (web_frame b)].
    split; [apply web_pair_ok; vm_compute; discriminate|].
    split; [reflexivity|]. split; [reflexivity|].
    split; [repeat (apply Forall_cons; [split; vm_compute; discriminate|]); constructor|]. split; [reflexivity|].
    split.
    - intros x y X. destruct x as [|x1 [|x2 [|x3 x]]].
      + eexists. apply (WsStream_Spec.cut_between fs [] fs eq_refl).
      + injection X as <- X. eexists. exact (WsStream_Spec.cut_between fs [web_frame a] [web_frame b] eq_refl).
      + injection X as <- <- X. eexists. exact (WsStream_Spec.cut_between fs fs [] eq_refl).
      + discriminate.
    - eexists _, _. split; [vm_compute; reflexivity|]. vm_compute. reflexivity. }
  split.
  { exists [firstn 7 spoken; skipn 7 spoken]. set (w := RsaAes_Spec.wire RsaAes_Props.toy_seal RsaAes_Props.toy_mac 0 [firstn 7 spoken; skipn 7 spoken]).
    exists [firstn 1 w; firstn 30 (skipn 1 w); skipn 31 w]. repeat split; try reflexivity; repeat constructor; vm_compute; congruence. }
  exists [firstn 1 spoken; []; firstn 8 (skipn 1 spoken); skipn 9 spoken]. repeat split; repeat constructor; vm_compute; congruence.
Qed.

(** Without these conditions it is false.  One key is pressed, over a WebSocket, and the
    network cuts the frame inside its payload: the application is told of another key. *)
Theorem C160_messages_through_any_stream_refuted :
  exists E fuel hs eagain fs segs c sym sym' st c',
    WsStream_Spec.binary_stream fs /\ WsStream_Spec.data fs = Ev_Spec.wire (Key sym 1 0 0) /\
    concat segs = WsStream_Spec.wire fs /\ listening c /\
    talk (web_read hs eagain) E fuel WsStream_Model.ws_ready0 c segs = Ok (st, c') /\
    callbacks (log c') = [KeySym sym' true] /\ sym <> sym'.
Proof.
  set (f := web_frame (Ev_Spec.wire (Key 97 1 0 0))).
  exists (calm false none), 3%nat, WsStream_Props.no_handshake, false, [f],
    [firstn 11 (WsStream_Spec.frame_bytes f); skipn 11 (WsStream_Spec.frame_bytes f)], fresh, 97.
  eexists _, _, _. split.
  { split; [|split; [|reflexivity]]; (apply Forall_cons; [|constructor]); [apply web_frame_ok; vm_compute; discriminate|].
    split; [left; reflexivity|discriminate]. }
  split; [reflexivity|]. split; [reflexivity|]. split; [repeat split|].
  split; [vm_compute; reflexivity|]. split; [vm_compute; reflexivity|]. discriminate.
Qed.
Print Assumptions C160_messages_through_any_stream_refuted.
