(** C158: a client that connects over WebSocket can use the security types it is offered. *)
From Verif Require Import Common CommonProofs Auth_Model Mix_Model.
From Verif Require WsStream_Model WsStream_Proofs RsaAes_Model RsaAes_Proofs RsaAes_Props Net_Proofs.
From Verif Require Import Ws_Spec WsStream_Spec Mix_Spec Mix_Proofs.

(** With a type that leaves the stream alone it can: what it is sent from then on are frames
    that hold the messages, and what it sends in frames arrives (cut where C08 allows).
    Missing: all types with encryption, see below. *)
Theorem C158_websocket_types_partial :
  forall seal unseal mac record type, layer_of type = Same ->
  (forall ms, Forall (fun m => zlen m < 2 ^ 64) ms ->
     exists w, sends_after seal mac record Web type ms = Ok w /\ readable_as w (concat ms)) /\
  (forall size fs segs, 4096 <= size -> binary_stream fs -> Forall (fun s => s <> [] /\ zlen s <= 4096) segs ->
     concat segs = wire fs -> (forall x y, segs = x ++ y -> exists b, cut_point fs (zlen (concat x)) b) ->
     hears_after unseal mac Web type size segs = Some (Ok (data fs))).
Proof.
  intros seal unseal mac record type T. unfold sends_after, hears_after. rewrite T. split.
  - intros ms L. eexists. split; [apply web_frames; [reflexivity|exact L]|]. cbn [WsStream_Model.sent WsStream_Model.ws_ready0 concat app].
    exists (map Net_Proofs.framed ms). split; [|split; [|split; [reflexivity|]]].
    + apply Forall_forall. intros f I. apply in_map_iff in I as (m & <- & I). rewrite Forall_forall in L.
      split; [apply Net_Proofs.framed_valid, L, I|]. split; [reflexivity|]. split; [reflexivity|]. right. left. reflexivity.
    + apply Forall_forall. intros f I. apply in_map_iff in I as (m & <- & I). reflexivity.
    + unfold data. rewrite map_map. cbn. rewrite map_id. reflexivity.
  - intros size fs segs Sz B Sg E Cut.
    destruct (WsStream_Proofs.feed_cut (fun _ => Ok None) false size fs segs [] (data fs) Sz B Sg) as (st & outs & R & _ & D).
    + rewrite app_nil_r. exact E.
    + exact Cut.
    + rewrite E. exact (cut_between fs fs [] (eq_sym (app_nil_r fs))).
    + rewrite R. cbn [bind snd]. rewrite handed_got, D. reflexivity.
Qed.
Print Assumptions C158_websocket_types_partial.
Example C158_same_ex : layer_of TYPE_NONE = Same /\ layer_of TYPE_APPLE_DH = Same /\
  sends_after RsaAes_Props.toy_seal RsaAes_Props.toy_mac (fun m => m) Web TYPE_APPLE_DH [[1; 2]; [3]] = Ok [130; 2; 1; 2; 130; 1; 3] /\
  hears_after RsaAes_Props.toy_seal RsaAes_Props.toy_mac Web TYPE_APPLE_DH 4096
    [[130; 130; 1; 0; 1; 0; 64; 66]] = Some (Ok [65; 66]).
Proof. repeat split; vm_compute; reflexivity. Qed.

(** With any other type, the first message the server sends after the stream was taken over
    (with RSA-AES it is a hash of 20 or 32 bytes) cannot be read as frames.  Of GnuTLS it is
    assumed that its records start with a content type of TLS. *)
Theorem C158_encrypted_cannot_be_read :
  forall seal mac record type m ms, (forall d, exists b r, record d = b :: r /\ 20 <= b <= 23) ->
    layer_of type <> Same -> 0 < zlen m < 256 ->
    exists w, sends_after seal mac record Web type (m :: ms) = Ok w /\ unreadable w.
Proof.
  intros seal mac record type m ms R T L. unfold sends_after. destruct (layer_of type); [contradiction| |].
  - destruct (rsa_first seal mac m ms 0 L) as (c & w & E); [lia|].
    change (RsaAes_Proofs.counter_of 0) with RsaAes_Model.counter0 in E. rewrite E. cbn [bind snd].
    eexists. split; [reflexivity|]. apply short_unreadable.
  - eexists. split; [reflexivity|]. cbn [map concat]. destruct (R m) as (b & r & E & B). rewrite E. cbn [app].
    apply record_unreadable, B.
Qed.
Print Assumptions C158_encrypted_cannot_be_read.
Example C158_read_ex : layer_of TYPE_RSA_AES <> Same /\ layer_of TYPE_RSA_AES256 <> Same /\ layer_of TYPE_VENCRYPT <> Same /\
  (forall d, exists b r, (fun d => [22; 3; 3; 0; zlen d] ++ d) d = b :: r /\ 20 <= b <= 23) /\ 0 < zlen (repeat 7 20) < 256.
Proof.
  split; [discriminate|]. split; [discriminate|]. split; [discriminate|]. split; [|cbn; lia].
  intros d. exists 22. eexists. split; [reflexivity|lia].
Qed.

(** And with RSA-AES, whatever the client sends in frames of whole messages, and however it
    is cut, nothing of it is ever read. *)
Theorem C158_encrypted_cannot_be_heard :
  forall unseal mac type size f fs segs, layer_of type = Rsa -> valid_frame f -> h_fin (f_head f) = true ->
    concat segs = wire (f :: fs) -> hears_after unseal mac Web type size segs = Some (Ok []).
Proof.
  intros unseal mac type size f fs segs T V F E. unfold hears_after. rewrite T.
  unfold wire in E. cbn [map concat] in E. destruct (frame_start f (concat (map frame_bytes fs)) V F) as (n & N & W).
  destruct (receive_stuck unseal mac n segs RsaAes_Model.rstate0 size []) as (s & ok & R & _).
  - unfold RsaAes_Model.BUFSIZE. lia.
  - lia.
  - reflexivity.
  - cbn [RsaAes_Model.rbuf RsaAes_Model.rstate0]. rewrite app_nil_l, app_nil_r, E. exact W.
  - cbn. unfold RsaAes_Model.BUFSIZE. lia.
  - rewrite R. reflexivity.
Qed.
Print Assumptions C158_encrypted_cannot_be_heard.
Definition hash_frame : frame := Frame (FH true 0 2 (Some [1; 2; 3; 4]) L7 20) (repeat 7 20).
Example C158_heard_ex : layer_of TYPE_RSA_AES256 = Rsa /\ valid_frame hash_frame /\ h_fin (f_head hash_frame) = true /\
  concat [firstn 9 (wire [hash_frame]); skipn 9 (wire [hash_frame])] = wire [hash_frame].
Proof.
  split; [reflexivity|]. split; [|split; reflexivity]. split; [|reflexivity].
  repeat (split; [cbn; lia|]). repeat (apply Forall_cons; [unfold is_byte; lia|]). constructor.
Qed.

(** A server that requires encryption offers no others: no client gets in over WebSocket. *)
Theorem C158_encryption_locks_out_websockets :
  forall cfg l, require_auth cfg = true -> require_encryption cfg = true -> init_security_types cfg [] = Ok l ->
    l <> [] /\ Forall (fun type => layer_of type <> Same) l.
Proof.
  intros cfg l A E. unfold init_security_types. rewrite A, E. destruct (has_auth_fn cfg); [|discriminate]. cbn [negb].
  destruct (enable_tls cfg && tls_creds cfg), (have_crypto cfg); cbn; intros [= <-]; (split; [discriminate|]);
    repeat (apply Forall_cons; [discriminate|]); constructor.
Qed.
Print Assumptions C158_encryption_locks_out_websockets.
Example C158_locked_ex : init_security_types (mk_cfg true true true true true true) [] = Ok [TYPE_VENCRYPT; TYPE_RSA_AES256; TYPE_RSA_AES].
Proof. reflexivity. Qed.

(** So the property is false. *)
Theorem C158_websocket_types_refuted :
  exists cfg l type m w, init_security_types cfg [] = Ok l /\ In type l /\
    sends_after RsaAes_Props.toy_seal RsaAes_Props.toy_mac (fun d => d) Web type [m] = Ok w /\ zlen m = 20 /\
    unreadable w /\ ~ exists d, readable_as w d.
Proof.
  exists (mk_cfg false true false true true true), [TYPE_RSA_AES256; TYPE_RSA_AES], TYPE_RSA_AES, (repeat 7 20).
  destruct (rsa_first RsaAes_Props.toy_seal RsaAes_Props.toy_mac (repeat 7 20) [] 0) as (c & w & E); [cbn; lia|lia|].
  exists (0 :: w). split; [reflexivity|]. split; [right; left; reflexivity|]. split.
  - unfold sends_after. change (layer_of TYPE_RSA_AES) with Rsa. cbv iota.
    change (RsaAes_Proofs.counter_of 0) with RsaAes_Model.counter0 in E. rewrite E. reflexivity.
  - split; [reflexivity|]. split; [apply short_unreadable|].
    intros (d & fs & A & F & W & _). destruct fs as [|f fs]; [discriminate|].
    destruct (short_unreadable w) as [_ N]. apply (N [] f (wire fs)); [exact (Forall_inv A)|].
    rewrite app_nil_r, <- W. reflexivity.
Qed.
Print Assumptions C158_websocket_types_refuted.
