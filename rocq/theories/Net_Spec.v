(** What a viewer gets of the messages the server sends, through each kind of stream. *)
From Verif Require Import Common.
From Verif Require Tcp_Model Ws_Spec WsStream_Model WsStream_Spec RsaAes_Model RsaAes_Spec Gnutls_Model.

(** A plain stream accepted the messages, is open and has nothing left to send; [w] is what
    the kernel took. *)
Definition over_tcp (ms : list (list Z)) (w : list Z) : Prop :=
  exists ops s, Tcp_Model.run ops Tcp_Model.tcp0 = Ok s /\ Tcp_Model.accepted s = map Tcp_Model.Fixed ms /\
    Tcp_Model.closed s = false /\ Tcp_Model.queue s = [] /\ w = Tcp_Model.wire s.

(** The same of a TLS stream; [w] is what GnuTLS took for its records. *)
Definition over_tls (ms : list (list Z)) (w : list Z) : Prop :=
  exists h ops s, Gnutls_Model.run ops (Gnutls_Model.upgrade [] h) = Ok s /\
    Gnutls_Model.accepted (Gnutls_Model.snd_half s) = ms /\ Gnutls_Model.closed (Gnutls_Model.snd_half s) = false /\
    Gnutls_Model.queue (Gnutls_Model.snd_half s) = [] /\ w = Gnutls_Model.wire (Gnutls_Model.snd_half s).

(** stream_send of a WebSocket stream, once for each message. *)
Fixpoint ws_sends (st : WsStream_Model.ws_stream) (ms : list (list Z)) : res WsStream_Model.ws_stream :=
  match ms with
  | [] => Ok st
  | m :: ms => let* st := WsStream_Model.ws_send st m in ws_sends st ms
  end.
(** The viewer takes the bytes for frames that are not masked, in some way. *)
Definition unframes (w : list Z) (fs : list WsStream_Spec.frame) : Prop :=
  Forall WsStream_Spec.valid_frame fs /\ Forall (fun f => Ws_Spec.h_key (WsStream_Spec.f_head f) = None) fs /\ WsStream_Spec.wire fs = w.

(** Other frames, such as pongs, are not for the application. *)
Definition is_binary (f : WsStream_Spec.frame) : bool :=
  (Ws_Spec.h_opcode (WsStream_Spec.f_head f) =? 0) || (Ws_Spec.h_opcode (WsStream_Spec.f_head f) =? 2).

(** What the viewer gets of the messages [ms]: over TCP; in WebSocket frames over TCP; in
    RSA-AES messages, of which [k] were sent before, over TCP; over TLS. *)
Inductive carried (seal unseal mac : list Z -> list Z -> list Z -> list Z) (ms : list (list Z)) : list Z -> Prop :=
| by_tcp w : over_tcp ms w -> carried seal unseal mac ms w
| by_ws st st' w fs : WsStream_Model.closed st = false -> WsStream_Model.sent st = [] -> Forall (fun m => zlen m < 2 ^ 64) ms ->
    ws_sends st ms = Ok st' -> over_tcp (WsStream_Model.sent st') w -> unframes w fs ->
    carried seal unseal mac ms (WsStream_Spec.data (filter is_binary fs))
| by_rsa k c bytes ps w texts : RsaAes_Spec.cipher_ok seal unseal mac ->
    RsaAes_Model.send_all seal mac ms (Nat.iter k (fun c => snd (RsaAes_Model.update_nonce c)) RsaAes_Model.counter0) = Ok (c, bytes) ->
    concat ps = bytes -> over_tcp ps w -> RsaAes_Spec.decodes unseal mac (Z.of_nat k) w texts [] ->
    carried seal unseal mac ms (concat texts)
| by_tls w : over_tls ms w -> carried seal unseal mac ms w.
