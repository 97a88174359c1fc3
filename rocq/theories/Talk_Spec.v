(** What a client sends, for the statements in Talk_Props.v. *)
From Verif Require Import Common Msg_Model Msg_Spec Talk_Model.
From Verif Require WsStream_Model WsStream_Spec RsaAes_Model RsaAes_Spec Gnutls_Model.

(** One client message of at most [n] bytes, other than cut text. *)
Definition short (n : Z) (m : list Z) : Prop := whole m /\ zlen m <= n /\ hd 0 m <> 6.
(** The beginning of one, not all of it. *)
Definition begins (n : Z) (rest : list Z) : Prop :=
  exists m more, short n m /\ m = rest ++ more /\ more <> [].

(** A client that has sent no part of a message and is not held up by a fence. *)
Definition listening (c : client) : Prop := quiet c /\ buf c = [] /\ idx c = 0.

Section Ways.
Variable seal unseal mac : list Z -> list Z -> list Z -> list Z.
Variable E : env.

(** [way n bytes go]: [go] is what the server does with a client when [bytes] come from
    it over some kind of stream, cut into pieces, of which there is one each time the
    stream is readable.  The pieces are so short that a message of [n] bytes and a piece
    together fit the server's 4096 bytes, and

    - over a WebSocket the bytes are in masked or unmasked binary frames of any number
      and size and no piece ends inside a header or, if masked, anywhere but after a
      multiple of four bytes (see C08),
    - over RSA-AES they are in messages of [k] bytes or less, none empty, and a message
      of the client, a message of RSA-AES and a piece fit together (see C16),
    - over TLS each piece is a record (see C101). *)
Inductive way (n : Z) : list Z -> (nat -> client -> res client) -> Prop :=
| by_tcp segs :
    Forall (fun s => zlen s + n <= 4097) segs ->
    way n (concat segs) (fun fuel c => let* x := talk tcp_read E fuel [] c segs in Ok (snd x))
| by_ws hs eagain fs segs :
    WsStream_Spec.binary_stream fs ->
    Forall (fun s => s <> [] /\ zlen s + n <= 4097) segs ->
    concat segs = WsStream_Spec.wire fs ->
    (forall x y, segs = x ++ y -> exists b, WsStream_Spec.cut_point fs (zlen (concat x)) b) ->
    way n (WsStream_Spec.data fs)
      (fun fuel c => let* x := talk (web_read hs eagain) E fuel WsStream_Model.ws_ready0 c segs in Ok (snd x))
| by_rsa k ms segs :
    0 < k -> RsaAes_Spec.cipher_ok seal unseal mac ->
    Forall (fun m => 0 < zlen m <= k) ms ->
    Forall (fun s => zlen s + k + n <= 4098) segs ->
    concat segs = RsaAes_Spec.wire seal mac 0 ms ->
    way n (concat ms)
      (fun fuel c => let* x := talk (rsa_read unseal mac) E fuel (RsaAes_Model.rstate0, []) c segs in Ok (snd x))
| by_tls st segs :
    Gnutls_Model.input st = [] -> Gnutls_Model.pending st = [] ->
    Forall (fun s => zlen s + n <= 4097) segs ->
    way n (concat segs) (fun fuel c => let* x := talk tls_read E fuel st c segs in Ok (snd x)).
End Ways.
