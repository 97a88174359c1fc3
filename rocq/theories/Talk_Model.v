(** The server reads from a client through one of the kinds of streams: the receive
    side of src/server.c (Msg_Model) on top of the WebSocket, RSA-AES and TLS streams
    (WsStream_Model, RsaAes_Model, Gnutls_Model). *)
From Verif Require Import Common Msg_Model.
From Verif Require WsStream_Model RsaAes_Model Gnutls_Model.

(* src/server.c:1956-1957, the room in the message buffer, and 1458-1460, in the
   buffer of a long cut text: what stream_read is asked for *)
Definition asked (c : client) : Z :=
  match cut c with
  | Some t => Z.min (ct_length t - zlen (ct_data t)) MSG_BUFFER_SIZE
  | None => MSG_BUFFER_SIZE - zlen (buf c)
  end.

Section Talk.
Context {St : Type}.
(* stream_read on the stream's state, asked for so many bytes, when the given bytes
   have come from the network: the bytes read, and whether the connection is over
   (the stream reported its end, or an error) *)
(* src/stream/interface.c:30-34 *)
Variable read : St -> Z -> list Z -> res (St * list Z * bool).

(* src/server.c:1938-1995: one read each time the socket is readable.  A client whose
   connection is over is closed (1944-1948, 1965-1969); bytes returned by the same
   read are handled before that *)
Fixpoint talk (E : env) (fuel : nat) (st : St) (c : client) (segs : list (list Z)) : res (St * client) :=
  match segs with
  | [] => Ok (st, c)
  | s :: segs =>
      let* x := read st (asked c) s in
      let '(st, d, over) := x in
      let* c := receive E (S fuel) c (Some d) in
      if over : bool then Ok (st, set_closed true c) else talk E fuel st c segs
  end.
End Talk.

(* src/stream/tcp.c:196-215: the state is what the kernel holds; a read of 0 bytes is
   taken for the end of the connection *)
Definition tcp_read (st : list Z) (size : Z) (seg : list Z) : res (list Z * list Z * bool) :=
  let k := st ++ seg in
  Ok (skipn (Z.to_nat size) k, firstn (Z.to_nat size) k, size <=? 0).

(* src/stream/ws/ws.c:214-230, after the upgrade; the segment is what one read(2)
   returns *)
Definition web_read (hs : list Z -> res (option (Z * list Z))) (eagain : bool)
  (st : WsStream_Model.ws_stream) (size : Z) (seg : list Z) : res (WsStream_Model.ws_stream * list Z * bool) :=
  let* x := WsStream_Model.ws_read hs eagain st size (WsStream_Model.Bytes seg) in
  match x with
  | (st, WsStream_Model.Got l) => Ok (st, l, WsStream_Model.closed st)
  | (st, WsStream_Model.Neg) => Ok (st, [], true)
  end.

(* src/stream/rsa-aes.c:120-148.  What does not fit the stream's buffer stays with the
   kernel, the second part of the state *)
Definition rsa_read (unseal mac : list Z -> list Z -> list Z -> list Z)
  (st : RsaAes_Model.rstate * list Z) (size : Z) (seg : list Z)
  : res (RsaAes_Model.rstate * list Z * list Z * bool) :=
  let* x := RsaAes_Model.read unseal mac (fst st) size (snd st ++ seg) in
  match x with
  | (s, RsaAes_Model.RGot d, kept) => Ok ((s, kept), d, RsaAes_Model.rclosed s)
  | (s, RsaAes_Model.RErr, kept) => Ok ((s, kept), [], true)
  end.

(* src/stream/gnutls.c:190-219: the segment is one record *)
Definition tls_read (st : Gnutls_Model.tls) (size : Z) (seg : list Z)
  : res (Gnutls_Model.tls * list Z * bool) :=
  let st := Gnutls_Model.mk_tls (Gnutls_Model.snd_half st) (Gnutls_Model.ph st)
              (Gnutls_Model.input st ++ [Gnutls_Model.Rec seg]) (Gnutls_Model.pending st)
              (Gnutls_Model.got st) (Gnutls_Model.told st) (Gnutls_Model.freed st) in
  match Gnutls_Model.recv (Z.to_nat size) st with
  | (Gnutls_Model.Data b, st) => Ok (st, b, false)
  | (Gnutls_Model.TryAgain, st) => Ok (st, [], false)
  | (Gnutls_Model.End, st) | (Gnutls_Model.Error, st) => Ok (st, [], true)
  end.
