(** Security types on top of the kinds of streams: which layer reads and writes the bytes of
    a connection once the client has chosen a type.  The layers themselves are those of
    WsStream_Model and RsaAes_Model; for TLS, what GnuTLS writes is a parameter. *)
From Verif Require Import Common Auth_Model.
From Verif Require WsStream_Model RsaAes_Model.

(** The kind of the socket the client connected to. *)
(* src/server.c:2031-2040 *)
Inductive kind := Plain | Web.

(** What happens to the stream when a type is chosen: nothing, or its functions are replaced
    by others, which use the socket directly. *)
(* src/stream/rsa-aes.c:185-211, src/stream/gnutls.c:248-292 *)
Inductive layer := Same | Rsa | Tls.

(* src/server.c:351-404 with src/auth/rsa-aes.c:161-162 and src/auth/vencrypt.c:45-139; the
   other types, none and Apple's, do not touch the stream (src/auth/apple-dh.c:25-110) *)
Definition layer_of (type : Z) : layer :=
  if type =? TYPE_VENCRYPT then Tls
  else if (type =? TYPE_RSA_AES) || (type =? TYPE_RSA_AES256) then Rsa
  else Same.

Section Mix.
Variable seal unseal mac : list Z -> list Z -> list Z -> list Z.
Variable record : list Z -> list Z. (* what GnuTLS writes for a piece of data *)

(* src/stream/ws/ws.c:232-249, stream_ws_send for each message *)
Fixpoint web_sends (st : WsStream_Model.ws_stream) (ms : list (list Z)) : res (list Z) :=
  match ms with
  | [] => Ok (concat (WsStream_Model.sent st))
  | m :: ms => let* st := WsStream_Model.ws_send st m in web_sends st ms
  end.

(** The bytes that leave for the client for messages sent from then on. *)
(* src/stream/rsa-aes.c:150-183 (the frames of the stream are gone, rsa-aes.c:209),
   src/stream/gnutls.c:81-124 (GnuTLS writes to the socket, gnutls.c:280) *)
Definition sends_after (k : kind) (type : Z) (ms : list (list Z)) : res (list Z) :=
  match layer_of type, k with
  | Rsa, _ => let* x := RsaAes_Model.send_all seal mac ms RsaAes_Model.counter0 in Ok (snd x)
  | Tls, _ => Ok (concat (map record ms))
  | Same, Web => web_sends WsStream_Model.ws_ready0 ms
  | Same, Plain => Ok (concat ms)
  end.

(* data handed out by reads, src/server.c:1952-1970 *)
Fixpoint handed (l : list WsStream_Model.nread) : list Z :=
  match l with
  | [] => []
  | WsStream_Model.Got d :: l => d ++ handed l
  | WsStream_Model.Neg :: l => handed l
  end.

(** What the server reads when the segments [segs] arrive from then on, with [size] bytes
    of room; with TLS it is up to GnuTLS, [None]. *)
(* src/stream/rsa-aes.c:120-148, src/stream/ws/ws.c:162-230; a plain socket gives what
   arrives, src/stream/tcp.c:184-215 *)
Definition hears_after (k : kind) (type size : Z) (segs : list (list Z)) : option (res (list Z)) :=
  match layer_of type, k with
  | Rsa, _ => Some (let* x := RsaAes_Model.receive unseal mac RsaAes_Model.rstate0 size segs in Ok (snd (fst x)))
  | Tls, _ => None
  | Same, Web => Some (let* x := WsStream_Model.feed (fun _ => Ok None) false WsStream_Model.ws_ready0 size segs in Ok (handed (snd x)))
  | Same, Plain => Some (Ok (concat segs))
  end.
End Mix.
