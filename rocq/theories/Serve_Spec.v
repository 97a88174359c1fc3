(** What is expected of a whole connection, for the statements in Serve_Props.v. *)
From Verif Require Import Common Pixels_Model Init_Model Auth_Model Msg_Model Msg2_Spec Ev_Spec Talk_Model Serve_Model.
From Verif Require WsStream_Model WsStream_Spec RsaAes_Model RsaAes_Spec Gnutls_Model.

(** What the client made the application be told, and what happened in the handshake. *)
Definition input_of (g : stage) : list out :=
  match g with Serving _ c => callbacks (Msg_Model.log c) | _ => [] end.
Definition history (g : stage) : list Auth_Model.event :=
  match g with Shaking c _ | Serving c _ | Gone c => Auth_Model.log c end.

(** What the server hands out are bytes, if bytes come from the network. *)
Definition reads_bytes {St : Type} (read : St -> Z -> list Z -> res (St * list Z * bool)) (inv : St -> Prop) : Prop :=
  forall s size x s' d over, inv s -> all_bytes x -> read s size x = Ok (s', d, over) -> inv s' /\ all_bytes d.

(** [as_told l f w h]: a handshake [l] ends with ServerInit, saying that the screen is
    [w] by [h] pixels in the format [f], and the call of the application. *)
Definition as_told (l : list Auth_Model.event) (f : pixfmt) (w h : Z) : Prop :=
  exists before c name, l = before ++ [Auth_Model.Sent c (be 2 w ++ be 2 h ++ pixel_format_bytes f ++ be 4 (zlen name) ++ name); NewClient].

Section Roads.
Variable seal unseal mac : list Z -> list Z -> list Z -> list Z.
Variables (cfg : config) (e : Auth_Model.env) (E : Msg_Model.env) (shown : fb) (seq : Z).

(** [road n bytes go]: as [way] in Talk_Spec.v, but [go] is what the server does with a
    connection that need not be past its handshake. *)
Inductive road (n : Z) : list Z -> (nat -> stage -> res stage) -> Prop :=
| on_tcp segs :
    Forall (fun s => zlen s + n <= 4097) segs ->
    road n (concat segs) (fun fuel g => let* x := attend cfg e E shown seq tcp_read fuel [] g segs in Ok (snd x))
| on_ws hs eagain fs segs :
    WsStream_Spec.binary_stream fs ->
    Forall (fun s => s <> [] /\ zlen s + n <= 4097) segs ->
    concat segs = WsStream_Spec.wire fs ->
    (forall x y, segs = x ++ y -> exists b, WsStream_Spec.cut_point fs (zlen (concat x)) b) ->
    road n (WsStream_Spec.data fs)
      (fun fuel g => let* x := attend cfg e E shown seq (web_read hs eagain) fuel WsStream_Model.ws_ready0 g segs in Ok (snd x))
| on_rsa k ms segs :
    0 < k -> RsaAes_Spec.cipher_ok seal unseal mac ->
    Forall (fun m => 0 < zlen m <= k) ms ->
    Forall (fun s => zlen s + k + n <= 4098) segs ->
    concat segs = RsaAes_Spec.wire seal mac 0 ms ->
    road n (concat ms)
      (fun fuel g => let* x := attend cfg e E shown seq (rsa_read unseal mac) fuel (RsaAes_Model.rstate0, []) g segs in Ok (snd x))
| on_tls st segs :
    Gnutls_Model.input st = [] -> Gnutls_Model.pending st = [] ->
    Forall (fun s => zlen s + n <= 4097) segs ->
    road n (concat segs) (fun fuel g => let* x := attend cfg e E shown seq tls_read fuel st g segs in Ok (snd x)).
End Roads.
