(** What the server acts on when bytes come over an RSA-AES stream from anywhere. *)
From Verif Require Import Common Msg_Model.
From Verif Require WsStream_Model Ws_Model RsaAes_Model RsaAes_Spec.

(** The client is given the pieces [ds], one at each read. *)
Fixpoint given (E : env) (fuel : nat) (c : client) (ds : list (list Z)) : res client :=
  match ds with
  | [] => Ok c
  | d :: ds => let* c := receive E (S fuel) c (Some d) in given E fuel c ds
  end.

(** The outcome is that of being given [ds]; it may be that the connection has been ended
    after that. *)
Definition acted_on {St} (E : env) (fuel : nat) (c : client) (ds : list (list Z)) (outcome : res (St * client)) : Prop :=
  match outcome with
  | Ok (_, c') => exists c1, given E fuel c ds = Ok c1 /\ (c' = c1 \/ c' = set_closed true c1)
  | Fault e => given E fuel c ds = Fault e
  end.

(** A client that has sent only whole messages or the beginning of one, no cut text being
    under way, and has room for more. *)
Definition reading (c : client) : Prop := cut c = None /\ idx c = 0 /\ zlen (buf c) < 4096.

(** A WebSocket stream, open and past the upgrade, that has handed over all that came. *)
Definition between (st : WsStream_Model.ws_stream) : Prop :=
  WsStream_Model.ri st = 0 /\ length (WsStream_Model.rb st) = 4096%nat /\
  WsStream_Model.closed st = false /\ WsStream_Model.ready st = true /\
  Ws_Model.payload_length (WsStream_Model.hdr st) = 0.

(** The kinds of frames RFC 6455 has not given a meaning. *)
Definition meaningless (op : Z) : Prop := 3 <= op <= 7 \/ 11 <= op <= 15.

(** An RSA-AES stream, open, that has taken [k] messages: the two halves of its
    128-bit count of them. *)
Definition taken (k : Z) (s : RsaAes_Model.rstate) : Prop :=
  RsaAes_Model.rclosed s = false /\ RsaAes_Model.rcnt s = (k mod 2 ^ 64, (k / 2 ^ 64) mod 2 ^ 64).
