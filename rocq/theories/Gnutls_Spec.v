(** What a user of a TLS connection relies on. *)
From Verif Require Import Common Gnutls_Model.

(** [w] carries the first [k] payloads of [l] whole and in order, followed by a
    first part of the next one (possibly nothing). *)
Definition carries (k : nat) (l : list (list Z)) (w : list Z) : Prop :=
  exists part, w = concat (firstn k l) ++ part /\
    (part = [] \/ exists p, nth_error l k = Some p /\ is_prefix part p).

(** Payloads given to stream_send by a list of operations; callbacks that send
    are excluded. *)
Definition sent_by (a : op) : list (list Z) :=
  match a with OSend p _ _ => [p] | OTurn t _ => says t | _ => [] end.

(** The bytes of the records the network delivered. *)
Definition bytes_of (x : net) : list Z := match x with Rec b => b | _ => [] end.
Definition arrived (a : op) : list Z :=
  match a with OArrive l => concat (map bytes_of l) | _ => [] end.

(** The network holds nothing: no further event will be reported for reading. *)
Definition quiet (s : tls) : Prop := input s = [].

(** Every record that arrives fits into the space the server offers to each read. *)
Definition fits (n : nat) (a : op) : Prop :=
  match a with
  | OArrive l => Forall (fun x => (length (bytes_of x) <= n)%nat) l
  | OTurn t _ => (n <= space t)%nat
  | _ => True
  end.

(** The connection is over for the server: the stream is closed and its owner has
    been told (or has destroyed it), so that the client is removed. *)
Definition over (s : tls) : Prop := closed (snd_half s) = true /\ (freed s = true \/ (told s >= 1)%nat).

(** The stream is deaf: open, never to be looked at again by the event loop. *)
Definition deaf (s : tls) : Prop :=
  closed (snd_half s) = false /\ watched (snd_half s) = false /\ freed s = false /\ told s = 0%nat.

(** Operations that stand for things going well: no fatal error from GnuTLS, the
    peer goes on. *)
Definition harmless_net (x : net) : Prop := match x with Rec _ | Signal | Notice => True | _ => False end.
Definition harmless_hs (h : hs) : Prop := h <> HFatal.
Definition harmless (a : op) : Prop :=
  match a with
  | OSend _ _ sc => ~ In Fatal sc
  | OArrive l => Forall harmless_net l
  | OTurn t sc => ~ In Fatal sc /\ harmless_hs (h_r t) /\ harmless_hs (h_w t) /\ (space t > 0)%nat
  | OClose => False
  end.

(** The kernel reports a socket readable only when there is something to read. *)
Definition possible (t : turn) (s : tls) : Prop := can_r t = true -> input s <> [].

(** Only the event loop runs. *)
Definition idle (a : op) : Prop := match a with OTurn _ _ => True | _ => False end.
(** Only the event loop and the network run: the application does nothing. *)
Definition passive (a : op) : Prop := match a with OTurn _ _ | OArrive _ => True | _ => False end.

(** No callback, however deeply nested, closes the stream. *)
Fixpoint gentle (a : act) : bool :=
  match a with ASend _ cb => forallb gentle cb | AClose => false end.
Definition gentle_op (a : op) : Prop := match a with OSend _ cb _ => forallb gentle cb = true | _ => True end.

(** Nothing but application data arrives. *)
Definition data_only (a : op) : Prop :=
  match a with OArrive l => Forall (fun x => exists b, x = Rec b) l | _ => True end.

(** No send. *)
Definition no_send (a : op) : Prop := match a with OSend _ _ _ => False | _ => True end.

(** A turn of the event loop never finds both kinds of event. *)
Definition one_event (a : op) : Prop := match a with OTurn t _ => can_r t && can_w t = false | _ => True end.
