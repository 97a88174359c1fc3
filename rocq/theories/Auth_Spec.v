(** What is expected of the handshake, stated on the sequence of events only. *)
From Verif Require Import Common Auth_Model.

(* the authentication callback said yes to credentials sent by this client *)
Definition authenticated (e : env) (l : list event) : Prop :=
  exists before c clear user pass after,
    l = before ++ AuthCalled c clear user pass true :: after /\ auth_fn e before user pass = true.

(* a property of what happened before the client was announced to the application *)
Definition before_new_client (Q : list event -> Prop) (l : list event) : Prop :=
  forall before after, l = before ++ NewClient :: after -> Q before.

(* a property of every call of the authentication callback and of what happened before *)
Definition each_auth (Q : list event -> chan -> bool -> list Z -> list Z -> bool -> Prop) (l : list event) : Prop :=
  forall before c clear u p a after, l = before ++ AuthCalled c clear u p a :: after -> Q before c clear u p a.

(* the client is past authentication *)
Definition admitted (c : conn) : bool :=
  match st c with SInit | SReady => true | _ => false end.

(* the security types a connection starts with are those of this configuration, or
   none were computed yet *)
Definition consistent (cfg : config) (cached : list Z) : Prop :=
  cached = [] \/ init_security_types cfg [] = Ok cached.

(* messages with credentials *)
Definition plain_message (u p : list Z) : list Z := be 4 (zlen u) ++ be 4 (zlen p) ++ u ++ p.
Definition rsa_message (u p : list Z) : list Z := [zlen u] ++ u ++ [zlen p] ++ p.

Definition tag (c : conn) (l : list Z) : rx := map (pair (encrypted (ch c))) l.
