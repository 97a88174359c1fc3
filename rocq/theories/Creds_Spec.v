(** What the claim about credentials says, in terms of the calls made and what they
    returned. *)
From Verif Require Import Common Creds_Model.

(** The servers that are open after some calls. *)
Fixpoint opened_from (l : list nat) (ops : list op) : list nat :=
  match ops with
  | [] => l
  | New id :: ops => opened_from (id :: l) ops
  | Del id :: ops => opened_from (remove Nat.eq_dec id l) ops
  | _ :: ops => opened_from l ops
  end.

Definition opened (ops : list op) : list nat := opened_from [] ops.

(** The server a call is about. *)
Definition about (o : op) : nat :=
  match o with
  | New id | SetTls id _ _ | SetRsa id _ | AskRsa id | Upgrade id _ _ _ | Leave id _ | Del id => id
  end.

(** The application only makes calls about servers that are open, and nvnc_new does not
    return the address of one that is. *)
Fixpoint proper_from (l : list nat) (ops : list op) : Prop :=
  match ops with
  | [] => True
  | o :: ops => (match o with New id => ~ In id l | _ => In (about o) l end) /\
                proper_from (opened_from l [o]) ops
  end.

Definition proper (ops : list op) : Prop := proper_from [] ops.

(** The files a server has accepted, from what nvnc_set_tls_creds returned. *)
Definition accepted (id : nat) (h : list (op * Z)) : option Z :=
  fold_left (fun a x =>
    match x with
    | (SetTls i file _, r) => if Nat.eqb i id && (r =? 0) then Some file else a
    | (Del i, _) => if Nat.eqb i id then None else a
    | (New i, _) => if Nat.eqb i id then None else a
    | _ => a
    end) h None.

(** Whether a server has an RSA key: it was given one, even in vain, or a client asked. *)
Definition keyed (id : nat) (h : list (op * Z)) : bool :=
  fold_left (fun a x =>
    match fst x with
    | SetRsa i _ | AskRsa i => if Nat.eqb i id then true else a
    | Del i | New i => if Nat.eqb i id then false else a
    | _ => a
    end) h false.

(** How many servers of a list satisfy a test. *)
Definition how_many (p : nat -> bool) (l : list nat) : nat := length (filter p l).

Definition is_some {A : Type} (a : option A) : bool := match a with Some _ => true | None => false end.

(** The files a session of a client was set up with, if the client has one. *)
Definition certificate (w : world) (s : session) : option Z :=
  match List.find (fun c => Nat.eqb (c_at c) (s_cred s)) (creds w) with
  | Some c => c_file c
  | None => None
  end.

(** A client of a server has this TLS session. *)
Definition in_session (w : world) (id : nat) (s : session) : Prop :=
  exists v, In v (servers w) /\ v_id v = id /\ In s (v_sessions v).
