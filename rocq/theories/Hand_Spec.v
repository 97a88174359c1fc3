(** The handshake as the protocol (RFB 3.8, with VeNCrypt, Apple's Diffie-Hellman and
    RSA-AES) wants it: which events may follow which. *)
From Verif Require Import Common Pixels_Model Init_Model Auth_Model Auth_Spec.

(* the greeting of both sides *)
Definition greeting : list Z := codes "RFB 003.008" ++ [10].

(* "no", with a reason in words *)
Definition refusal (m : list Z) : Prop :=
  exists reason, reason <> [] /\ zlen reason < 2 ^ 32 /\ m = be 4 1 ++ be 4 (zlen reason) ++ reason.
(* a list of no security types, with a reason in words *)
Definition no_types (m : list Z) : Prop :=
  exists reason, reason <> [] /\ zlen reason < 2 ^ 32 /\ m = [0] ++ be 4 (zlen reason) ++ reason.

(* security types: 1 none, 5 and 129 RSA-AES, 19 VeNCrypt, 30 Apple *)
Definition offers (cfg : config) (t : Z) : Prop :=
  if require_auth cfg
  then (t = 19 /\ enable_tls cfg = true /\ tls_creds cfg = true) \/
       ((t = 5 \/ t = 129) /\ have_crypto cfg = true) \/
       (t = 30 /\ have_crypto cfg = true /\ require_encryption cfg = false)
  else t = 1.

(* size, pixel format and name *)
Definition server_init (m : list Z) : Prop :=
  exists w h format name, length format = 16%nat /\ m = be 2 w ++ be 2 h ++ format ++ be 4 (zlen name) ++ name.

(* how far a conversation is *)
Inductive phase :=
| Start | Greeted | Offered
| VenVersion | VenAck | VenTypes | VenYes
| DhParam | DhPrime
| RsaKey | RsaChal | RsaKeys | RsaHashed
| Ask (c : chan)            (* user name and password are due on this channel *)
| Asked (c : chan) (yes : bool)
| Accepted (c : chan)       (* ClientInit is due *)
| Alone (c : chan)          (* all others were disconnected *)
| Told (c : chan)           (* ServerInit was sent *)
| Inside                    (* the application knows the client *)
| Out.                      (* refused *)

Inductive next (cfg : config) : phase -> event -> phase -> Prop :=
| n_greet : next cfg Start (Sent Clear greeting) Greeted
| n_version m : no_types m -> next cfg Greeted (Sent Clear m) Out
| n_types l : l <> [] -> NoDup l -> (forall t, In t l <-> offers cfg t) ->
    next cfg Greeted (Sent Clear (Z.of_nat (length l) :: l)) Offered
| n_illegal m : refusal m -> next cfg Offered (Sent Clear m) Out
| n_none : offers cfg 1 -> next cfg Offered (Sent Clear (be 4 0)) (Accepted Clear)
| n_ven : offers cfg 19 -> next cfg Offered (Sent Clear [0; 2]) VenVersion
| n_dh : offers cfg 30 -> next cfg Offered (Sent Clear (be 2 2 ++ be 2 256)) DhParam
| n_rsa m n x : offers cfg 5 \/ offers cfg 129 -> length n = length x ->
    m = be 4 (8 * zlen n) ++ n ++ x -> next cfg Offered (Sent Clear m) RsaKey
| n_ven_no m : refusal m -> next cfg VenVersion (Sent Clear m) Out
| n_ven_ack : next cfg VenVersion (Sent Clear [0]) VenAck
| n_ven_types : next cfg VenAck (Sent Clear ([1] ++ be 4 262)) VenTypes
| n_ven_bad : next cfg VenTypes (Sent Clear [0]) Out
| n_ven_yes : next cfg VenTypes (Sent Clear [1]) VenYes
| n_ven_tls : next cfg VenYes (Upgraded Tls [] []) (Ask Tls)
| n_dh_prime p : length p = 256%nat -> next cfg DhParam (Sent Clear p) DhPrime
| n_dh_key q : length q = 256%nat -> next cfg DhPrime (Sent Clear q) (Ask Clear)
| n_rsa_chal m : next cfg RsaKey (Sent Clear m) RsaChal
| n_rsa_up s k : next cfg RsaChal (Upgraded RsaAes s k) RsaKeys
| n_rsa_hash h : next cfg RsaKeys (Sent RsaAes h) RsaHashed
| n_rsa_type : next cfg RsaHashed (Sent RsaAes [1]) (Ask RsaAes)
| n_ask c k u p a : next cfg (Ask c) (AuthCalled c k u p a) (Asked c a)
| n_yes c : next cfg (Asked c true) (Sent c (be 4 0)) (Accepted c)
| n_no c m : refusal m -> next cfg (Asked c false) (Sent c m) Out
| n_alone c : next cfg (Accepted c) OthersDisconnected (Alone c)
| n_init c m : server_init m -> next cfg (Accepted c) (Sent c m) (Told c)
| n_init1 c m : server_init m -> next cfg (Alone c) (Sent c m) (Told c)
| n_in c : next cfg (Told c) NewClient Inside.

Inductive conversation (cfg : config) : list event -> phase -> Prop :=
| c_nil : conversation cfg [] Start
| c_snoc l ev p p' : conversation cfg l p -> next cfg p ev p' -> conversation cfg (l ++ [ev]) p'.

(* the places at which the server waits for the client *)
Definition waits (p : phase) : Prop :=
  match p with
  | Greeted | Offered | VenVersion | VenTypes | RsaKey | RsaChal | RsaHashed | Ask _ | Accepted _ | Inside | Out => True
  | _ => False
  end.

(* events seen between two states *)
Definition news (c c' : conn) (l : list event) : Prop := log c' = log c ++ l.

(* sizes of random numbers and hashes of RSA-AES with SHA-256 and with SHA-1 *)
Definition random_size (is256 : bool) : nat := if is256 then 32 else 16.
Definition digest (e : env) (is256 : bool) (l : list Z) : list Z := firstn (if is256 then 32 else 20) (hash e is256 l).
(* random numbers have the size asked for *)
Definition random_ok (e : env) : Prop := forall l n, length (random e l n) = n.

(* the keys of an upgrade: hashes of the number drawn after [l0], which is the moment
   at which the challenge is sent, and of one of the client *)
Definition fresh_keys (e : env) (before : list event) (server client : list Z) : Prop :=
  exists l0 m is256 r,
    before = l0 ++ [Sent Clear m] /\ length r = random_size is256 /\
    client = digest e is256 (random e l0 (random_size is256) ++ r) /\
    server = digest e is256 (r ++ random e l0 (random_size is256)).
