(** The credentials of servers: nvnc_set_tls_creds, nvnc_set_rsa_creds, the key made for
    the first client that asks for one, the TLS sessions that use the credentials, and
    nvnc_del.  A process may have many servers.

    Simplifications: GnuTLS and Nettle are seen from outside.  GnuTLS counts how often it
    was initialised ([depth]); credentials, keys and sessions are objects that exist or do
    not, and using one that does not is a fault; so is freeing credentials that a session
    still refers to (gnutls_credentials_set keeps the pointer).  A failing
    gnutls_certificate_allocate_credentials leaves a null pointer.  What the files hold is
    named by a number.  Both ENABLE_TLS and HAVE_CRYPTO are on.  The private and the public
    RSA key are made and deleted together and count as one; making them does not fail. *)
From Verif Require Import Common.

(* src/server.c:2860, one gnutls_certificate_credentials_t: its address and the files
   loaded into it *)
Record cred : Type := mk_cred { c_at : nat; c_file : option Z }.

(* src/stream/gnutls.c:260-271, the session of a client and the credentials it refers to *)
Record session : Type := mk_session { s_client : nat; s_cred : nat }.

(* include/common.h:171-211, the fields tls_creds, rsa_priv with rsa_pub, and the clients
   that have a TLS session *)
Record server : Type :=
  mk_server { v_id : nat; v_tls : option nat; v_rsa : option nat; v_sessions : list session }.

(* the process: src/server.c:2215-2230, 2358-2411, 2842-2950.  [fresh] is an address
   never used before *)
Record world : Type :=
  mk_world { depth : Z; creds : list cred; keys : list nat; fresh : nat; servers : list server }.

(* src/server.c:2215-2230, before anything is called *)
Definition empty : world := mk_world 0 [] [] 0 [].

(* how the calls to GnuTLS within nvnc_set_tls_creds turn out *)
(* src/server.c:2853, 2860, 2867 *)
Record luck : Type := mk_luck { init_ok : bool; alloc_ok : bool; load_ok : bool }.

(* what can be called *)
(* src/server.c:2215, 2842, 2936, 2358; src/auth/rsa-aes.c:24; src/stream/gnutls.c:255;
   src/server.c:164 *)
Inductive op : Type :=
| New (id : nat)
| SetTls (id : nat) (file : Z) (l : luck)
| SetRsa (id : nat) (ok : bool)
| AskRsa (id : nat)
| Upgrade (id client : nat) (init_ok set_ok : bool)
| Leave (id client : nat)
| Del (id : nat).

(* src/server.c:2842-2950, the server a pointer leads to *)
Definition find (id : nat) (w : world) : option server :=
  List.find (fun v => Nat.eqb (v_id v) id) (servers w).

(* src/server.c:2842-2950, a write through the pointer *)
Definition store (v : server) (w : world) : world :=
  mk_world (depth w) (creds w) (keys w) (fresh w)
    (map (fun x => if Nat.eqb (v_id x) (v_id v) then v else x) (servers w)).

(* gnutls_certificate_free_credentials: src/server.c:2403, 2878 *)
Definition free_creds (at_ : nat) (w : world) : res world :=
  if negb (existsb (fun c => Nat.eqb (c_at c) at_) (creds w)) then Fault UseAfterFree
  else if existsb (fun v => existsb (fun s => Nat.eqb (s_cred s) at_) (v_sessions v)) (servers w)
  then Fault UseAfterFree
  else Ok (mk_world (depth w) (filter (fun c => negb (Nat.eqb (c_at c) at_)) (creds w))
             (keys w) (fresh w) (servers w)).

(* gnutls_global_init and gnutls_global_deinit: src/server.c:2853, 2404, 2881 *)
Definition add_depth (d : Z) (w : world) : world :=
  mk_world (depth w + d) (creds w) (keys w) (fresh w) (servers w).

(* crypto_rsa_priv_key_del and crypto_rsa_pub_key_del; a null pointer is left alone *)
(* src/server.c:2397-2398, 2940-2941; src/crypto/nettle/rsa.c:45-51, 165-171 *)
Definition free_key (k : option nat) (w : world) : res world :=
  match k with
  | None => Ok w
  | Some k =>
      if existsb (Nat.eqb k) (keys w)
      then Ok (mk_world (depth w) (creds w) (filter (fun x => negb (Nat.eqb k x)) (keys w)) (fresh w) (servers w))
      else Fault UseAfterFree
  end.

(* crypto_rsa_priv_key_new and crypto_rsa_pub_key_new *)
(* src/server.c:2943-2944; src/auth/rsa-aes.c:33-34 *)
Definition new_key (w : world) : nat * world :=
  (fresh w, mk_world (depth w) (creds w) (fresh w :: keys w) (S (fresh w)) (servers w)).

(* src/server.c:2842-2884 *)
Definition nvnc_set_tls_creds (id : nat) (file : Z) (l : luck) (w : world) : res (world * Z) :=
  match find id w with
  | None => Fault UseAfterFree
  | Some v =>
      match v_tls v with
      | Some _ => Ok (w, -1)
      | None =>
          if negb (init_ok l) then Ok (w, -1)
          else
            let w := add_depth 1 w in
            if negb (alloc_ok l) then Ok (add_depth (-1) w, -1)
            else
              let at_ := fresh w in
              let w := mk_world (depth w) (mk_cred at_ (if load_ok l then Some file else None) :: creds w)
                         (keys w) (S at_) (servers w) in
              let w := store (mk_server id (Some at_) (v_rsa v) (v_sessions v)) w in
              if load_ok l then Ok (w, 0)
              else
                let* w := free_creds at_ w in
                let w := store (mk_server id None (v_rsa v) (v_sessions v)) w in
                Ok (add_depth (-1) w, -1)
      end
  end.

(* src/server.c:2936-2950; whether the file could be read is [ok] *)
Definition nvnc_set_rsa_creds (id : nat) (ok : bool) (w : world) : res (world * Z) :=
  match find id w with
  | None => Fault UseAfterFree
  | Some v =>
      let* w := free_key (v_rsa v) w in
      let '(k, w) := new_key w in
      Ok (store (mk_server id (v_tls v) (Some k) (v_sessions v)) w, if ok then 0 else -1)
  end.

(* src/auth/rsa-aes.c:24-38, a client has chosen RSA-AES *)
Definition rsa_aes_send_public_key (id : nat) (w : world) : res (world * Z) :=
  match find id w with
  | None => Fault UseAfterFree
  | Some v =>
      match v_rsa v with
      | Some _ => Ok (w, 0)
      | None =>
          let '(k, w) := new_key w in
          Ok (store (mk_server id (v_tls v) (Some k) (v_sessions v)) w, 0)
      end
  end.

(* src/stream/gnutls.c:255-292 with the credentials of the server, which is what
   src/auth/vencrypt.c:92 gives it; offered only when there are credentials,
   src/server.c:270 *)
Definition stream_upgrade_to_tls (id client : nat) (init_ok set_ok : bool) (w : world) : res (world * Z) :=
  match find id w with
  | None => Fault UseAfterFree
  | Some v =>
      match v_tls v with
      | None => Ok (w, -1)
      | Some at_ =>
          if negb init_ok then Ok (w, -1)
          else if negb set_ok then Ok (w, -1)
          else if negb (existsb (fun c => Nat.eqb (c_at c) at_) (creds w)) then Fault UseAfterFree
          else Ok (store (mk_server id (v_tls v) (v_rsa v) (mk_session client at_ :: v_sessions v)) w, 0)
      end
  end.

(* src/server.c:164-203 and src/stream/gnutls.c:63-65, the session of a client that is closed *)
Definition client_close (id client : nat) (w : world) : res (world * Z) :=
  match find id w with
  | None => Fault UseAfterFree
  | Some v =>
      Ok (store (mk_server id (v_tls v) (v_rsa v)
            (filter (fun s => negb (Nat.eqb (s_client s) client)) (v_sessions v))) w, 0)
  end.

(* src/server.c:2358-2411: first the clients, then the keys, then the credentials, then
   the server itself *)
Definition nvnc_del (id : nat) (w : world) : res (world * Z) :=
  match find id w with
  | None => Fault UseAfterFree
  | Some v =>
      let w := store (mk_server id (v_tls v) (v_rsa v) []) w in
      let* w := free_key (v_rsa v) w in
      let* w := match v_tls v with
                | None => Ok w
                | Some at_ => let* w := free_creds at_ w in Ok (add_depth (-1) w)
                end in
      Ok (mk_world (depth w) (creds w) (keys w) (fresh w)
            (filter (fun x => negb (Nat.eqb (v_id x) id)) (servers w)), 0)
  end.

(* src/server.c:2215-2230 *)
Definition nvnc_new (id : nat) (w : world) : res (world * Z) :=
  Ok (mk_world (depth w) (creds w) (keys w) (fresh w) (mk_server id None None [] :: servers w), 0).

(* src/server.c:2215-2411, 2842-2950: one call *)
Definition step (o : op) (w : world) : res (world * Z) :=
  match o with
  | New id => nvnc_new id w
  | SetTls id file l => nvnc_set_tls_creds id file l w
  | SetRsa id ok => nvnc_set_rsa_creds id ok w
  | AskRsa id => rsa_aes_send_public_key id w
  | Upgrade id client i s => stream_upgrade_to_tls id client i s w
  | Leave id client => client_close id client w
  | Del id => nvnc_del id w
  end.

(* src/server.c:2215-2411, 2842-2950: the calls one after the other, and what each returns *)
Fixpoint run (ops : list op) (w : world) : res (world * list (op * Z)) :=
  match ops with
  | [] => Ok (w, [])
  | o :: ops =>
      let* (w, r) := step o w in
      let* (w, h) := run ops w in
      Ok (w, (o, r) :: h)
  end.
