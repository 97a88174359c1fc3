(** How client objects come and go: src/server.c:164-234, 406-418, 1938-1971,
    1997-2084, 2358-2380, 2755-2759, with the part of the stream that matters for it
    (src/stream/tcp.c:40-59, src/stream/common.c:22-41).

    A client is its stream (open or closed) and its queue of outgoing requests, of
    which only the completion callback matters.  Not modelled: what the requests
    carry; waiting for the encoder in nvnc_del (141-162); callbacks of the
    application that close clients themselves. *)
From Verif Require Import Common.

(** The callback of a queued request: none or one that does not touch the client's
    life, or close_after_write. *)
(* src/server.c:223-234, include/stream/stream.h:59-65 *)
Inductive callback := Plain | CloseAfter.

(* include/common.h:88-149, struct nvnc_client; [sopen] is the state of its stream *)
Record client := mk_client { cid : nat; sopen : bool; outq : list callback }.

(** The server: the list of clients, the idle handlers waiting to run (each for the
    client it closes), and whether it still exists.  Ghost fields: [next] numbers
    the connections, [cleaned] the calls of the application's cleanup functions. *)
(* include/common.h:171-211, struct nvnc; src/server.c:215-221 *)
Record world := mk_world {
  live : list client;
  idles : list nat;
  up : bool;
  next : nat;
  cleaned : list nat }.

(* include/common.h:171-211 *)
Definition set_live l (w : world) : world := mk_world l (idles w) (up w) (next w) (cleaned w).

(* a client of the list by its address *)
(* src/server.c:164-203: the argument of client_close *)
Definition find_client (i : nat) (w : world) : option client :=
  find (fun c => Nat.eqb (cid c) i) (live w).

(* include/common.h:88-149 *)
Definition put_client (c : client) (w : world) : world :=
  set_live (map (fun d => if Nat.eqb (cid d) (cid c) then c else d) (live w)) w.

(* src/server.c:215-221, defer_client_close *)
Definition defer (i : nat) (w : world) : world :=
  mk_world (live w) (idles w ++ [i]) (up w) (next w) (cleaned w).

(* src/server.c:223-234: the callback closes the stream (again, without effect) and
   defers; run for the requests failed by stream_close, src/stream/tcp.c:48-52 *)
Fixpoint fail_all (i : nat) (q : list callback) (w : world) : world :=
  match q with
  | [] => w
  | CloseAfter :: q => fail_all i q (defer i w)
  | Plain :: q => fail_all i q w
  end.

(* src/stream/tcp.c:40-59, stream_tcp_close (gnutls.c:48-72 does the same) *)
Definition stream_close (c : client) (w : world) : world :=
  if sopen c then fail_all (cid c) (outq c) (put_client (mk_client (cid c) false []) w) else w.

(* src/server.c:164-203, client_close: the client must still exist *)
Definition client_close (i : nat) (w : world) : res world :=
  match find_client i w with
  | None => Fault UseAfterFree
  | Some c =>
      let w := stream_close c w in
      Ok (mk_world (filter (fun d => negb (Nat.eqb (cid d) i)) (live w)) (idles w) (up w) (next w)
            (cleaned w ++ [i]))
  end.

(* src/server.c:406-418, disconnect_all_other_clients *)
Fixpoint close_each (l : list nat) (w : world) : res world :=
  match l with
  | [] => Ok w
  | i :: l => let* w := client_close i w in close_each l w
  end.

(* src/server.c:2374-2376: all streams are closed first *)
Fixpoint close_streams (l : list client) (w : world) : world :=
  match l with [] => w | c :: l => close_streams l (stream_close c w) end.

(* src/server.c:164-234, 406-418, 1938-1971, 1997-2084, 2358-2380, 2755-2759 *)
Inductive op :=
| Connect                         (* on_connection, src/server.c:1997-2084 *)
| Queue (i : nat) (cb : callback) (* stream_send *)
| Written (i : nat)               (* the first queued request has been sent *)
| HungUp (i : nat)                (* the stream finds that the peer has closed *)
| ReadError (i : nat)             (* reading fails, src/server.c:1964-1969 *)
| AppClose (i : nat)              (* nvnc_client_close, called by the application *)
| Exclusive (i : nat)             (* ClientInit asking for exclusive access *)
| RunIdle                         (* the event loop runs the first idle handler *)
| Delete.                         (* nvnc_del *)

(* src/server.c:164-234, 406-418, 1938-1971, 1997-2084, 2358-2380, 2755-2759 *)
Definition step (a : op) (w : world) : res world :=
  match a with
  | Connect =>
      if up w then Ok (mk_world (mk_client (next w) true [] :: live w) (idles w) (up w) (S (next w)) (cleaned w))
      else Ok w
  | Queue i cb =>
      match find_client i w with
      | Some c => if sopen c then Ok (put_client (mk_client i true (outq c ++ [cb])) w) else Ok w
      | None => Ok w
      end
  | Written i =>
      match find_client i w with
      | Some c =>
          match sopen c, outq c with
          | true, Plain :: q => Ok (put_client (mk_client i true q) w)
          | true, CloseAfter :: q =>
              (* src/server.c:223-234: stream_close fails the rest, then defer *)
              Ok (defer i (stream_close (mk_client i true q) w))
          | _, _ => Ok w
          end
      | None => Ok w
      end
  | HungUp i =>
      (* src/stream/common.c:35-41, src/server.c:1944-1948 *)
      match find_client i w with
      | Some c => if sopen c then Ok (defer i (stream_close c w)) else Ok w
      | None => Ok w
      end
  | ReadError i =>
      match find_client i w with
      | Some c => if sopen c then client_close i w else Ok w
      | None => Ok w
      end
  | AppClose i =>
      match find_client i w with
      | Some _ => client_close i w
      | None => Ok w               (* the application knows it is gone *)
      end
  | Exclusive i =>
      match find_client i w with
      | Some _ => close_each (filter (fun j => negb (Nat.eqb j i)) (map cid (live w))) w
      | None => Ok w
      end
  | RunIdle =>
      match idles w with
      | [] => Ok w
      | i :: rest => client_close i (mk_world (live w) rest (up w) (next w) (cleaned w))
      end
  | Delete =>
      if up w then
        let w := close_streams (live w) w in
        let* w := close_each (map cid (live w)) w in
        Ok (mk_world (live w) (idles w) false (next w) (cleaned w))
      else Ok w
  end.

(* src/server.c:164-234, 406-418, 1938-1971, 1997-2084, 2358-2380, 2755-2759 *)
Fixpoint run (l : list op) (w : world) : res world :=
  match l with
  | [] => Ok w
  | a :: l => let* w := step a w in run l w
  end.

(* src/server.c:2214-2230, nvnc_new *)
Definition world0 : world := mk_world [] [] true 0 [].

(** ** Accepting a connection *)

(** What on_connection takes and gives back. *)
(* src/server.c:1997-2084 *)
Inductive thing := Client | Estimator | Fd | Stream | Region.

(* src/server.c:1997-2084 *)
Inductive event := Take (t : thing) | Drop (t : thing) | Greet.

(** What may go wrong: memory for the client, accept, memory for the stream, memory
    for the greeting; and the state of the server: the display, if any, with or
    without a buffer. *)
(* src/server.c:1997-2084 *)
Record circumstances := mk_circ {
  client_mem : bool; accepted : bool; stream_mem : bool; greeting_mem : bool;
  display : option bool }.

(* src/server.c:1997-2084, on_connection: the log of what it did and whether the
   client was added.  stream_destroy closes the file descriptor (tcp.c:56, 61-67). *)
Definition on_connection (e : circumstances) : res (list event * bool) :=
  if client_mem e then
    let l := [Take Client; Take Estimator] in
    if accepted e then
      let l := l ++ [Take Fd] in
      if stream_mem e then
        let l := l ++ [Take Stream] in
        match display e with
        | None => Fault NullDeref
        | Some false => Ok (l ++ [Drop Fd; Drop Stream] ++ [Drop Fd] ++ [Drop Client], false)
        | Some true =>
            let l := l ++ [Take Region] in
            if greeting_mem e then Ok (l ++ [Greet], true)
            else Ok (l ++ [Drop Region] ++ [Drop Fd; Drop Stream] ++ [Drop Fd] ++ [Drop Client], false)
        end
      else Ok (l ++ [Drop Fd] ++ [Drop Client], false)
    else Ok (l ++ [Drop Client], false)
  else Ok ([], false).

(** ** Listening sockets *)

(* include/neatvnc.h:79-82, enum nvnc_stream_type; src/server.c:2257-2281 *)
Inductive stype := Normal | Websocket.

(** What nvnc_listen_unix leaves behind: the open sockets and the name in the file
    system. *)
(* src/server.c:2160-2183, 2257-2281 *)
Record left := mk_left { fds : nat; path_there : bool }.

(* src/server.c:2160-2183 (bind_address_unix), 2184-2211 (nvnc__listen), 2257-2281
   (nvnc_listen_unix): [name_ok] the name is short enough, then the results of
   socket, bind, calloc, listen and aml_handler_new *)
Definition listen_unix (t : stype) (name_ok socket_ok bind_ok mem_ok listen_ok handler_ok : bool) : bool * left :=
  if negb name_ok then (false, mk_left 0 false)
  else if negb socket_ok then (false, mk_left 0 false)
  else if negb bind_ok then (false, mk_left 0 false)
  else if mem_ok && listen_ok && handler_ok then (true, mk_left 1 true)
  else match t with
       | Websocket => (false, mk_left 0 false)
       | Normal => (false, mk_left 0 true)
       end.
