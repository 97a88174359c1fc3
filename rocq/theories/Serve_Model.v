(** A connection from the greeting to the messages: the handshake (Auth_Model), the
    messages of an initialised client (Msg_Model), and the stream they are read from
    (Talk_Model).  Both share one receive buffer and one loop, so bytes that come
    together with the end of the handshake are handled as messages right away. *)
From Verif Require Import Common Pixels_Model Init_Model Auth_Model Msg_Model Talk_Model.

(* a client: not initialised, with the bytes in its buffer (include/common.h:93-104);
   initialised (src/server.c:500); disconnected before that (src/server.c:164-203) *)
Inductive stage : Type :=
| Shaking (c : conn) (b : rx)
| Serving (h : conn) (c : client)
| Gone (c : conn).

(* src/server.c:1956-1957: what stream_read is asked for *)
Definition room_for (g : stage) : Z :=
  match g with
  | Shaking _ b => MSG_BUFFER_SIZE - avail b
  | Serving _ c => asked c
  | Gone _ => 0
  end.

Section Serve.
Variables (cfg : config) (e : Auth_Model.env) (E : Msg_Model.env).
(* the framebuffer on display and the sequence number of the cursor *)
Variables (shown : fb) (seq : Z).

(* src/server.c:420-478 as called at 491: the ServerInit message last sent, and the
   client as it is initialised, in the pixel format of that message *)
Definition newcomer (l : list Auth_Model.event) : res client :=
  match send_server_init_message (server_name e) (displayed e l) with
  | Some (_, f) => Ok (ready f shown seq)
  | None => Fault UseAfterFree
  end.

(* src/server.c:490: the events before ServerInit was sent, at the end of a log that
   ends with ServerInit and the call of new_client_fn *)
Definition before_init (l : list Auth_Model.event) : list Auth_Model.event := firstn (length l - 2) l.

(* src/server.c:1938-1995.  The loop at 1976-1986 goes on with what is left in the
   buffer when the client is initialised, as it does with bytes just read *)
Definition hear (fuel : nat) (g : stage) (d : list Z) : res stage :=
  match g with
  | Shaking c b =>
      let* (c, b) := Auth_Model.on_client_event cfg e (c, b) d in
      match st c with
      | SReady =>
          let* m := newcomer (before_init (Auth_Model.log c)) in
          let* m := receive E (S fuel) m (Some (bytes b)) in
          Ok (Serving c m)
      | _ => Ok (Shaking c b)
      end
  | Serving h c => let* c := receive E (S fuel) c (Some d) in Ok (Serving h c)
  | Gone c => Ok (Gone c)
  end.

(* src/server.c:1944-1948, 1965-1969 and 164-203: the end of a connection *)
Definition hang_up (g : stage) : stage :=
  match g with
  | Shaking c _ => Gone c
  | Serving h c => Serving h (set_closed true c)
  | Gone c => Gone c
  end.

Section Stream.
Context {St : Type}.
(* stream_read, as in Talk_Model: src/stream/interface.c:30-34 *)
Variable read : St -> Z -> list Z -> res (St * list Z * bool).

(* src/server.c:1938-1995: one read each time the socket is readable *)
Fixpoint attend (fuel : nat) (s : St) (g : stage) (segs : list (list Z)) : res (St * stage) :=
  match segs with
  | [] => Ok (s, g)
  | x :: segs =>
      let* (r : St * list Z * bool) := read s (room_for g) x in
      let '(s, d, over) := r in
      let* g := hear fuel g d in
      if over : bool then Ok (s, hang_up g) else attend fuel s g segs
  end.
End Stream.
End Serve.
