(** Model of the receive side of src/stream/ws/ws.c and its framing of sent
    data. *)
From Verif Require Import Common Ws_Model.

(* src/stream/ws/ws.c:47, sizeof(read_buffer) *)
Definition WS_BUF : Z := 4096.
(* SIZE_MAX on the modelled LP64 targets *)
(* src/stream/ws/ws.c:108-134 *)
Definition SIZE_MAX : Z := 2 ^ 64 - 1.

(* src/stream/ws/ws.c:30-48, struct stream_ws.  [rb] is the whole 4096-byte
   buffer (bytes behind [ri] are stale), [closed] is
   base.state == STREAM_STATE_CLOSED, [sent] the buffers handed to the TCP
   stream, oldest first, [ready] is ws_state == STREAM_WS_STATE_READY, [corked]
   is base.cork. *)
Record ws_stream := mk_ws {
  hdr : ws_header;
  current_opcode : Z;
  ri : Z;
  rb : list Z;
  closed : bool;
  sent : list (list Z);
  ready : bool;
  corked : bool }.

(* src/stream/ws/ws.c:301-314, stream_ws_new (calloc, then cork) *)
Definition ws_new : ws_stream :=
  mk_ws hdr0 0 0 (repeat 0 4096) false [] false true.

(* src/stream/ws/ws.c:30-48 *)
Definition set_plen (h : ws_header) (n : Z) : ws_header :=
  mk_hdr (fin h) (opcode h) (mask h) n (masking_key h) (header_length h).

(* memmove(rb, rb + from, n); faults when the source range leaves the block *)
(* memmove of src/stream/ws/ws.c:59-69 *)
Definition move_down (block : list Z) (from n : Z) : res (list Z) :=
  let* p := get block from n in put block 0 p.

(* What one read(2) on the socket returns (src/stream/tcp.c:208): at most
   [avail] of the bytes the peer has sent so far, nothing yet (EAGAIN or
   another error), or end of stream. *)
Inductive net := Bytes (l : list Z) | Again | Eof.

(* src/stream/ws/ws.c:50-57 with src/stream/tcp.c:196-215: read(2) is asked for
   4096 - read_index bytes; asked for 0 bytes it returns 0, which
   stream_tcp_read takes for end of stream.  The segment must fit the request,
   so a longer one is cut by the kernel; the model rejects it instead
   ([OobWrite]) and callers split it. *)
Definition read_into_buffer (st : ws_stream) (n : net) : res ws_stream :=
  let close := Ok (mk_ws (hdr st) (current_opcode st) (ri st) (rb st) true (sent st) (ready st) (corked st)) in
  if closed st then Ok st
  else if WS_BUF - ri st =? 0 then close
  else match n with
  | Again => Ok st
  | Eof => close
  | Bytes l =>
      match l with
      | [] => Ok st
      | _ =>
        let* rb' := put (rb st) (ri st) l in
        Ok (mk_ws (hdr st) (current_opcode st) (ri st + zlen l) rb' (closed st) (sent st) (ready st) (corked st))
      end
  end.

(* src/stream/ws/ws.c:59-69, stream_ws_advance_read_buffer (size_t
   arithmetic; offset <= read_index at every call) *)
Definition advance_read_buffer (st : ws_stream) (size offset : Z) : res ws_stream :=
  let pl := Z.min size ((ri st - offset) mod 2 ^ 64) in
  let pl := Z.min pl (payload_length (hdr st)) in
  let ri' := (ri st - (offset + pl)) mod 2 ^ 64 in
  let* rb' := move_down (rb st) (offset + pl) ri' in
  Ok (mk_ws (set_plen (hdr st) (payload_length (hdr st) - pl))
        (current_opcode st) ri' rb' (closed st) (sent st) (ready st) (corked st)).

(* src/stream/ws/ws.c:71-80, stream_ws_copy_payload: bytes put in dst *)
Definition copy_payload (st : ws_stream) (size offset : Z) : res (ws_stream * list Z) :=
  let pl := Z.min size ((ri st - offset) mod 2 ^ 64) in
  let pl := Z.min pl (payload_length (hdr st)) in
  let* out := ws_copy_payload (hdr st) (skipn (Z.to_nat offset) (rb st)) pl in
  let* st' := advance_read_buffer st size offset in
  Ok (st', out).

(* stream_tcp_send, src/stream/tcp.c:217-234 *)
Definition tcp_send (st : ws_stream) (b : list Z) : ws_stream :=
  mk_ws (hdr st) (current_opcode st) (ri st) (rb st) (closed st)
    (if closed st then sent st else sent st ++ [b]) (ready st) (corked st).

(* src/stream/ws/ws.c:84-96, the pong header, sent at the start of a ping *)
Definition ping_head (st : ws_stream) (offset : Z) : res ws_stream :=
  if 0 <? offset then
    let* (buf, n) := ws_write_frame_header (repeat 0 14)
      (mk_hdr true WS_OPCODE_PONG false (payload_length (hdr st)) [0;0;0;0] 0) in
    let* b := get buf 0 n in
    Ok (tcp_send st b)
  else Ok st.

(* src/stream/ws/ws.c:82-106, stream_ws_process_ping.  [int payload_len] cannot
   overflow: it is at most read_index <= 4096. *)
Definition process_ping (st : ws_stream) (offset : Z) : res ws_stream :=
  let* st := ping_head st offset in
  let pl := Z.min (ri st) (payload_length (hdr st)) in
  let* b := get (rb st) offset pl in
  let st := tcp_send st b in
  advance_read_buffer st pl offset.

(* stream__remote_closed, src/stream/common.c:35-41; the event callback belongs
   to the server and is not modelled here *)
Definition remote_closed (st : ws_stream) : ws_stream :=
  mk_ws (hdr st) (current_opcode st) (ri st) (rb st) true (sent st) (ready st) (corked st).

(* result of one frame step: n_read >= 0 bytes, or -1 *)
(* the ssize_t of src/stream/ws/ws.c:108-134 *)
Inductive nread := Got (l : list Z) | Neg.

(* src/stream/ws/ws.c:108-134, stream_ws_process_payload *)
Definition process_payload (st : ws_stream) (size offset : Z) : res (ws_stream * nread) :=
  if current_opcode st =? WS_OPCODE_CONT then Ok (remote_closed st, Got [])
  else if current_opcode st =? WS_OPCODE_TEXT then
    let* st' := advance_read_buffer st SIZE_MAX offset in Ok (st', Got [])
  else if current_opcode st =? WS_OPCODE_BIN then
    let* (st', out) := copy_payload st size offset in Ok (st', Got out)
  else if current_opcode st =? WS_OPCODE_CLOSE then Ok (remote_closed st, Got [])
  else if current_opcode st =? WS_OPCODE_PING then
    let* st' := process_ping st offset in Ok (st', Got [])
  else if current_opcode st =? WS_OPCODE_PONG then
    let* st' := advance_read_buffer st SIZE_MAX offset in Ok (st', Got [])
  else Ok (st, Neg).

(* src/stream/ws/ws.c:139-160 *)
Definition set_hdr (st : ws_stream) (h : ws_header) (op : Z) : ws_stream :=
  mk_ws h op (ri st) (rb st) (closed st) (sent st) (ready st) (corked st).

(* src/stream/ws/ws.c:139-160, stream_ws_read_frame *)
Definition read_frame (st : ws_stream) (size : Z) : res (ws_stream * nread) :=
  if 0 <? payload_length (hdr st) then process_payload st size 0
  else
    let (ok, h) := ws_parse_frame_header (hdr st) (firstn (Z.to_nat (ri st)) (rb st)) in
    if ok then
      let op := if opcode h =? WS_OPCODE_CONT then current_opcode st else opcode h in
      process_payload (set_hdr st h op) size (header_length h)
    else Ok (set_hdr st h (current_opcode st), Got []).

(* src/stream/ws/ws.c:162-185, stream_ws_read_ready.  [eagain] is whether errno
   happens to be EAGAIN when a frame step returned -1 (nothing there sets it).
   The C loop has no bound; [fuel] is one more than the bytes in the buffer and
   [Diverges] is proved unreachable. *)
Fixpoint read_ready_loop (fuel : nat) (eagain : bool) (st : ws_stream) (size : Z)
  (total : list Z) : res (ws_stream * nread) :=
  match fuel with
  | O => Fault Diverges
  | S fuel =>
      let* (st, r) := read_frame st size in
      match r with
      | Neg => if eagain then Ok (st, Got total) else Ok (st, Neg)
      | Got [] => Ok (st, Got total)
      | Got l => read_ready_loop fuel eagain st (size - zlen l) (total ++ l)
      end
  end.

(* src/stream/ws/ws.c:162-185 *)
Definition read_ready (eagain : bool) (st : ws_stream) (size : Z) : res (ws_stream * nread) :=
  read_ready_loop (S (Z.to_nat (ri st))) eagain st size [].

Section Handshake.
(* ws_handshake (src/stream/ws/handshake.c:39-106): on a NUL-terminated string
   either -1 ([None]) or the length of the request and the reply; modelled in
   Http_Model.v, a parameter here. *)
Variable ws_handshake : list Z -> res (option (Z * list Z)).

(* src/stream/ws/ws.c:187-212, stream_ws_read_handshake *)
Definition read_handshake (eagain : bool) (st : ws_stream) (size : Z) : res (ws_stream * nread) :=
  if WS_BUF <=? ri st then Ok (remote_closed st, Neg)
  else
    let* rb1 := put (rb st) (ri st) [0] in
    let* r := ws_handshake (cstr rb1) in
    match r with
    | None => Ok (mk_ws (hdr st) (current_opcode st) (ri st) rb1 (closed st) (sent st) (ready st) (corked st), Got [])
    | Some (n, reply) =>
        let ri' := (ri st - n) mod 2 ^ 64 in
        let* rb2 := move_down rb1 n ri' in
        (* send_first: the reply goes ahead of everything held back by cork *)
        let st' := mk_ws (hdr st) (current_opcode st) ri' rb2 (closed st)
                     (if closed st then sent st else reply :: sent st) true false in
        read_ready eagain st' size
    end.

(* src/stream/ws/ws.c:214-230, stream_ws_read *)
Definition ws_read (eagain : bool) (st : ws_stream) (size : Z) (n : net) : res (ws_stream * nread) :=
  let* st := read_into_buffer st n in
  if closed st then Ok (st, Got [])
  else if ready st then read_ready eagain st size
  else read_handshake eagain st size.
End Handshake.

(* src/stream/ws/ws.c:232-249, stream_ws_send: the two buffers queued *)
Definition ws_send (st : ws_stream) (payload : list Z) : res ws_stream :=
  let h := mk_hdr true WS_OPCODE_BIN false (zlen payload) [0;0;0;0] 0 in
  let* (buf, n) := ws_write_frame_header (repeat 0 14) h in
  let* b := get buf 0 n in
  Ok (tcp_send (tcp_send st b) payload).

(* src/stream/ws/ws.c:251-277, stream_ws_chained_exec: the buffer returned for
   the deferred payload [buf] (vec modelled as the list it holds, see the Vec files) *)
Definition ws_chained_exec (buf : list Z) : res (list Z) :=
  let h := mk_hdr true WS_OPCODE_BIN false (zlen buf) [0;0;0;0] 0 in
  let* (out, n) := ws_write_frame_header (repeat 0 (14 + length buf + 1)) h in
  let* b := get out 0 n in
  Ok (b ++ buf).

(* The caller's side (src/server.c:1938-1995 reads once per readable event):
   one read of [size] bytes for each segment that arrives; results in order. *)
Fixpoint feed (hs : list Z -> res (option (Z * list Z))) (eagain : bool) (st : ws_stream)
  (size : Z) (segs : list (list Z)) : res (ws_stream * list nread) :=
  match segs with
  | [] => Ok (st, [])
  | s :: t =>
      let* (st1, r) := ws_read hs eagain st size (Bytes s) in
      let* (st2, rs) := feed hs eagain st1 size t in
      Ok (st2, r :: rs)
  end.

(* the state right after the handshake when nothing followed the request *)
(* src/stream/ws/ws.c:30-48 *)
Definition ws_ready0 : ws_stream :=
  mk_ws hdr0 0 0 (repeat 0 4096) false [] true false.
