(** The size that a ping carries: src/server.c:2536-2541 on a TCP stream.

    The frame's buffer is the payload of the request, and a write that takes a part of it
    moves the rest to its front and makes it shorter (Tcp_Model: rpay); the size is read
    from the same buffer after the write was tried. *)
From Verif Require Import Common Pace_Model Tcp_Model.

(* frame->buf.size after stream_send: src/stream/tcp.c:133-139; of a request that is no
   longer in the queue the size is what it was *)
Definition size_after (id : nat) (p : list Z) (s : tcp) : Z :=
  match find (fun r => Nat.eqb (rid r) id) (queue s) with
  | Some r => match rpay r with Some p' => zlen p' | None => 0 end
  | None => zlen p
  end.

(* src/server.c:2536-2541, for a client that knows fences; [cb] is what on_write_frame_done
   does to the stream.  None: stream_send failed and no ping is sent. *)
Definition frame_and_ping (p : list Z) (cb : option (list act)) (t : nat) (o : outcome) (now : Z) (s : tcp) (pc : pace)
  : res (option (Z * Z) * tcp * pace) :=
  let id := length (accepted s) in
  let* x := send p cb t o s in
  if fst x <? 0 then Ok (None, snd x, pc)
  else
    let (pc, payload) := send_ping pc (size_after id p (snd x)) now in
    Ok (Some payload, snd x, pc).
