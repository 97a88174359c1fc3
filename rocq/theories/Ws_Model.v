(** Model of src/stream/ws/framing.c. *)
From Verif Require Import Common.

(* include/stream/websocket.h:25-32, enum ws_opcode *)
Definition WS_OPCODE_CONT : Z := 0.
(* include/stream/websocket.h:27 *)
Definition WS_OPCODE_TEXT : Z := 1.
(* include/stream/websocket.h:28 *)
Definition WS_OPCODE_BIN : Z := 2.
(* include/stream/websocket.h:29 *)
Definition WS_OPCODE_CLOSE : Z := 8.
(* include/stream/websocket.h:30 *)
Definition WS_OPCODE_PING : Z := 9.
(* include/stream/websocket.h:31 *)
Definition WS_OPCODE_PONG : Z := 10.

(* include/stream/websocket.h:23 *)
Definition WS_HEADER_MIN_SIZE : Z := 14.

(* include/stream/websocket.h:34-41, struct ws_frame_header *)
Record ws_header := mk_hdr {
  fin : bool;
  opcode : Z;
  mask : bool;
  payload_length : Z;
  masking_key : list Z;
  header_length : Z }.

(* calloc'ed / zero-initialised header (ws.c:86-90, 237-241, 303) *)
Definition hdr0 : ws_header := mk_hdr false 0 false 0 [0; 0; 0; 0] 0.

(* src/stream/ws/framing.c:57-99, ws_parse_frame_header.  The struct is
   updated field by field, also when the function then returns false; the
   returned pair is (return value, struct afterwards).  [buf] is the [length]
   bytes at [payload]. *)
Definition ws_parse_frame_header (h : ws_header) (buf : list Z) : bool * ws_header :=
  match buf with
  | b0 :: b1 :: rest =>
      let f := negb (Z.land b0 0x80 =? 0) in
      let op := Z.land b0 0x0f in
      let m := negb (Z.land b1 0x80 =? 0) in
      let len7 := Z.land b1 0x7f in
      (* the mask part, lines 88-98, entered with the bytes after the length
         and the current value of i *)
      let finish (plen i : Z) (rest : list Z) :=
        if m then
          if (length rest <? 4)%nat
          then (false, mk_hdr f op m plen (masking_key h) (header_length h))
          else (true, mk_hdr f op m plen (firstn 4 rest) (i + 4))
        else (true, mk_hdr f op m plen (masking_key h) i) in
      if len7 =? 126 then
        if (length rest <? 2)%nat
        then (false, mk_hdr f op m len7 (masking_key h) (header_length h))
        else finish (unbe (firstn 2 rest)) 4 (skipn 2 rest)
      else if len7 =? 127 then
        if (length rest <? 8)%nat
        then (false, mk_hdr f op m len7 (masking_key h) (header_length h))
        else finish (unbe (firstn 8 rest)) 10 (skipn 8 rest)
      else finish len7 2 rest
  | _ => (false, h)
  end.

(* src/stream/ws/framing.c:123-125 / 109-111, the xor loop; [i] is the loop
   index *)
Fixpoint xor_loop (key : list Z) (i : nat) (src : list Z) : list Z :=
  match src with
  | [] => []
  | b :: t => Z.lxor b (nth (i mod 4) key 0) :: xor_loop key (S i) t
  end.

(* src/stream/ws/framing.c:101-112, ws_apply_mask (in place, on the first
   payload_length bytes of [payload]) *)
Definition ws_apply_mask (h : ws_header) (payload : list Z) : res (list Z) :=
  if mask h then
    let* p := get payload 0 (payload_length h) in
    put payload 0 (xor_loop (masking_key h) 0 p)
  else Fault AssertFail.

(* src/stream/ws/framing.c:114-126, ws_copy_payload: the [len] bytes stored to
   dst *)
Definition ws_copy_payload (h : ws_header) (src : list Z) (len : Z) : res (list Z) :=
  let* p := get src 0 len in
  if mask h then Ok (xor_loop (masking_key h) 0 p) else Ok p.

(* !!header->fin, src/stream/ws/framing.c:128-153 *)
Definition b2z (b : bool) : Z := if b then 1 else 0.

(* src/stream/ws/framing.c:128-153, ws_write_frame_header: the destination
   buffer afterwards and the returned length.  Line 148 copies the masking key
   to the start of dst. *)
Definition ws_write_frame_header (dst : list Z) (h : ws_header) : res (list Z * Z) :=
  let* dst := put dst 0 [Z.lor (Z.shiftl (b2z (fin h)) 7 mod 256) (opcode h) mod 256] in
  let* (dst, i) :=
    if payload_length h <=? 125 then
      let* dst := put dst 1 [Z.lor (Z.shiftl (b2z (mask h)) 7) (payload_length h) mod 256] in
      Ok (dst, 2)
    else if payload_length h <=? 65535 then
      let* dst := put dst 1 [Z.lor (Z.shiftl (b2z (mask h)) 7) 126] in
      let* dst := put dst 2 (be 2 (payload_length h)) in
      Ok (dst, 4)
    else
      let* dst := put dst 1 [Z.lor (Z.shiftl (b2z (mask h)) 7) 127] in
      let* dst := put dst 2 (be 8 (payload_length h)) in
      Ok (dst, 10) in
  if mask h then
    let* dst := put dst 0 (masking_key h) in
    Ok (dst, i + 4)
  else Ok (dst, i).
