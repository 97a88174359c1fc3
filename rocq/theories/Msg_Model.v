(** A connected client after the handshake: the messages it may send, the
    framebuffer updates it gets, fences, the clipboard and desktop layout
    requests.  src/server.c:504-1995, 2419-2636, 2771-2823; src/desktop-layout.c.

    Simplifications, beyond those noted at the definitions:
    - allocation never fails, callbacks of the application are all set and do
      not call back into the library, stream_write does not fail on an open
      stream;
    - nvnc_client_close inside a message handler frees the client, and the
      receive loop reads client->is_blocked_by_fence right afterwards
      (src/server.c:1976-1988): the model says [Fault UseAfterFree] at the call;
    - assert() is compiled in, log level PANIC aborts: both are [AssertFail];
    - counters of type int do not overflow (n_pending_requests would need 2^31
      requests), except where [SignedOverflow] is mentioned;
    - log output and the trace probes are left out. *)
From Verif Require Import Common Pixels_Model.

(* pixman_region16_t as the list of its boxes x1, y1, x2, y2, not in pixman's
   canonical order; used throughout src/server.c, e.g. 841-861 *)
(* pixman_box16, e.g. src/server.c:841-861 *)
Definition box : Type := (Z * Z * Z * Z)%type.
(* src/server.c:841-861 *)
Definition region : Type := list box.

(* pixman_region_init_rect and friends, called at src/server.c:852, 946, 987,
   2573: the corners are stored as int16_t *)
Definition rect_box (x y w h : Z) : box :=
  (to_signed 16 (x mod 2 ^ 16), to_signed 16 (y mod 2 ^ 16),
   to_signed 16 ((x + w) mod 2 ^ 16), to_signed 16 ((y + h) mod 2 ^ 16)).

(* pixman's GOOD_RECT: a box with an inside *)
(* as in pixman_region_not_empty at src/server.c:843 *)
Definition good_box (b : box) : bool :=
  let '(x1, y1, x2, y2) := b in (x1 <? x2) && (y1 <? y2).

(* pixman_region_union_rect, called at src/server.c:987 and 2573 *)
Definition union_rect (r : region) (x y w h : Z) : region :=
  let b := rect_box x y w h in if good_box b then r ++ [b] else r.

(* pixman_region_union, called at src/server.c:2631 *)
Definition region_union (r s : region) : region := r ++ s.

(* the common part of two boxes, as pixman_region_intersect forms it *)
(* src/server.c:852 *)
Definition box_inter (a b : box) : box :=
  let '(ax1, ay1, ax2, ay2) := a in let '(bx1, by1, bx2, by2) := b in
  (Z.max ax1 bx1, Z.max ay1 by1, Z.min ax2 bx2, Z.min ay2 by2).

(* pixman_region_intersect_rect, called at src/server.c:852 and 946 *)
Definition intersect_rect (r : region) (x y w h : Z) : region :=
  let b := rect_box x y w h in
  filter good_box (map (fun a => box_inter a b) r).

(* pixman_region_not_empty, called at src/server.c:843 and 857 *)
Definition not_empty (r : region) : bool := existsb good_box r.

(* the display's buffer, src/server.c:880 and 946: width, height, and whether it
   is a GBM buffer (fb->type == NVNC_FB_GBM_BO, src/server.c:2465) *)
Record fb : Type := mk_fb { fb_w : Z; fb_h : Z; fb_gbm : bool }.

(* include/common.h:80-86, struct cut_text: the data received so far stands for
   buffer and index *)
Record cut_text : Type :=
  mk_cut { ct_zlib : bool; ct_provide : bool; ct_length : Z; ct_data : list Z }.

(* include/enc/encoder.h:48-54, struct encoded_frame; the time stamp is None for
   NVNC_NO_PTS *)
Record frame : Type :=
  mk_frame { f_rects : Z; f_w : Z; f_h : Z; f_pts : option Z; f_data : list Z }.

(* src/desktop-layout.c:23-32; the last field tells whether display->display is
   set to the server's display, src/server.c:1618-1619 *)
Record layout : Type :=
  mk_layout { l_id : Z; l_x : Z; l_y : Z; l_w : Z; l_h : Z; l_own : bool }.

(* which part of the code sends a framebuffer update: src/server.c:2593-2623,
   697-724, 2771-2815, 2488-2550 and 1689-1697 *)
Inductive kind : Type := KExt | KCursor | KLed | KFrame | KLayout.

(** What an observer outside the library sees: bytes handed to the stream, calls of
    application callbacks and of the encoder, and two kinds of client messages at
    the time they take effect. *)
(* src/server.c:504-1995 *)
Inductive out : Type :=
| Sent (l : list Z)                       (* stream_write, any other message *)
| Update (k : kind) (l : list Z)          (* stream_write, a framebuffer update *)
| NtpReply (l : list Z)                   (* src/server.c:1747; t2 is set later *)
| FbReq (incremental x y w h : Z)         (* fb_req_fn, src/server.c:996-998 *)
| KeySym (sym : Z) (pressed : bool)       (* key_fn, 1025-1027 *)
| KeyCode (code : Z) (pressed : bool)     (* key_code_fn, 1050-1052 *)
| Pointer (x y buttons : Z)               (* pointer_fn, 1091-1093 *)
| CutText (l : list Z)                    (* cut_text_fn, 1376, 1488, 1258 *)
| CuMode (on : bool)                      (* continuous updates on or off, 1431 *)
| FenceReq (flags : Z) (payload : list Z) (* a fence request is accepted, 1755-1785 *)
| AskLayout (w h : Z) (l : list layout)   (* desktop_layout_fn, 1628-1629 *)
| KeyFrame                                (* encoder_request_key_frame, 991 *)
| Encode (r : region) (w h : Z) (ok : bool) (* encoder_encode, 949 *)
| CursorFailed                            (* 714-718 *)
| Dropped                                 (* a frame is thrown away, 2494-2504 *)
| Completed.                              (* is_updating goes false, 2442 *)

(** The client as one record, with the server fields its handlers use.
    include/common.h:88-149 (struct nvnc_client), 171-211 (struct nvnc).
    Not kept: the bandwidth estimator (an oracle below), timers, the
    handshake fields of Auth_Model, user data. *)
Record client : Type := mk_client {
  encs : list Z; (* encodings, n_encodings *)
  quality : Z; (* quality *)
  fmt : pixfmt; (* pixfmt *)
  fmt_changed : bool; (* formats_changed *)
  cu_notified : bool; (* is_continuous_updates_notified *)
  cu_on : bool; (* continuous_updates_enabled *)
  cu_rect : Z * Z * Z * Z; (* continuous_updates: x, y, width, height *)
  pending : Z; (* n_pending_requests *)
  updating : bool; (* is_updating *)
  damage : region; (* damage *)
  known : Z * Z; (* known_width, known_height *)
  ext_notified : bool; (* is_ext_notified *)
  cur_seq : Z; (* cursor_seq *)
  led : Z; (* led_state *)
  led_want : Z; (* pending_led_state *)
  blocked : bool; (* is_blocked_by_fence *)
  block_next : bool; (* must_block_after_next_message *)
  pf_n : Z; (* pending_fence.n_pending_requests *)
  pf_flags : Z; (* pending_fence.flags *)
  pf_payload : list Z; (* pending_fence.payload, length *)
  inflight : Z; (* inflight_bytes *)
  min_rtt : Z; (* min_rtt *)
  cut : option cut_text; (* cut_text, None when cut_text.buffer is NULL *)
  caps : Z; (* ext_clipboard_caps *)
  max_text : Z; (* ext_clipboard_max_unsolicited_text_size *)
  encoder : option Z; (* encoder, by its type; None when NULL *)
  closed : bool; (* net_stream->state == STREAM_STATE_CLOSED *)
  buf : list Z; (* msg_buffer, first buffer_len bytes *)
  idx : Z; (* buffer_index *)
  disp : option fb; (* server->display->buffer *)
  srv_seq : Z; (* server->cursor_seq *)
  provide : option (list Z); (* server->ext_clipboard_provide_msg *)
  log : list out (* what has been observed so far; not in the C code *)
}.

(** Assignments to one field of the struct, include/common.h:88-149. *)
Definition set_encs (v : list Z) (c : client) : client :=
  mk_client v (quality c) (fmt c) (fmt_changed c) (cu_notified c) (cu_on c) (cu_rect c) (pending c) (updating c) (damage c) (known c) (ext_notified c) (cur_seq c) (led c) (led_want c) (blocked c) (block_next c) (pf_n c) (pf_flags c) (pf_payload c) (inflight c) (min_rtt c) (cut c) (caps c) (max_text c) (encoder c) (closed c) (buf c) (idx c) (disp c) (srv_seq c) (provide c) (log c).
(* include/common.h:121 *)
Definition set_quality (v : Z) (c : client) : client :=
  mk_client (encs c) v (fmt c) (fmt_changed c) (cu_notified c) (cu_on c) (cu_rect c) (pending c) (updating c) (damage c) (known c) (ext_notified c) (cur_seq c) (led c) (led_want c) (blocked c) (block_next c) (pf_n c) (pf_flags c) (pf_payload c) (inflight c) (min_rtt c) (cut c) (caps c) (max_text c) (encoder c) (closed c) (buf c) (idx c) (disp c) (srv_seq c) (provide c) (log c).
(* include/common.h:94 *)
Definition set_fmt (v : pixfmt) (c : client) : client :=
  mk_client (encs c) (quality c) v (fmt_changed c) (cu_notified c) (cu_on c) (cu_rect c) (pending c) (updating c) (damage c) (known c) (ext_notified c) (cur_seq c) (led c) (led_want c) (blocked c) (block_next c) (pf_n c) (pf_flags c) (pf_payload c) (inflight c) (min_rtt c) (cut c) (caps c) (max_text c) (encoder c) (closed c) (buf c) (idx c) (disp c) (srv_seq c) (provide c) (log c).
(* include/common.h:122 *)
Definition set_fmt_changed (v : bool) (c : client) : client :=
  mk_client (encs c) (quality c) (fmt c) v (cu_notified c) (cu_on c) (cu_rect c) (pending c) (updating c) (damage c) (known c) (ext_notified c) (cur_seq c) (led c) (led_want c) (blocked c) (block_next c) (pf_n c) (pf_flags c) (pf_payload c) (inflight c) (min_rtt c) (cut c) (caps c) (max_text c) (encoder c) (closed c) (buf c) (idx c) (disp c) (srv_seq c) (provide c) (log c).
(* include/common.h:111 *)
Definition set_cu_notified (v : bool) (c : client) : client :=
  mk_client (encs c) (quality c) (fmt c) (fmt_changed c) v (cu_on c) (cu_rect c) (pending c) (updating c) (damage c) (known c) (ext_notified c) (cur_seq c) (led c) (led_want c) (blocked c) (block_next c) (pf_n c) (pf_flags c) (pf_payload c) (inflight c) (min_rtt c) (cut c) (caps c) (max_text c) (encoder c) (closed c) (buf c) (idx c) (disp c) (srv_seq c) (provide c) (log c).
(* include/common.h:112 *)
Definition set_cu_on (v : bool) (c : client) : client :=
  mk_client (encs c) (quality c) (fmt c) (fmt_changed c) (cu_notified c) v (cu_rect c) (pending c) (updating c) (damage c) (known c) (ext_notified c) (cur_seq c) (led c) (led_want c) (blocked c) (block_next c) (pf_n c) (pf_flags c) (pf_payload c) (inflight c) (min_rtt c) (cut c) (caps c) (max_text c) (encoder c) (closed c) (buf c) (idx c) (disp c) (srv_seq c) (provide c) (log c).
(* include/common.h:113-116 *)
Definition set_cu_rect (v : Z * Z * Z * Z) (c : client) : client :=
  mk_client (encs c) (quality c) (fmt c) (fmt_changed c) (cu_notified c) (cu_on c) v (pending c) (updating c) (damage c) (known c) (ext_notified c) (cur_seq c) (led c) (led_want c) (blocked c) (block_next c) (pf_n c) (pf_flags c) (pf_payload c) (inflight c) (min_rtt c) (cut c) (caps c) (max_text c) (encoder c) (closed c) (buf c) (idx c) (disp c) (srv_seq c) (provide c) (log c).
(* include/common.h:99 *)
Definition set_pending (v : Z) (c : client) : client :=
  mk_client (encs c) (quality c) (fmt c) (fmt_changed c) (cu_notified c) (cu_on c) (cu_rect c) v (updating c) (damage c) (known c) (ext_notified c) (cur_seq c) (led c) (led_want c) (blocked c) (block_next c) (pf_n c) (pf_flags c) (pf_payload c) (inflight c) (min_rtt c) (cut c) (caps c) (max_text c) (encoder c) (closed c) (buf c) (idx c) (disp c) (srv_seq c) (provide c) (log c).
(* include/common.h:100 *)
Definition set_updating (v : bool) (c : client) : client :=
  mk_client (encs c) (quality c) (fmt c) (fmt_changed c) (cu_notified c) (cu_on c) (cu_rect c) (pending c) v (damage c) (known c) (ext_notified c) (cur_seq c) (led c) (led_want c) (blocked c) (block_next c) (pf_n c) (pf_flags c) (pf_payload c) (inflight c) (min_rtt c) (cut c) (caps c) (max_text c) (encoder c) (closed c) (buf c) (idx c) (disp c) (srv_seq c) (provide c) (log c).
(* include/common.h:98 *)
Definition set_damage (v : region) (c : client) : client :=
  mk_client (encs c) (quality c) (fmt c) (fmt_changed c) (cu_notified c) (cu_on c) (cu_rect c) (pending c) (updating c) v (known c) (ext_notified c) (cur_seq c) (led c) (led_want c) (blocked c) (block_next c) (pf_n c) (pf_flags c) (pf_payload c) (inflight c) (min_rtt c) (cut c) (caps c) (max_text c) (encoder c) (closed c) (buf c) (idx c) (disp c) (srv_seq c) (provide c) (log c).
(* include/common.h:105-106 *)
Definition set_known (v : Z * Z) (c : client) : client :=
  mk_client (encs c) (quality c) (fmt c) (fmt_changed c) (cu_notified c) (cu_on c) (cu_rect c) (pending c) (updating c) (damage c) v (ext_notified c) (cur_seq c) (led c) (led_want c) (blocked c) (block_next c) (pf_n c) (pf_flags c) (pf_payload c) (inflight c) (min_rtt c) (cut c) (caps c) (max_text c) (encoder c) (closed c) (buf c) (idx c) (disp c) (srv_seq c) (provide c) (log c).
(* include/common.h:110 *)
Definition set_ext_notified (v : bool) (c : client) : client :=
  mk_client (encs c) (quality c) (fmt c) (fmt_changed c) (cu_notified c) (cu_on c) (cu_rect c) (pending c) (updating c) (damage c) (known c) v (cur_seq c) (led c) (led_want c) (blocked c) (block_next c) (pf_n c) (pf_flags c) (pf_payload c) (inflight c) (min_rtt c) (cut c) (caps c) (max_text c) (encoder c) (closed c) (buf c) (idx c) (disp c) (srv_seq c) (provide c) (log c).
(* include/common.h:120 *)
Definition set_cur_seq (v : Z) (c : client) : client :=
  mk_client (encs c) (quality c) (fmt c) (fmt_changed c) (cu_notified c) (cu_on c) (cu_rect c) (pending c) (updating c) (damage c) (known c) (ext_notified c) v (led c) (led_want c) (blocked c) (block_next c) (pf_n c) (pf_flags c) (pf_payload c) (inflight c) (min_rtt c) (cut c) (caps c) (max_text c) (encoder c) (closed c) (buf c) (idx c) (disp c) (srv_seq c) (provide c) (log c).
(* include/common.h:123 *)
Definition set_led (v : Z) (c : client) : client :=
  mk_client (encs c) (quality c) (fmt c) (fmt_changed c) (cu_notified c) (cu_on c) (cu_rect c) (pending c) (updating c) (damage c) (known c) (ext_notified c) (cur_seq c) v (led_want c) (blocked c) (block_next c) (pf_n c) (pf_flags c) (pf_payload c) (inflight c) (min_rtt c) (cut c) (caps c) (max_text c) (encoder c) (closed c) (buf c) (idx c) (disp c) (srv_seq c) (provide c) (log c).
(* include/common.h:124 *)
Definition set_led_want (v : Z) (c : client) : client :=
  mk_client (encs c) (quality c) (fmt c) (fmt_changed c) (cu_notified c) (cu_on c) (cu_rect c) (pending c) (updating c) (damage c) (known c) (ext_notified c) (cur_seq c) (led c) v (blocked c) (block_next c) (pf_n c) (pf_flags c) (pf_payload c) (inflight c) (min_rtt c) (cut c) (caps c) (max_text c) (encoder c) (closed c) (buf c) (idx c) (disp c) (srv_seq c) (provide c) (log c).
(* include/common.h:125 *)
Definition set_blocked (v : bool) (c : client) : client :=
  mk_client (encs c) (quality c) (fmt c) (fmt_changed c) (cu_notified c) (cu_on c) (cu_rect c) (pending c) (updating c) (damage c) (known c) (ext_notified c) (cur_seq c) (led c) (led_want c) v (block_next c) (pf_n c) (pf_flags c) (pf_payload c) (inflight c) (min_rtt c) (cut c) (caps c) (max_text c) (encoder c) (closed c) (buf c) (idx c) (disp c) (srv_seq c) (provide c) (log c).
(* include/common.h:126 *)
Definition set_block_next (v : bool) (c : client) : client :=
  mk_client (encs c) (quality c) (fmt c) (fmt_changed c) (cu_notified c) (cu_on c) (cu_rect c) (pending c) (updating c) (damage c) (known c) (ext_notified c) (cur_seq c) (led c) (led_want c) (blocked c) v (pf_n c) (pf_flags c) (pf_payload c) (inflight c) (min_rtt c) (cut c) (caps c) (max_text c) (encoder c) (closed c) (buf c) (idx c) (disp c) (srv_seq c) (provide c) (log c).
(* include/common.h:128 *)
Definition set_pf_n (v : Z) (c : client) : client :=
  mk_client (encs c) (quality c) (fmt c) (fmt_changed c) (cu_notified c) (cu_on c) (cu_rect c) (pending c) (updating c) (damage c) (known c) (ext_notified c) (cur_seq c) (led c) (led_want c) (blocked c) (block_next c) v (pf_flags c) (pf_payload c) (inflight c) (min_rtt c) (cut c) (caps c) (max_text c) (encoder c) (closed c) (buf c) (idx c) (disp c) (srv_seq c) (provide c) (log c).
(* include/common.h:129 *)
Definition set_pf_flags (v : Z) (c : client) : client :=
  mk_client (encs c) (quality c) (fmt c) (fmt_changed c) (cu_notified c) (cu_on c) (cu_rect c) (pending c) (updating c) (damage c) (known c) (ext_notified c) (cur_seq c) (led c) (led_want c) (blocked c) (block_next c) (pf_n c) v (pf_payload c) (inflight c) (min_rtt c) (cut c) (caps c) (max_text c) (encoder c) (closed c) (buf c) (idx c) (disp c) (srv_seq c) (provide c) (log c).
(* include/common.h:130-131 *)
Definition set_pf_payload (v : list Z) (c : client) : client :=
  mk_client (encs c) (quality c) (fmt c) (fmt_changed c) (cu_notified c) (cu_on c) (cu_rect c) (pending c) (updating c) (damage c) (known c) (ext_notified c) (cur_seq c) (led c) (led_want c) (blocked c) (block_next c) (pf_n c) (pf_flags c) v (inflight c) (min_rtt c) (cut c) (caps c) (max_text c) (encoder c) (closed c) (buf c) (idx c) (disp c) (srv_seq c) (provide c) (log c).
(* include/common.h:136 *)
Definition set_inflight (v : Z) (c : client) : client :=
  mk_client (encs c) (quality c) (fmt c) (fmt_changed c) (cu_notified c) (cu_on c) (cu_rect c) (pending c) (updating c) (damage c) (known c) (ext_notified c) (cur_seq c) (led c) (led_want c) (blocked c) (block_next c) (pf_n c) (pf_flags c) (pf_payload c) v (min_rtt c) (cut c) (caps c) (max_text c) (encoder c) (closed c) (buf c) (idx c) (disp c) (srv_seq c) (provide c) (log c).
(* include/common.h:134 *)
Definition set_min_rtt (v : Z) (c : client) : client :=
  mk_client (encs c) (quality c) (fmt c) (fmt_changed c) (cu_notified c) (cu_on c) (cu_rect c) (pending c) (updating c) (damage c) (known c) (ext_notified c) (cur_seq c) (led c) (led_want c) (blocked c) (block_next c) (pf_n c) (pf_flags c) (pf_payload c) (inflight c) v (cut c) (caps c) (max_text c) (encoder c) (closed c) (buf c) (idx c) (disp c) (srv_seq c) (provide c) (log c).
(* include/common.h:107 *)
Definition set_cut (v : option cut_text) (c : client) : client :=
  mk_client (encs c) (quality c) (fmt c) (fmt_changed c) (cu_notified c) (cu_on c) (cu_rect c) (pending c) (updating c) (damage c) (known c) (ext_notified c) (cur_seq c) (led c) (led_want c) (blocked c) (block_next c) (pf_n c) (pf_flags c) (pf_payload c) (inflight c) (min_rtt c) v (caps c) (max_text c) (encoder c) (closed c) (buf c) (idx c) (disp c) (srv_seq c) (provide c) (log c).
(* include/common.h:108 *)
Definition set_caps (v : Z) (c : client) : client :=
  mk_client (encs c) (quality c) (fmt c) (fmt_changed c) (cu_notified c) (cu_on c) (cu_rect c) (pending c) (updating c) (damage c) (known c) (ext_notified c) (cur_seq c) (led c) (led_want c) (blocked c) (block_next c) (pf_n c) (pf_flags c) (pf_payload c) (inflight c) (min_rtt c) (cut c) v (max_text c) (encoder c) (closed c) (buf c) (idx c) (disp c) (srv_seq c) (provide c) (log c).
(* include/common.h:109 *)
Definition set_max_text (v : Z) (c : client) : client :=
  mk_client (encs c) (quality c) (fmt c) (fmt_changed c) (cu_notified c) (cu_on c) (cu_rect c) (pending c) (updating c) (damage c) (known c) (ext_notified c) (cur_seq c) (led c) (led_want c) (blocked c) (block_next c) (pf_n c) (pf_flags c) (pf_payload c) (inflight c) (min_rtt c) (cut c) (caps c) v (encoder c) (closed c) (buf c) (idx c) (disp c) (srv_seq c) (provide c) (log c).
(* include/common.h:117 *)
Definition set_encoder (v : option Z) (c : client) : client :=
  mk_client (encs c) (quality c) (fmt c) (fmt_changed c) (cu_notified c) (cu_on c) (cu_rect c) (pending c) (updating c) (damage c) (known c) (ext_notified c) (cur_seq c) (led c) (led_want c) (blocked c) (block_next c) (pf_n c) (pf_flags c) (pf_payload c) (inflight c) (min_rtt c) (cut c) (caps c) (max_text c) v (closed c) (buf c) (idx c) (disp c) (srv_seq c) (provide c) (log c).
(* include/stream/stream.h:82 *)
Definition set_closed (v : bool) (c : client) : client :=
  mk_client (encs c) (quality c) (fmt c) (fmt_changed c) (cu_notified c) (cu_on c) (cu_rect c) (pending c) (updating c) (damage c) (known c) (ext_notified c) (cur_seq c) (led c) (led_want c) (blocked c) (block_next c) (pf_n c) (pf_flags c) (pf_payload c) (inflight c) (min_rtt c) (cut c) (caps c) (max_text c) (encoder c) v (buf c) (idx c) (disp c) (srv_seq c) (provide c) (log c).
(* include/common.h:103-104 *)
Definition set_buf (v : list Z) (c : client) : client :=
  mk_client (encs c) (quality c) (fmt c) (fmt_changed c) (cu_notified c) (cu_on c) (cu_rect c) (pending c) (updating c) (damage c) (known c) (ext_notified c) (cur_seq c) (led c) (led_want c) (blocked c) (block_next c) (pf_n c) (pf_flags c) (pf_payload c) (inflight c) (min_rtt c) (cut c) (caps c) (max_text c) (encoder c) (closed c) v (idx c) (disp c) (srv_seq c) (provide c) (log c).
(* include/common.h:102 *)
Definition set_idx (v : Z) (c : client) : client :=
  mk_client (encs c) (quality c) (fmt c) (fmt_changed c) (cu_notified c) (cu_on c) (cu_rect c) (pending c) (updating c) (damage c) (known c) (ext_notified c) (cur_seq c) (led c) (led_want c) (blocked c) (block_next c) (pf_n c) (pf_flags c) (pf_payload c) (inflight c) (min_rtt c) (cut c) (caps c) (max_text c) (encoder c) (closed c) (buf c) v (disp c) (srv_seq c) (provide c) (log c).
(* include/display.h:33, src/display.c:43 *)
Definition set_disp (v : option fb) (c : client) : client :=
  mk_client (encs c) (quality c) (fmt c) (fmt_changed c) (cu_notified c) (cu_on c) (cu_rect c) (pending c) (updating c) (damage c) (known c) (ext_notified c) (cur_seq c) (led c) (led_want c) (blocked c) (block_next c) (pf_n c) (pf_flags c) (pf_payload c) (inflight c) (min_rtt c) (cut c) (caps c) (max_text c) (encoder c) (closed c) (buf c) (idx c) v (srv_seq c) (provide c) (log c).
(* include/common.h:192 *)
Definition set_srv_seq (v : Z) (c : client) : client :=
  mk_client (encs c) (quality c) (fmt c) (fmt_changed c) (cu_notified c) (cu_on c) (cu_rect c) (pending c) (updating c) (damage c) (known c) (ext_notified c) (cur_seq c) (led c) (led_want c) (blocked c) (block_next c) (pf_n c) (pf_flags c) (pf_payload c) (inflight c) (min_rtt c) (cut c) (caps c) (max_text c) (encoder c) (closed c) (buf c) (idx c) (disp c) v (provide c) (log c).
(* include/common.h:184 *)
Definition set_provide (v : option (list Z)) (c : client) : client :=
  mk_client (encs c) (quality c) (fmt c) (fmt_changed c) (cu_notified c) (cu_on c) (cu_rect c) (pending c) (updating c) (damage c) (known c) (ext_notified c) (cur_seq c) (led c) (led_want c) (blocked c) (block_next c) (pf_n c) (pf_flags c) (pf_payload c) (inflight c) (min_rtt c) (cut c) (caps c) (max_text c) (encoder c) (closed c) (buf c) (idx c) (disp c) (srv_seq c) v (log c).
(* not in the code; what is seen of include/common.h:88-149 from outside *)
Definition set_log (v : list out) (c : client) : client :=
  mk_client (encs c) (quality c) (fmt c) (fmt_changed c) (cu_notified c) (cu_on c) (cu_rect c) (pending c) (updating c) (damage c) (known c) (ext_notified c) (cur_seq c) (led c) (led_want c) (blocked c) (block_next c) (pf_n c) (pf_flags c) (pf_payload c) (inflight c) (min_rtt c) (cut c) (caps c) (max_text c) (encoder c) (closed c) (buf c) (idx c) (disp c) (srv_seq c) (provide c) v.

(** What the code depends on but which is outside it.  Every answer may depend
    on all that has happened before. *)
(* src/server.c:504-1995, at the lines given *)
Record env : Type := mk_env {
  e_experimental : bool;   (* ENABLE_EXPERIMENTAL, src/server.c:655 *)
  e_h264 : bool;           (* ENABLE_OPEN_H264 and have_working_h264_encoder, 2462-2468 *)
  e_layout : option (list out -> Z -> Z -> list layout -> bool); (* 1628-1629 *)
  e_now : list out -> Z;   (* gettime_us, 115-120 *)
  e_limited : list out -> Z -> Z -> bool; (* 908-920, given inflight_bytes and min_rtt *)
  e_cursor : list out -> pixfmt -> option (list Z); (* cursor_encode, 711-713 *)
  e_encoder : list out -> Z -> bool;  (* encoder_new succeeds, 792-812 *)
  e_encode : list out -> bool;        (* encoder_encode is not negative, 949 *)
  e_sync : list out -> bool;          (* stream_send at 2537 finishes at once *)
  e_inflate : list Z -> list Z * option bool;
    (* zlib on the bytes of a provide message: all it would put out, and then
       None for a data error, Some true for the end of the stream, Some false
       for input that ends early; 1209 and 1234 *)
  e_more : list out -> option (list Z)
    (* stream_read from the call at 2435: None is EAGAIN *)
}.

(* include/rfb-proto.h:62-83 *)
Definition ENC_RAW : Z := 0.
(* include/rfb-proto.h:67 *)
Definition ENC_TIGHT : Z := 7.
(* include/rfb-proto.h:69 *)
Definition ENC_ZRLE : Z := 16.
(* include/rfb-proto.h:70 *)
Definition ENC_H264 : Z := 50.
(* include/rfb-proto.h:71 *)
Definition ENC_CURSOR : Z := -239.
(* include/rfb-proto.h:72 *)
Definition ENC_DESKTOPSIZE : Z := -223.
(* include/rfb-proto.h:75 *)
Definition ENC_EXTDESKTOPSIZE : Z := -308.
(* include/rfb-proto.h:73 *)
Definition ENC_QEMU_KEY : Z := -258.
(* include/rfb-proto.h:74 *)
Definition ENC_QEMU_LED : Z := -261.
(* include/rfb-proto.h:80 *)
Definition ENC_VMWARE_LED : Z := 1464686184.
(* include/rfb-proto.h:82 *)
Definition ENC_EXT_CLIPBOARD : Z := -1063131698.
(* include/rfb-proto.h:77 *)
Definition ENC_CU : Z := -313.
(* include/rfb-proto.h:76 *)
Definition ENC_FENCE : Z := -312.
(* include/rfb-proto.h:78 *)
Definition ENC_PTS : Z := -1000.
(* include/rfb-proto.h:79 *)
Definition ENC_NTP : Z := -1001.

(* src/server.c:637-665, the case labels that store the encoding *)
Definition supported (exper : bool) (e : Z) : bool :=
  existsb (Z.eqb e)
    [ENC_RAW; 1; 2; 5; ENC_TIGHT; 15; ENC_ZRLE; ENC_H264; ENC_CURSOR;
     ENC_DESKTOPSIZE; ENC_EXTDESKTOPSIZE; ENC_QEMU_KEY; ENC_QEMU_LED;
     ENC_VMWARE_LED; ENC_EXT_CLIPBOARD; ENC_CU; ENC_FENCE]
  || (exper && existsb (Z.eqb e) [ENC_PTS; ENC_NTP]).

(* include/common.h:40-43 *)
Definition MSG_BUFFER_SIZE : Z := 4096.
(* include/common.h:41 *)
Definition MAX_CUT_TEXT_SIZE : Z := 10000000.
(* include/common.h:38 *)
Definition MAX_ENCODINGS : Z := 32.

(* fields of a packed message, include/rfb-proto.h:161-336, after ntohs/ntohl *)
Definition u8 (m : list Z) (k : nat) : Z := nth k m 0.
(* include/rfb-proto.h:161-336, after ntohs or ntohl *)
Definition u16 (m : list Z) (k : nat) : Z := unbe (firstn 2 (skipn k m)).
(* include/rfb-proto.h:161-336, after ntohs or ntohl *)
Definition u32 (m : list Z) (k : nat) : Z := unbe (firstn 4 (skipn k m)).
(* include/rfb-proto.h:161-336, after ntohs or ntohl *)
Definition i32 (m : list Z) (k : nat) : Z := to_signed 32 (u32 m k).

(* a call of stream_write or of a callback, noted in the log; the C code has no
   log, see e.g. src/server.c:525 *)
Definition say (o : out) (c : client) : client := set_log (log c ++ [o]) c.

(* src/server.c:2478-2486 *)
Definition has_encoding (c : client) (e : Z) : bool := existsb (Z.eqb e) (encs c).

(* int32_t as a 32-bit pattern, for htonl of a negative number, e.g.
   src/server.c:1103 and 1645 *)
Definition pattern32 (v : Z) : Z := v mod 2 ^ 32.

(* struct rfb_server_fb_update_msg, include/rfb-proto.h:290-294, as built at
   src/server.c:2521-2524; htons keeps 16 bits *)
Definition update_head (n : Z) : list Z := [0; 0] ++ be 2 (n mod 2 ^ 16).

(* struct rfb_server_fb_rect, include/rfb-proto.h:260-266 *)
Definition rect_head (x y w h e : Z) : list Z :=
  be 2 x ++ be 2 y ++ be 2 w ++ be 2 h ++ be 4 (pattern32 e).

(* src/pixels.c:678-690; round(65535.0 / m * v) to the nearest integer *)
Definition colour (m v : Z) : Z := (2 * 65535 * v + m) / (2 * m).
(* src/pixels.c:678-690, sent at src/server.c:504-526 *)
Definition colour_map : list Z :=
  [1; 0] ++ be 2 0 ++ be 2 256 ++
  flat_map (fun i => be 2 (colour 7 (i / 32 mod 8)) ++ be 2 (colour 7 (i / 4 mod 8)) ++
                     be 2 (colour 3 (i mod 4)))
           (map Z.of_nat (seq 0 256)).

(* src/server.c:528-557 and 504-526 *)
Definition on_set_pixel_format (c : client) (m : list Z) : client * Z :=
  if zlen m <? 20 then (c, 0) else
  let raw := firstn 16 (skipn 4 m) in
  let c := set_fmt (client_pixfmt raw) c in
  let c := if u8 raw 3 =? 0 then say (Sent colour_map) c else c in
  (set_fmt_changed true c, 20).

(* src/server.c:582-596; the assertion on the length is kept by the callers *)
Definition fence_bytes (flags : Z) (payload : list Z) : list Z :=
  [248; 0; 0; 0] ++ be 4 flags ++ [zlen payload] ++ payload.
(* src/server.c:582-596 *)
Definition send_fence (flags : Z) (payload : list Z) (c : client) : client :=
  say (Sent (fence_bytes flags payload)) c.

(* src/server.c:598-614; inflight_bytes is added to as uint32_t and stored as
   int32_t; RFB_FENCE_REQUEST | RFB_FENCE_BLOCK_BEFORE *)
Definition send_ping (E : env) (size : Z) (c : client) : client :=
  if negb (has_encoding c ENC_FENCE) then c else
  let now := e_now E (log c) mod 2 ^ 32 in
  let c := set_inflight (to_signed 32 ((inflight c + size) mod 2 ^ 32)) c in
  send_fence (2 ^ 31 + 1) (be 4 now ++ be 4 (size mod 2 ^ 32)) c.

(* src/server.c:634-671: the encodings kept (at most 32) and the quality *)
Fixpoint scan_encodings (exper : bool) (l : list Z) (kept : list Z) (q : Z) : list Z * Z :=
  match l with
  | [] => (kept, q)
  | e :: l =>
      if zlen kept <? MAX_ENCODINGS then
        scan_encodings exper l
          (if supported exper e then kept ++ [e] else kept)
          (if (-32 <=? e) && (e <=? -23) then e + 32 else q)
      else (kept, q)
  end.

(* the array msg->encodings, src/server.c:634-635 *)
Fixpoint read_encodings (n : nat) (m : list Z) : list Z :=
  match n with
  | O => []
  | S n => to_signed 32 (unbe (firstn 4 m)) :: read_encodings n (skipn 4 m)
  end.

(* include/rfb-proto.h:134-150 *)
Definition CB_TEXT : Z := 1.
(* include/rfb-proto.h:140 *)
Definition CB_CAPS : Z := 2 ^ 24.
(* include/rfb-proto.h:141 *)
Definition CB_REQUEST : Z := 2 ^ 25.
(* include/rfb-proto.h:142 *)
Definition CB_PEEK : Z := 2 ^ 26.
(* include/rfb-proto.h:143 *)
Definition CB_NOTIFY : Z := 2 ^ 27.
(* include/rfb-proto.h:144 *)
Definition CB_PROVIDE : Z := 2 ^ 28.
(* include/rfb-proto.h:145-149 *)
Definition CB_ALL : Z := CB_REQUEST + CB_PEEK + CB_NOTIFY + CB_PROVIDE.
(* (v & bit) != 0, e.g. src/server.c:1283 *)
Definition flag (v bit : Z) : bool := negb (Z.land v bit =? 0).

(* struct rfb_ext_clipboard_msg, include/rfb-proto.h:223-232 *)
Definition clipboard_head (length flags : Z) : list Z :=
  [3; 0; 0; 0] ++ be 4 (pattern32 length) ++ be 4 flags.

(* src/server.c:1098-1115 *)
Definition send_clipboard_caps (c : client) : client :=
  say (Sent (clipboard_head (-8) (CB_CAPS + CB_TEXT + CB_ALL) ++ [0; 0; 0; 0])) c.

(* src/server.c:1117-1127 *)
Definition send_clipboard_request (c : client) : client :=
  say (Sent (clipboard_head (-4) (CB_REQUEST + CB_TEXT))) c.

(* src/server.c:1129-1141 *)
Definition send_clipboard_notify (c : client) : client :=
  say (Sent (clipboard_head (-4)
         (CB_NOTIFY + match provide c with Some _ => CB_TEXT | None => 0 end))) c.

(* src/server.c:1143-1159 *)
Definition send_clipboard_provide (c : client) : res client :=
  match provide c with
  | None => Fault AssertFail
  | Some z => Ok (say (Sent (clipboard_head (- (4 + zlen z)) (CB_PROVIDE + CB_TEXT) ++ z)) c)
  end.

(* src/server.c:616-695 *)
Definition on_set_encodings (E : env) (c : client) (m : list Z) : client * Z :=
  if zlen m <? 4 then (c, 0) else
  let n := u16 m 2 in
  if zlen m <? 4 + n * 4 then (c, 0) else
  let '(kept, q) :=
    scan_encodings (e_experimental E) (read_encodings (Z.to_nat n) (skipn 4 m)) [] 10 in
  let c := set_fmt_changed true (set_encs kept (set_quality q c)) in
  let c := if negb (cu_notified c) && has_encoding c ENC_CU
           then set_cu_notified true (say (Sent [150]) c) else c in
  let c := if has_encoding c ENC_EXT_CLIPBOARD then send_clipboard_caps c else c in
  let c := if has_encoding c ENC_FENCE then send_ping E 0 c else c in
  (c, 4 + 4 * n).

(* src/server.c:697-724 *)
Definition send_cursor_update (E : env) (c : client) : client :=
  match e_cursor E (log c) (fmt c) with
  | None => say CursorFailed c
  | Some l => say (Update KCursor (update_head 1 ++ l)) (set_cur_seq (srv_seq c) c)
  end.

(* src/server.c:2453-2476 *)
Fixpoint choose_encoding (E : env) (gbm : bool) (l : list Z) : Z :=
  match l with
  | [] => ENC_RAW
  | e :: l =>
      if (e =? ENC_RAW) || (e =? ENC_TIGHT) || (e =? ENC_ZRLE) then e
      else if (e =? ENC_H264) && gbm && e_h264 E then e
      else choose_encoding E gbm l
  end.

(* src/server.c:771-826; the saved ZRLE and Tight encoders only avoid the
   allocation, so the outcome of encoder_new stands for all three cases *)
Definition ensure_encoder (E : env) (f : fb) (c : client) : client * bool :=
  let e := choose_encoding E (fb_gbm f) (encs c) in
  if match encoder c with Some k => k =? e | None => false end then (c, true)
  else if e_encoder E (log c) e then (set_encoder (Some e) c, true)
  else (set_encoder None c, false).

(* src/server.c:841-861 *)
Definition has_damage (c : client) : bool :=
  if negb (not_empty (damage c)) then false
  else if negb (cu_on c) then true
  else let '(x, y, w, h) := cu_rect c in not_empty (intersect_rect (damage c) x y w h).

(* src/server.c:2593-2623 *)
Definition send_ext_support (c : client) : client * bool :=
  let q := has_encoding c ENC_QEMU_KEY in
  let n := has_encoding c ENC_NTP in
  if negb q && negb n then (c, false) else
  (say (Update KExt (update_head (Z.b2z q + Z.b2z n) ++
      (if q then rect_head 0 0 0 0 ENC_QEMU_KEY else []) ++
      (if n then rect_head 0 0 0 0 ENC_NTP else []))) c, true).

(* src/server.c:2771-2815 *)
Definition send_led_state (c : client) : client * bool :=
  if led_want c =? led c then (c, false) else
  let q := has_encoding c ENC_QEMU_LED in
  let v := has_encoding c ENC_VMWARE_LED in
  if negb q && negb v then (c, false) else
  (set_led (led_want c)
     (say (Update KLed (update_head 1 ++ rect_head 0 0 0 0 ENC_QEMU_LED ++
        (if q then [led_want c mod 2 ^ 8] else be 4 (pattern32 (led_want c))))) c), true).

Section Resume.
Variable E : env.
(* on_client_event(stream, STREAM_EVENT_READ) as called at src/server.c:2435; the
   recursion is tied in [receive] below *)
Variable resume : client -> res client.

(* src/server.c:2419-2436 *)
Definition process_pending_fence (c : client) : res client :=
  if pf_n c =? 0 then (if blocked c then Fault AssertFail else Ok c)
  else
    let c := set_pf_n (pf_n c - 1) c in
    if negb (pf_n c =? 0) then Ok c
    else
      let c := send_fence (pf_flags c) (pf_payload c) c in
      let c := set_pf_payload [] (set_pf_flags 0 (set_pf_n 0 c)) in
      resume (set_blocked false c).

(* src/server.c:828-835 *)
Definition decrement_pending (c : client) : res (client * Z) :=
  if updating c then Fault AssertFail
  else if cu_on c then Ok (c, 1)
  else
    let* c := process_pending_fence c in
    let c := set_pending (pending c - 1) c in
    Ok (c, pending c).

(* src/server.c:886-903, the same two lines three times: after a message was sent,
   take one request off and go on if some are left *)
Definition answered (sent : bool) (c : client) (k : client -> res client) : res client :=
  if sent then
    let* (c, n) := decrement_pending c in
    if n <=? 0 then Ok c else k c
  else k c.

(* src/server.c:922-958 *)
Definition start_encoding (f : fb) (c : client) : res client :=
  let '(c, ok) := ensure_encoder E f c in
  if negb ok then Ok c else
  let r := intersect_rect (damage c) 0 0 (fb_w f) (fb_h f) in
  let c := set_fmt_changed false (set_updating true (set_damage [] c)) in
  let good := e_encode E (log c) in
  let c := say (Encode r (fb_w f) (fb_h f) good) c in
  if good then Ok (if 0 <? pending c then set_pending (pending c - 1) c else c)
  else Ok (set_fmt_changed false (set_updating false c)).

(* src/server.c:905-958 *)
Definition send_frame (f : fb) (c : client) : res client :=
  if negb (has_damage c) then Ok c
  else if e_limited E (log c) (inflight c) (min_rtt c) then Ok c
  else start_encoding f c.

(* src/server.c:863-959 *)
Definition process_requests (c : client) : res client :=
  if closed c then Ok c else
  match disp c with
  | None => Ok c
  | Some f =>
      if updating c then Ok c
      else if negb (cu_on c) && (pending c =? 0) then Ok c
      else
        let '(c, sent) := if ext_notified c then (c, false)
                          else send_ext_support (set_ext_notified true c) in
        answered sent c (fun c =>
        let cur := negb (srv_seq c =? cur_seq c) && has_encoding c ENC_CURSOR in
        answered cur (if cur then send_cursor_update E c else c) (fun c =>
        let '(c, sent) := send_led_state c in
        answered sent c (fun c => send_frame f c)))
  end.

(* src/server.c:961-1009 *)
Definition on_fb_update_request (c : client) (m : list Z) : res (client * Z) :=
  if zlen m <? 10 then Ok (c, 0) else
  let inc := u8 m 1 in
  let x := u16 m 2 in let y := u16 m 4 in
  let w := u16 m 6 in let h := u16 m 8 in
  if negb (inc =? 0) && cu_on c then Ok (c, 0) else
  let c := set_pending (pending c + 1) c in
  let c := if inc =? 0 then
             let c := set_damage (union_rect (damage c) x y w h) c in
             match encoder c with Some _ => say KeyFrame c | None => c end
           else c in
  let c := say (FbReq inc x y w h) c in
  let c := if (inc =? 0) && has_encoding c ENC_EXTDESKTOPSIZE
           then set_known (0, 0) c else c in
  let* c := process_requests c in
  Ok (c, 10).

(* src/server.c:1422-1451 *)
Definition on_enable_continuous_updates (c : client) (m : list Z) : res (client * Z) :=
  if zlen m <? 10 then Ok (c, 0) else
  let on := negb (u8 m 1 =? 0) in
  let c := say (CuMode on) (set_cu_on on c) in
  if on then
    let* c := process_requests (set_cu_rect (u16 m 2, u16 m 4, u16 m 6, u16 m 8) c) in
    Ok (c, 10)
  else Ok (say (Sent [150]) (set_cu_rect (0, 0, 0, 0) c), 10).

(* src/server.c:1752-1786 *)
Definition on_fence_request (flags : Z) (payload : list Z) (c : client) : client * bool :=
  let flags := Z.land flags 7 in
  if 0 <? pending c then (set_blocked true c, false) else
  let c := say (FenceReq flags payload) c in
  let c :=
    if flag flags 1 && (0 <? pending c + Z.b2z (updating c)) then
      set_pf_n (pending c + Z.b2z (updating c)) c
    else if flag flags 4 && updating c then
      set_block_next (flag flags 2) (set_pf_n 1 c)
    else c in
  if pf_n c =? 0 then (send_fence flags payload c, true)
  else (set_pf_payload payload (set_pf_flags flags (set_blocked (flags =? 3) c)), true).

(* src/server.c:1788-1832; bwe_update_rtt_min and bwe_feed are in Bwe_Model and
   left out here.  The eight bytes after the header are read whatever the length
   of the payload; [m] is what was received from the message's start on *)
Definition on_fence_response (m : list Z) (c : client) : res client :=
  if zlen m <? 17 then Fault OobRead else
  let departure := i32 m 9 in
  let size := u32 m 13 in
  if size =? 0 then Ok c else
  let now := to_signed 32 (e_now E (log c) mod 2 ^ 32) in
  let rtt := now - departure in
  if (rtt <? - 2 ^ 31) || (2 ^ 31 <=? rtt) then Fault SignedOverflow
  else if rtt <? 0 then Ok c
  else
    let c := if rtt <? min_rtt c then set_min_rtt rtt c else c in
    let c := set_inflight (to_signed 32 ((inflight c - size) mod 2 ^ 32)) c in
    process_requests c.

(* src/server.c:1834-1863; sizeof(msg) is 8, the size of a pointer, while the
   header has 9 bytes.  Use of a byte that was not received is [OobRead] *)
Definition on_fence (c : client) (m : list Z) : res (client * Z) :=
  if zlen m <? 8 then Ok (c, 0)
  else if zlen m <? 9 then Fault OobRead
  else
    let length := u8 m 8 in
    if zlen m <? 8 + length then Ok (c, 0)
    else if 64 <? length then Fault UseAfterFree
    else
      let flags := u32 m 4 in
      if 2 ^ 31 <=? flags then
        if zlen m <? 9 + length then Fault OobRead else
        let '(c, ok) := on_fence_request flags (firstn (Z.to_nat length) (skipn 9 m)) c in
        Ok (c, if ok then 9 + length else 0)
      else
        let* c := on_fence_response m c in
        Ok (c, 9 + length).

(* src/server.c:1011-1030 *)
Definition on_key (c : client) (m : list Z) : client * Z :=
  if zlen m <? 8 then (c, 0)
  else (say (KeySym (u32 m 4) (negb (u8 m 1 =? 0))) c, 8).

(* src/qnum-to-evdev.c:7-244 *)
Definition qnum_to_linux : list Z :=
  [0; 1; 2; 3; 4; 5; 6; 7; 8; 9; 10; 11; 12; 13; 14; 15; 16; 17; 18; 19;
   20; 21; 22; 23; 24; 25; 26; 27; 28; 29; 30; 31; 32; 33; 34; 35; 36; 37;
   38; 39; 40; 41; 42; 43; 44; 45; 46; 47; 48; 49; 50; 51; 52; 53; 54; 55;
   56; 57; 58; 59; 60; 61; 62; 63; 64; 65; 66; 67; 68; 69; 70; 71; 72; 73;
   74; 75; 76; 77; 78; 79; 80; 81; 82; 83; 99; 186; 86; 87; 88; 117; 190;
   101; 95; 183; 184; 185; 0; 0; 0; 169; 134; 135; 141; 144; 145; 146; 151;
   153; 161; 193; 0; 194; 93; 123; 122; 89; 191; 177; 85; 91; 90; 92; 0;
   94; 0; 124; 121; 0; 0; 171; 150; 187; 189; 129; 130; 131; 176; 181; 182;
   120; 132; 0; 233; 178; 165; 0; 152; 147; 222; 195; 196; 149; 168; 163;
   197; 198; 96; 97; 139; 148; 113; 140; 164; 160; 166; 205; 154; 199; 200;
   201; 0; 202; 203; 204; 114; 206; 115; 167; 172; 207; 208; 98; 209; 99;
   100; 210; 211; 212; 137; 213; 214; 215; 216; 136; 218; 219; 220; 221;
   119; 102; 103; 104; 223; 105; 224; 106; 118; 107; 108; 109; 110; 111;
   225; 234; 227; 228; 229; 230; 231; 125; 126; 127; 116; 142; 0; 0; 0;
   143; 232; 217; 156; 173; 128; 159; 158; 157; 155; 226; 0; 112; 235; 236;
   237; 238; 239; 138; 179; 188; 133; 192; 0; 180; 0; 162].

(* src/server.c:1032-1055; down_flag is not byte-swapped, only compared with 0 *)
Definition on_qemu_key (c : client) (m : list Z) : res (client * Z) :=
  if zlen m <? 12 then Ok (c, 0) else
  let code := u32 m 8 in
  match nth_error qnum_to_linux (Z.to_nat code) with
  | None => Fault OobRead
  | Some k =>
      Ok (say (KeyCode (if k =? 0 then code else k) (negb (u16 m 2 =? 0))) c, 12)
  end.

(* src/server.c:1057-1074 *)
Definition on_qemu (c : client) (m : list Z) : res (client * Z) :=
  if zlen m <? 2 then Ok (c, 0)
  else if u8 m 1 =? 0 then on_qemu_key c m
  else Fault UseAfterFree.

(* src/server.c:1076-1096 *)
Definition on_pointer (c : client) (m : list Z) : client * Z :=
  if zlen m <? 6 then (c, 0)
  else (say (Pointer (u16 m 2) (u16 m 4) (u8 m 1)) c, 6).

(* src/server.c:1161-1187; [l] is followed in memory by a zero byte *)
Fixpoint crlf_to_lf (l : list Z) : list Z :=
  match l with
  | [] => []
  | a :: l =>
      if a =? 13 then
        match l with
        | b :: _ => if b =? 10 then crlf_to_lf l else 10 :: crlf_to_lf l
        | [] => [10]
        end
      else a :: crlf_to_lf l
  end.

(* src/server.c:1189-1263.  inflate is called for four bytes and then for as many
   as these announce; it returns Z_BUF_ERROR when it can make no progress at all.
   When the stream ends with exactly the announced four bytes zlib may return
   Z_OK or Z_STREAM_END from the first call; the model takes Z_STREAM_END *)
Definition clipboard_provide (z : list Z) (c : client) : res client :=
  let '(o, st) := e_inflate E z in
  if zlen o <=? 4 then
    match st with
    | Some false =>
        match z with
        | [] => Ok c
        | _ => if zlen o <? 4 then Fault Uninit
               else if unbe o <=? 1 then Ok c else Ok c
        end
    | _ => Ok c
    end
  else
    let n := unbe (firstn 4 o) in
    if n <=? 1 then Ok c else
    let text := firstn (Z.to_nat n) (skipn 4 o) in
    if (zlen o - 4 <? n) then
      match st with
      | None => Ok c
      | Some _ => Fault Uninit
      end
    else if negb (nth (Z.to_nat (n - 1)) text 0 =? 0) then Ok c
    else Ok (say (CutText (cstr (crlf_to_lf (removelast text)))) c).

(* src/server.c:1265-1352 *)
Definition on_ext_clipboard (c : client) (m : list Z) : res (client * Z) :=
  if zlen m <? 12 then Ok (c, 0) else
  let neg := to_signed 32 ((- u32 m 4) mod 2 ^ 32) in
  let length := neg - 4 in
  if length <? - 2 ^ 31 then Fault SignedOverflow else
  let flags := u32 m 8 in
  if flag flags CB_CAPS && (zlen m <? (12 + Z.min 64 length) mod 2 ^ 64) then Ok (c, 0)
  else if MAX_CUT_TEXT_SIZE <? length then Fault UseAfterFree
  else
    let size := (12 + length) mod 2 ^ 64 in
    if zlen m <? size then
      match cut c with
      | Some _ => Fault AssertFail
      | None =>
          Ok (set_cut (Some (mk_cut true
                (flag flags CB_PROVIDE && flag flags CB_TEXT && negb (flag flags CB_CAPS))
                length (skipn 12 m))) c, zlen m)
      end
    else
      let* c :=
        if flag flags CB_CAPS then
          let c := set_caps flags c in
          Ok (if 4 <=? length then set_max_text (u32 m 12) c else c)
        else if flag flags CB_REQUEST && flag flags CB_TEXT && flag (caps c) CB_PROVIDE &&
                match provide c with Some _ => true | None => false end
        then send_clipboard_provide c
        else if flag flags CB_PEEK && flag (caps c) CB_NOTIFY
        then Ok (send_clipboard_notify c)
        else if flag flags CB_NOTIFY && flag flags CB_TEXT && flag (caps c) CB_REQUEST
        then Ok (send_clipboard_request c)
        else if flag flags CB_PROVIDE && flag flags CB_TEXT then
          (* avail_in is the length as uint32_t, beyond the message if negative *)
          if length <? 0 then Fault OobRead
          else clipboard_provide (firstn (Z.to_nat length) (skipn 12 m)) c
        else Ok c in
      Ok (c, size).

(* src/server.c:1354-1402 *)
Definition on_plain_cut_text (c : client) (m : list Z) : res (client * Z) :=
  let length := u32 m 4 in
  if MAX_CUT_TEXT_SIZE <? length then Fault UseAfterFree
  else if 8 + length <=? zlen m then
    Ok (say (CutText (firstn (Z.to_nat length) (skipn 8 m))) c, 8 + length)
  else
    match cut c with
    | Some _ => Fault AssertFail
    | None => Ok (set_cut (Some (mk_cut false false length (skipn 8 m))) c, zlen m)
    end.

(* src/server.c:1404-1420 *)
Definition on_cut_text (c : client) (m : list Z) : res (client * Z) :=
  if zlen m <? 8 then Ok (c, 0)
  else if has_encoding c ENC_EXT_CLIPBOARD && (i32 m 4 <? 0) then on_ext_clipboard c m
  else on_plain_cut_text c m.

(* src/server.c:1453-1496, for data read from the stream; [d] has at most
   min(space, 4096) bytes *)
Definition big_cut_text (t : cut_text) (d : list Z) (c : client) : res client :=
  if ct_length t <=? zlen (ct_data t) then Fault AssertFail else
  let data := ct_data t ++ d in
  if negb (zlen data =? ct_length t)
  then Ok (set_cut (Some (mk_cut (ct_zlib t) (ct_provide t) (ct_length t) data)) c)
  else
    let* c :=
      if ct_zlib t then (if ct_provide t then clipboard_provide data c else Ok c)
      else Ok (say (CutText data) c) in
    Ok (set_cut None c).

(* src/desktop-layout.c:23-32 and src/server.c:1616-1619, one screen of 16 bytes *)
Definition layout_of (s : list Z) : layout :=
  mk_layout (u32 s 0) (u16 s 4) (u16 s 6) (u16 s 8) (u16 s 10) (u32 s 0 =? 0).

(* the array msg->screens, src/server.c:1614 *)
Fixpoint layouts_of (n : nat) (m : list Z) : list layout :=
  match n with
  | O => []
  | S n => layout_of (firstn 16 m) :: layouts_of n (skipn 16 m)
  end.

(* src/server.c:1621-1625 *)
Definition outside (w h : Z) (l : layout) : bool :=
  (w <? l_x l + l_w l) || (h <? l_y l + l_h l).

(* src/server.c:1592-1634 *)
Definition check_layout (w h : Z) (ls : list layout) (c : client) : client * Z :=
  if existsb (outside w h) ls then (c, 3) else
  match e_layout E with
  | None => (c, 1)
  | Some fn => (say (AskLayout w h ls) c, if fn (log c) w h ls then 4 else 1)
  end.

(* src/server.c:1636-1663 *)
Definition ext_size_rect (w h initiator status : Z) : list Z :=
  rect_head initiator status w h ENC_EXTDESKTOPSIZE ++ [1; 0; 0; 0] ++
  be 4 0 ++ be 2 0 ++ be 2 0 ++ be 2 w ++ be 2 h ++ be 4 0.

(* src/server.c:1665-1700 *)
Definition on_set_desktop_size (c : client) (m : list Z) : client * Z :=
  if zlen m <? 8 then (c, 0) else
  let n := u8 m 6 in
  if zlen m <? 8 + n * 16 then (c, 0) else
  let w := u16 m 2 in let h := u16 m 4 in
  let '(c, status) := check_layout w h (layouts_of (Z.to_nat n) (skipn 8 m)) c in
  (say (Update KLayout (update_head 1 ++ ext_size_rect w h 1 status)) c, 8 + n * 16).

(* src/server.c:1702-1750; update_ntp_stats adds and subtracts in int *)
Definition on_ntp (c : client) (m : list Z) : res (client * Z) :=
  if zlen m <? 20 then Ok (c, 0) else
  let t0 := u32 m 4 in let t1 := u32 m 8 in
  let t2 := u32 m 12 in let t3 := u32 m 16 in
  let d a b := to_signed 32 ((a - b) mod 2 ^ 32) in
  let fits v := (- 2 ^ 31 <=? v) && (v <? 2 ^ 31) in
  if negb (t3 =? 0) then
    if fits (d t3 t0 - d t2 t1) && fits (d t1 t0 + d t2 t3) then Ok (c, 20)
    else Fault SignedOverflow
  else
    let now := e_now E (log c) mod 2 ^ 32 in
    Ok (say (NtpReply (firstn 8 m ++ be 4 now ++ firstn 8 (skipn 12 m))) c, 20).

(* src/server.c:1865-1902 *)
Definition on_message (c : client) (m : list Z) : res (client * Z) :=
  match m with
  | [] => Ok (c, 0)
  | t :: _ =>
      match t with
      | 0 => Ok (on_set_pixel_format c m)
      | 2 => Ok (on_set_encodings E c m)
      | 3 => on_fb_update_request c m
      | 4 => Ok (on_key c m)
      | 5 => Ok (on_pointer c m)
      | 6 => on_cut_text c m
      | 150 => on_enable_continuous_updates c m
      | 255 => on_qemu c m
      | 251 => Ok (on_set_desktop_size c m)
      | 160 => on_ntp c m
      | 248 => on_fence c m
      | _ => Fault UseAfterFree
      end
  end.

(* src/server.c:1976-1986; once the index is beyond the data, bytes that were not
   received would be taken for a message *)
Fixpoint message_loop (fuel : nat) (c : client) : res client :=
  match fuel with
  | O => Fault Diverges
  | S fuel =>
      if blocked c then Ok c
      else if zlen (buf c) <? idx c then Fault OobRead
      else
        let c := set_block_next false (set_blocked (block_next c) c) in
        let* (c, n) := on_message c (skipn (Z.to_nat (idx c)) (buf c)) in
        if n =? 0 then Ok c
        else message_loop fuel (set_idx (idx c + n) c)
  end.

(* src/server.c:1955-1994.  [d] is what stream_read returns: None for EAGAIN.  A
   read of size 0 makes the stream report the end of the connection
   (src/stream/tcp.c:208-210); more than asked for is not returned *)
Definition on_client_event (c : client) (d : option (list Z)) : res client :=
  match cut c with
  | Some t =>
      match d with
      | None => Ok c
      | Some [] => Ok c
      | Some d =>
          if Z.min (ct_length t - zlen (ct_data t)) MSG_BUFFER_SIZE <? zlen d then Ok c
          else big_cut_text t d c
      end
  | None =>
      if negb (idx c =? 0) then Fault AssertFail else
      let space := MSG_BUFFER_SIZE - zlen (buf c) in
      if space <=? 0 then Ok (set_closed true c) else
      match d with
      | None => Ok c
      | Some [] => Ok c
      | Some d =>
          if space <? zlen d then Ok c else
          let c := set_buf (buf c ++ d) c in
          let* c := message_loop (Z.to_nat 4098) c in
          if zlen (buf c) <? idx c then Fault AssertFail
          else Ok (set_idx 0 (set_buf (skipn (Z.to_nat (idx c)) (buf c)) c))
      end
  end.

(* src/server.c:2438-2445 *)
Definition complete_update (c : client) : res client :=
  if negb (updating c) then Ok c
  else process_requests (say Completed (set_updating false c)).

(* src/server.c:2561-2565 *)
Definition supports_resizing (c : client) : bool :=
  has_encoding c ENC_DESKTOPSIZE || has_encoding c ENC_EXTDESKTOPSIZE.

(* src/server.c:2567-2591: the rectangle; the state is changed in finish_update *)
Definition resize_rect (c : client) (w h : Z) : list Z :=
  if has_encoding c ENC_EXTDESKTOPSIZE then ext_size_rect w h 0 0
  else rect_head 0 0 w h ENC_DESKTOPSIZE.

(* src/server.c:726-743 *)
Definition pts_rect (c : client) (f : frame) : list Z :=
  match f_pts f with
  | Some t => if has_encoding c ENC_PTS then rect_head 0 0 0 0 ENC_PTS ++ be 8 t else []
  | None => []
  end.

(* src/server.c:2488-2550.  The pieces that make up one update are handed to the
   stream one after the other; the log has them as one entry.  When the stream
   can send at once, on_write_frame_done runs inside stream_send.  The ping has the
   size of the whole frame; of one written in part see Ping_Model *)
Definition finish_update (f : frame) (c : client) : res client :=
  if closed c then complete_update c
  else if fmt_changed c && negb (has_encoding c ENC_FENCE) then
    complete_update (say Dropped (set_pending (pending c + 1) c))
  else
    let pts := pts_rect c f in
    let n := f_rects f + (if match pts with [] => true | _ => false end then 0 else 1) in
    let resized := negb ((fst (known c) =? f_w f) && (snd (known c) =? f_h f)) in
    let n := if resized then n + 1 else n in
    if resized && negb (supports_resizing c) then Fault UseAfterFree else
    let rs := if resized then resize_rect c (f_w f) (f_h f) else [] in
    let c := if resized then
               set_damage (union_rect (damage c) 0 0 (f_w f) (f_h f))
                 (set_known (f_w f, f_h f) c)
             else c in
    let c := say (Update KFrame (update_head n ++ rs ++ pts ++ f_data f)) c in
    let* c := if e_sync E (log c) then complete_update c else Ok c in
    let c := send_ping E (zlen (f_data f)) c in
    process_pending_fence c.

End Resume.

(* on_client_event and its call from process_pending_fence, src/server.c:2435; the
   fuel bounds the depth of the nesting *)
Fixpoint receive (E : env) (fuel : nat) (c : client) (d : option (list Z)) : res client :=
  match fuel with
  | O => Fault Diverges
  | S fuel =>
      on_client_event E (fun c => receive E fuel c (e_more E (log c))) c d
  end.

(** What can happen to a client. *)
(* src/server.c:1938-1995, 2552-2559, 2447-2451, 2625-2636 *)
Inductive input : Type :=
| IRead (d : option (list Z))   (* the stream is readable, src/server.c:1938 *)
| IDamage (f : fb) (r : region) (* new display buffer and damage, src/display.c:31-51, src/server.c:2625-2636 *)
| IEncoded (f : frame)          (* the encoder is done, 2552-2559 *)
| IWritten                      (* the stream has sent the frame, 2447-2451 *)
| ILed (state : Z)              (* nvnc_client_set_led_state, 2818-2823 *)
| ICursor                       (* nvnc_set_cursor, 2900-2934 *)
| IClosed.                      (* the stream is closed, 1944-1948 *)

(* the functions named at the constructors of [input]; nvnc_set_cursor only counts
   cursor_seq up and then processes the requests, src/server.c:2927-2933 *)
Definition step (E : env) (fuel : nat) (c : client) (i : input) : res client :=
  let resume := fun c => receive E fuel c (e_more E (log c)) in
  match i with
  | IRead d => if closed c then Ok c else receive E (S fuel) c d
  | IDamage f r =>
      let c := set_disp (Some f) c in
      let c := if closed c then c else set_damage (region_union (damage c) r) c in
      process_requests E resume c
  | IEncoded f => finish_update E resume f c
  | IWritten => complete_update E resume c
  | ILed s => process_requests E resume (set_led_want s c)
  | ICursor => process_requests E resume (set_srv_seq (srv_seq c + 1) c)
  | IClosed => Ok (set_closed true c)
  end.

(* the main loop of the application *)
(* calls of src/server.c:1938-1995, 2552-2559, 2447-2451, 2625-2636 in any order *)
Fixpoint run (E : env) (fuel : nat) (c : client) (l : list input) : res client :=
  match l with
  | [] => Ok c
  | i :: l => let* c := step E fuel c i in run E fuel c l
  end.

(* a client that has just become ready: src/server.c:2003-2020, 500 and the
   ServerInit message (known_width, known_height, pixfmt) *)
Definition ready (f : pixfmt) (d : fb) (seq : Z) : client :=
  mk_client [] 10 f false false false (0, 0, 0, 0) 0 false [] (fb_w d, fb_h d)
    false 0 (-1) 0 false false 0 0 [] 0 (2 ^ 31 - 1) None
    (CB_TEXT + CB_REQUEST + CB_NOTIFY + CB_PROVIDE) 20971520 None false [] 0
    (Some d) seq None [].
