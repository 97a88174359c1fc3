(** Encoders of clients: who holds them, who counts them and what becomes of their zlib streams.
    The compressor is a parameter: a state and a step.  For Tight, which has four zlib
    streams, the state stands for the four together. *)
From Verif Require Import Common.

(** src/enc/interface.c:36-51 — the kinds of encoder. *)
Inductive kind := KRaw | KZrle | KTight | KH264.

(** include/rfb-proto.h:62-83, src/enc/interface.c:59-74 — comparing types. *)
Definition kind_eqb (a b : kind) : bool :=
  match a, b with KRaw, KRaw | KZrle, KZrle | KTight, KTight | KH264, KH264 => true | _, _ => false end.

(** src/enc/h264/open-h264.c:236, include/enc/encoder.h:28-31 — only Open H.264 ignores damage. *)
Definition ignores_damage (k : kind) : bool := match k with KH264 => true | _ => false end.

(** src/enc/raw.c:235, src/enc/zrle.c:463, src/enc/tight.c:457-468, src/enc/h264/open-h264.c:160-180 —
    whether a frame being encoded holds the encoder: all do but Open H.264. *)
Definition work_holds (k : kind) : bool := match k with KH264 => false | _ => true end.

(** src/enc/zrle.c:380-395, src/enc/tight.c:60-130 — whether a frame goes through zlib. *)
Definition deflates (k : kind) : bool := match k with KZrle | KTight => true | _ => false end.

(** src/server.c:2488-2550 — a frame as handed to the stream: its kind, what went in, the bytes. *)
Record frame := mk_frame { f_kind : kind; f_plain : list Z; f_bytes : list Z }.

Section Enc.
Variable zst : Type.
Variable z_new : zst.
Variable deflate : zst -> list Z -> zst * list Z.

(** include/enc/encoder.h:60-70 — an encoder: type, references (0 once destroyed), the state of
    its compressor, for which client on_done and userdata are set, the frame being encoded. *)
Record enc := mk_enc { e_kind : kind; e_ref : Z; e_z : zst; e_for : option nat; e_job : option (list Z) }.

(** include/common.h:88-149 — of a client: whether it exists, its stream is closed, it named the
    Fence encoding, formats_changed, is_updating, a frame is being written, the three pointers
    to encoders; and, for the statements, the frames sent and those thrown away. *)
Record cli := mk_cli { c_alive : bool; c_shut : bool; c_fence : bool; c_changed : bool; c_busy : bool; c_writing : bool;
  c_enc : option nat; c_zrle : option nat; c_tight : option nat; c_out : list frame; c_lost : list frame }.

(** include/common.h:171-211 — the heap of encoders, the clients, n_damage_clients (line 210). *)
Record srv := mk_srv { s_enc : nat -> enc; s_m : nat; s_cli : nat -> cli; s_n : nat; s_damage : Z }.

(** include/common.h:88-149 — writing one slot. *)
Definition upd {A} (f : nat -> A) (i : nat) (v : A) : nat -> A := fun j => if Nat.eqb j i then v else f j.

(** include/common.h:171-211 — writing one encoder. *)
Definition set_enc (s : srv) (a : nat) (e : enc) : srv := mk_srv (upd (s_enc s) a e) (s_m s) (s_cli s) (s_n s) (s_damage s).
(** include/common.h:171-211 — writing one client. *)
Definition set_cli (s : srv) (i : nat) (c : cli) : srv := mk_srv (s_enc s) (s_m s) (upd (s_cli s) i c) (s_n s) (s_damage s).
(** src/server.c:190-192, 782-784, 818-819 — n_damage_clients, a uint32_t, changes by the flag. *)
Definition add_damage (s : srv) (d : Z) (k : kind) : srv :=
  mk_srv (s_enc s) (s_m s) (s_cli s) (s_n s) ((s_damage s + d * (if ignores_damage k then 0 else 1)) mod 2 ^ 32).

(** include/enc/encoder.h:60-70 — reading an encoder that may be gone. *)
Definition load (s : srv) (a : nat) : res enc := if e_ref (s_enc s a) =? 0 then Fault UseAfterFree else Ok (s_enc s a).

(** src/enc/interface.c:53-57 — a new encoder at a new address. *)
Definition encoder_new (s : srv) (k : kind) (alloc : bool) : srv * option nat :=
  if alloc then (mk_srv (upd (s_enc s) (s_m s) (mk_enc k 1 z_new None None)) (S (s_m s)) (s_cli s) (s_n s) (s_damage s), Some (s_m s))
  else (s, None).

(** src/enc/interface.c:76-80 — encoder_ref. *)
Definition encoder_ref (s : srv) (p : option nat) : res srv :=
  match p with
  | None => Fault NullDeref
  | Some a => let* e := load s a in
              if 0 <? e_ref e then Ok (set_enc s a (mk_enc (e_kind e) (e_ref e + 1) (e_z e) (e_for e) (e_job e))) else Fault AssertFail
  end.

(** src/enc/interface.c:82-92 — encoder_unref; what is destroyed takes its unfinished frame along. *)
Definition encoder_unref (s : srv) (p : option nat) : res srv :=
  match p with
  | None => Ok s
  | Some a => let* e := load s a in
              Ok (set_enc s a (mk_enc (e_kind e) (e_ref e - 1) (e_z e) (e_for e) (if e_ref e - 1 =? 0 then None else e_job e)))
  end.

(** src/server.c:193-194, 785-786, 2556-2557 — on_done and userdata are cleared. *)
Definition forget (s : srv) (a : nat) : res srv :=
  let* e := load s a in Ok (set_enc s a (mk_enc (e_kind e) (e_ref e) (e_z e) None (e_job e))).

(** src/server.c:189-195, 781-787 — the current encoder is given up: counted out and detached. *)
Definition detach (s : srv) (p : option nat) : res srv :=
  match p with
  | None => Ok s
  | Some a => let* e := load s a in forget (add_damage s (-1) (e_kind e)) a
  end.

(** include/common.h:88-149 — the pointers of a client. *)
Definition set_ptrs (c : cli) (e z t : option nat) : cli :=
  mk_cli (c_alive c) (c_shut c) (c_fence c) (c_changed c) (c_busy c) (c_writing c) e z t (c_out c) (c_lost c).
(** include/common.h:120-122 — is_updating and formats_changed. *)
Definition set_busy (c : cli) (b ch w : bool) : cli :=
  mk_cli (c_alive c) (c_shut c) (c_fence c) ch b w (c_enc c) (c_zrle c) (c_tight c) (c_out c) (c_lost c).

(** src/server.c:792-815 — the switch: ZRLE and Tight encoders are kept by the client. *)
Definition choose (s : srv) (i : nat) (k : kind) (alloc : bool) : res srv :=
  let c := s_cli s i in
  match k with
  | KZrle =>
      let '(s, z) := match c_zrle c with Some a => (s, Some a) | None => encoder_new s KZrle alloc end in
      let s := set_cli s i (set_ptrs c z z (c_tight c)) in encoder_ref s z
  | KTight =>
      let '(s, t) := match c_tight c with Some a => (s, Some a) | None => encoder_new s KTight alloc end in
      let s := set_cli s i (set_ptrs c t (c_zrle c) t) in encoder_ref s t
  | _ =>
      let '(s, e) := encoder_new s k alloc in
      Ok (set_cli s i (set_ptrs c e (c_zrle c) (c_tight c)))
  end.

(** src/server.c:771-826 — ensure_encoder; the encoding chosen is a parameter
    (choose_frame_encoding is in Mirror), so is whether allocation works. *)
Definition ensure_encoder (s : srv) (i : nat) (k : kind) (alloc : bool) : res (srv * bool) :=
  let c := s_cli s i in
  let* same := match c_enc c with None => Ok false | Some a => let* e := load s a in Ok (kind_eqb k (e_kind e)) end in
  if same : bool then Ok (s, true) else
  let* s := detach s (c_enc c) in
  let* s := encoder_unref s (c_enc c) in
  let* s := choose s i k alloc in
  match c_enc (s_cli s i) with
  | None => Ok (s, false)
  | Some a => let* e := load s a in Ok (add_damage s 1 (e_kind e), true)
  end.

(** src/enc/raw.c:218-254, src/enc/zrle.c:441-476, src/enc/tight.c:583-624, src/enc/h264/open-h264.c:160-180 —
    a frame is started.  An encoder that has one already would stop at an assertion (ZRLE) or
    overwrite it. *)
Definition encode (s : srv) (a : nat) (plain : list Z) (start : bool) : res (srv * bool) :=
  let* e := load s a in
  match e_job e with
  | Some _ => Fault AssertFail
  | None => if start then Ok (set_enc s a (mk_enc (e_kind e) (e_ref e + (if work_holds (e_kind e) then 1 else 0)) (e_z e) (e_for e) (Some plain)), true)
            else Ok (s, false)
  end.

(** src/server.c:863-959 — process_fb_update_requests once it was decided to send a frame of
    kind [k] whose contents are [plain]. *)
Definition process (s : srv) (i : nat) (k : kind) (plain : list Z) (alloc start : bool) : res srv :=
  let c := s_cli s i in
  if negb (c_alive c) || c_shut c || c_busy c then Ok s else
  let* r := ensure_encoder s i k alloc in
  let '(s, ok) := r in
  if negb ok then Ok s else
  let s := set_cli s i (set_busy (s_cli s i) true false (c_writing (s_cli s i))) in
  match c_enc (s_cli s i) with
  | None => Fault NullDeref
  | Some a =>
      let* e := load s a in
      let s := set_enc s a (mk_enc (e_kind e) (e_ref e) (e_z e) (Some i) (e_job e)) in
      let* r := encode s a plain start in
      let '(s, ok) := r in
      if ok then Ok s else Ok (set_cli s i (set_busy (s_cli s i) false false (c_writing (s_cli s i))))
  end.

(** src/server.c:2488-2550 — finish_fb_update: a closed stream, formats changed under a client
    without Fence, or the frame is handed to the stream.  A change of size for a client that
    cannot do it is left out (C115), and so are send errors. *)
Definition finish_fb_update (c : cli) (f : frame) : cli :=
  if c_shut c then set_busy c false (c_changed c) (c_writing c) else
  if c_changed c && negb (c_fence c) then
    mk_cli (c_alive c) (c_shut c) (c_fence c) (c_changed c) false (c_writing c) (c_enc c) (c_zrle c) (c_tight c) (c_out c) (c_lost c ++ [f])
  else mk_cli (c_alive c) (c_shut c) (c_fence c) (c_changed c) (c_busy c) true (c_enc c) (c_zrle c) (c_tight c) (c_out c ++ [f]) (c_lost c).

(** src/server.c:2552-2559 — on_encode_frame_done. *)
Definition on_encode_frame_done (s : srv) (i : nat) (f : frame) : res srv :=
  let c := s_cli s i in
  if negb (c_alive c) then Fault UseAfterFree else
  match c_enc c with
  | None => Fault NullDeref
  | Some a => let* s := forget s a in Ok (set_cli s i (finish_fb_update (s_cli s i) f))
  end.

(** src/enc/raw.c:130-177, src/enc/zrle.c:340-399, src/enc/tight.c:428-531, src/enc/h264/open-h264.c:69-92,
    src/enc/interface.c:118-122 — the worker ends: the frame went through the compressor and is
    handed over if somebody waits for it.  That completing an update starts the next one is a
    step of its own here. *)
Definition done (s : srv) (a : nat) : res srv :=
  let e := s_enc s a in
  match e_job e with
  | None => Ok s
  | Some plain =>
      let* e := load s a in
      let '(z, bytes) := if deflates (e_kind e) then deflate (e_z e) plain else (e_z e, plain) in
      let s := set_enc s a (mk_enc (e_kind e) (e_ref e) z (e_for e) None) in
      let* s := match e_for e with None => Ok s | Some i => on_encode_frame_done s i (mk_frame (e_kind e) plain bytes) end in
      if work_holds (e_kind e) then encoder_unref s (Some a) else Ok s
  end.

(** src/server.c:2447-2451, 2438-2445 — the frame was written (or dropped by a closing stream). *)
Definition written (s : srv) (i : nat) : srv :=
  let c := s_cli s i in
  if c_alive c && c_writing c then set_cli s i (set_busy c false (c_changed c) false) else s.

(** src/server.c:164-203 — client_close (of a server that is not itself closing). *)
Definition client_close (s : srv) (i : nat) : res srv :=
  let c := s_cli s i in
  if negb (c_alive c) then Ok s else
  let* s := detach s (c_enc c) in
  let* s := encoder_unref s (c_enc c) in
  let* s := encoder_unref s (c_zrle c) in
  let* s := encoder_unref s (c_tight c) in
  Ok (set_cli s i (mk_cli false true (c_fence c) (c_changed c) false false None None None (c_out c) (c_lost c))).

(** src/server.c:1997-2085 — a client as it is connected: zeroed. *)
Definition fresh : cli := mk_cli true false false false false false None None None [] [].
(** src/server.c:1997-2085 — a slot nobody has connected to. *)
Definition nobody : cli := mk_cli false true false false false false None None None [] [].

(** src/server.c:2215-2230 — the server after nvnc_new. *)
Definition init : srv := mk_srv (fun _ => mk_enc KRaw 0 z_new None None) 0 (fun _ => nobody) 0 0.

(** src/server.c:1865-1902, 1938-1995, 2447-2559 — what may happen. *)
Inductive op :=
| Connect
| SetFormat (i : nat)                     (** src/server.c:528-557 *)
| SetEncodings (i : nat) (fence : bool)   (** src/server.c:616-695 *)
| Process (i : nat) (k : kind) (plain : list Z) (alloc start : bool)
| Done (a : nat)
| Written (i : nat)
| Gone (i : nat)                          (** the stream closes: src/stream/tcp.c:40-66 *)
| Close (i : nat).

(** src/server.c:551, 680, src/stream/tcp.c:40-66 — one of them. *)
Definition step (s : srv) (o : op) : res srv :=
  match o with
  | Connect => Ok (mk_srv (s_enc s) (s_m s) (upd (s_cli s) (s_n s) fresh) (S (s_n s)) (s_damage s))
  | SetFormat i => let c := s_cli s i in Ok (if c_alive c then set_cli s i (set_busy c (c_busy c) true (c_writing c)) else s)
  | SetEncodings i fence => let c := s_cli s i in
      Ok (if c_alive c then set_cli s i (mk_cli (c_alive c) (c_shut c) fence true (c_busy c) (c_writing c) (c_enc c) (c_zrle c) (c_tight c) (c_out c) (c_lost c)) else s)
  | Process i k plain alloc start => process s i k plain alloc start
  | Done a => done s a
  | Written i => Ok (written s i)
  | Gone i => let c := s_cli s i in
      Ok (if c_alive c then set_cli s i (mk_cli (c_alive c) true (c_fence c) (c_changed c) (c_busy c && negb (c_writing c)) false (c_enc c) (c_zrle c) (c_tight c) (c_out c) (c_lost c)) else s)
  | Close i => client_close s i
  end.

(** src/server.c:1865-1995 — all of them, one after the other. *)
Fixpoint run (s : srv) (os : list op) : res srv :=
  match os with [] => Ok s | o :: os => let* s := step s o in run s os end.

End Enc.
