(** Displays and servers: nvnc_display_new, _ref, _unref, _feed_buffer (src/display.c),
    nvnc_add_display, nvnc_remove_display, nvnc_del and what clients of a server do with
    its display (src/server.c).

    Servers and displays are known by the order in which they were made; the ones that were
    freed stay in the lists, so that using one is a fault.  A buffer is a number, given by
    the application.  Buffers are upright, so that the resampler calls back at once
    (src/resampler.c:176-179; Disp_Model has the other case); the holds on buffers are in
    Disp_Model, damage is a flag (Msg_Model and Refinery_Model have the regions), and so is
    an outstanding request; what a client does besides is in Msg_Model.  Allocation
    succeeds. *)
From Verif Require Import Common.

(* a client as far as it matters here: include/common.h:88-149 (state of net_stream,
   n_pending_requests, is_updating, damage); [c_seen]: the buffers encoded for it, with the
   display they were on *)
Record client := mk_client {
  c_open : bool; c_waiting : bool; c_busy : bool; c_damage : bool; c_seen : list (nat * nat) }.

(* include/display.h:29-36; [d_app] (ghost): the references the application has *)
Record display := mk_display {
  d_ref : Z; d_freed : bool; d_server : option nat; d_buffer : option nat; d_app : nat }.

(* include/common.h:171-211 *)
Record server := mk_server { s_freed : bool; s_display : option nat; s_clients : list client }.

(* all of them *)
(* include/common.h:171-211, include/display.h:29-36 *)
Record world := mk_world { w_servers : list server; w_displays : list display }.

(* an element of a list changes *)
(* src/server.c:2702-2722 *)
Fixpoint set_nth {A} (l : list A) (n : nat) (x : A) : list A :=
  match l, n with
  | [], _ => []
  | _ :: l, O => x :: l
  | y :: l, S n => y :: set_nth l n x
  end.

(* a pointer to a server is followed: src/display.c:117-123, src/server.c:2702-2722 *)
Definition get_server (s : nat) (w : world) : res server :=
  match nth_error (w_servers w) s with
  | None => Fault NullDeref
  | Some v => if s_freed v then Fault UseAfterFree else Ok v
  end.

(* a pointer to a display is followed: src/display.c:92-146, src/server.c:870, 2046 *)
Definition get_display (d : nat) (w : world) : res display :=
  match nth_error (w_displays w) d with
  | None => Fault NullDeref
  | Some x => if d_freed x then Fault UseAfterFree else Ok x
  end.

(* include/common.h:171-211 *)
Definition put_server (s : nat) (v : server) (w : world) : world := mk_world (set_nth (w_servers w) s v) (w_displays w).
(* include/display.h:29-36 *)
Definition put_display (d : nat) (x : display) (w : world) : world := mk_world (w_servers w) (set_nth (w_displays w) d x).

(* src/display.c:92-96, nvnc_display_ref *)
Definition display_ref (d : nat) (w : world) : res world :=
  let* x := get_display d w in
  Ok (put_display d (mk_display (d_ref x + 1) false (d_server x) (d_buffer x) (d_app x)) w).

(* src/display.c:98-103, nvnc_display_unref, and 81-90, nvnc__display_free *)
Definition display_unref (d : nat) (w : world) : res world :=
  let* x := get_display d w in
  Ok (put_display d (if d_ref x - 1 =? 0
                     then mk_display 0 true (d_server x) None (d_app x)
                     else mk_display (d_ref x - 1) false (d_server x) (d_buffer x) (d_app x)) w).

(* the display's buffer as a client finds it, with the display: src/server.c:870, 880 *)
Definition shown (v : server) (w : world) : res (option (nat * nat)) :=
  match s_display v with
  | None => Ok None
  | Some d => let* x := get_display d w in
              Ok (match d_buffer x with Some n => Some (d, n) | None => None end)
  end.

(* src/server.c:863-959, process_fb_update_requests *)
Definition process (b : res (option (nat * nat))) (c : client) : res client :=
  if negb (c_open c) then Ok c
  else
    let* b := b in
    match b with
    | None => Ok c
    | Some x =>
        if c_busy c || negb (c_waiting c) || negb (c_damage c) then Ok c
        else Ok (mk_client true false true false (c_seen c ++ [x]))
    end.

(* src/server.c:2634-2635 *)
Fixpoint process_all (b : res (option (nat * nat))) (l : list client) : res (list client) :=
  match l with
  | [] => Ok []
  | c :: l => let* c := process b c in let* l := process_all b l in Ok (c :: l)
  end.

(* src/server.c:2629-2632 *)
Definition mark (c : client) : client :=
  if c_open c then mk_client true (c_waiting c) (c_busy c) true (c_seen c) else c.

(* src/server.c:2625-2636, nvnc__damage_region *)
Definition damage_region (s : nat) (w : world) : res world :=
  let* v := get_server s w in
  let* l := process_all (shown v w) (map mark (s_clients v)) in
  Ok (put_server s (mk_server false (s_display v) l) w).

(* src/display.c:112-146, nvnc_display_feed_buffer, and 31-51; the server is looked at for
   n_damage_clients first (line 123) *)
Definition feed (d n : nat) (w : world) : res world :=
  let* x := get_display d w in
  match d_server x with
  | None => Fault AssertFail
  | Some s =>
      let* _ := get_server s w in
      damage_region s (put_display d (mk_display (d_ref x) false (d_server x) (Some n) (d_app x)) w)
  end.

(* src/server.c:2702-2711, nvnc_add_display; NVNC_LOG_PANIC aborts (src/logging.c:110-111) *)
Definition add_display (s d : nat) (w : world) : res world :=
  let* v := get_server s w in
  match s_display v with
  | Some _ => Fault AssertFail
  | None =>
      let* x := get_display d w in
      let w := put_display d (mk_display (d_ref x) false (Some s) (d_buffer x) (d_app x)) w in
      display_ref d (put_server s (mk_server false (Some d) (s_clients v)) w)
  end.

(* src/server.c:2714-2722, nvnc_remove_display *)
Definition remove_display (s d : nat) (w : world) : res world :=
  let* v := get_server s w in
  match s_display v with
  | None => Ok w
  | Some d' =>
      if negb (Nat.eqb d' d) then Ok w
      else let* w := display_unref d w in Ok (put_server s (mk_server false None (s_clients v)) w)
  end.

(* src/server.c:1997-2084, on_connection *)
Definition connect (s : nat) (w : world) : res world :=
  let* v := get_server s w in
  match s_display v with
  | None => Fault NullDeref
  | Some d =>
      let* x := get_display d w in
      match d_buffer x with
      | None => Ok w
      | Some _ => Ok (put_server s (mk_server false (s_display v) (mk_client true false false false [] :: s_clients v)) w)
      end
  end.

(* the same several times *)
(* src/server.c:1997-2084 *)
Fixpoint connects (n : nat) (s : nat) (w : world) : res world :=
  match n with O => Ok w | S n => let* w := connect s w in connects n s w end.

(* src/server.c:2358-2411, nvnc_del; self->display is not cleared.  If a client is waiting
   for its encoder the event loop is run (141-162, 170-171), in which [n] connections are
   taken. *)
Definition del (s n : nat) (w : world) : res world :=
  let* v := get_server s w in
  let* w := match s_display v with Some d => display_unref d w | None => Ok w end in
  let w := put_server s (mk_server false (s_display v)
             (map (fun c => mk_client false (c_waiting c) (c_busy c) (c_damage c) (c_seen c)) (s_clients v))) w in
  let* w := if existsb c_busy (s_clients v) then connects n s w else Ok w in
  Ok (put_server s (mk_server true (s_display v) []) w).

(* a client of a server does something *)
(* src/server.c:961-1009, 2438-2451 *)
Definition on_client (s i : nat) (f : client -> client) (w : world) : res world :=
  let* v := get_server s w in
  match nth_error (s_clients v) i with
  | None => Ok w
  | Some c =>
      let* c := process (shown v w) (f c) in
      Ok (put_server s (mk_server false (s_display v) (set_nth (s_clients v) i c)) w)
  end.

(** What happens: the application, then the clients. *)
(* include/neatvnc.h:145-179, 262-270; src/server.c:961-1009, 1997-2084, 2438-2451; the
   connection ends: src/server.c:1944-1948 *)
Inductive op :=
| NewServer | NewDisplay | Ref (d : nat) | Unref (d : nat) | Add (s d : nat) | Remove (s d : nat)
| Feed (d n : nat) | Del (s n : nat)
| Connect (s : nat) | Request (s i : nat) (full : bool) | Encoded (s i : nat) | HungUp (s i : nat).

(* the application's own references *)
(* include/neatvnc.h:262-264 *)
Definition count_app (d : nat) (f : nat -> nat) (w : world) : world :=
  match nth_error (w_displays w) d with
  | None => w
  | Some x => put_display d (mk_display (d_ref x) (d_freed x) (d_server x) (d_buffer x) (f (d_app x))) w
  end.

(* src/display.c:53-146, src/server.c:2215-2230, 2358-2411, 2702-2722, 961-1009, 1997-2084 *)
Definition step (a : op) (w : world) : res world :=
  match a with
  | NewServer => Ok (mk_world (w_servers w ++ [mk_server false None []]) (w_displays w))
  | NewDisplay => Ok (mk_world (w_servers w) (w_displays w ++ [mk_display 1 false None None 1]))
  | Ref d => let* w := display_ref d w in Ok (count_app d S w)
  | Unref d => let* w := display_unref d w in Ok (count_app d pred w)
  | Add s d => add_display s d w
  | Remove s d => remove_display s d w
  | Feed d n => feed d n w
  | Del s n => del s n w
  | Connect s => connect s w
  | Request s i full =>
      on_client s i (fun c => mk_client (c_open c) true (c_busy c) (c_damage c || full) (c_seen c)) w
  | Encoded s i =>
      on_client s i (fun c => mk_client (c_open c) (c_waiting c) false (c_damage c) (c_seen c)) w
  | HungUp s i =>
      on_client s i (fun c => mk_client false (c_waiting c) (c_busy c) (c_damage c) (c_seen c)) w
  end.

(* any sequence *)
(* src/display.c:53-146, src/server.c:2215-2230, 2358-2411, 2702-2722 *)
Fixpoint run (l : list op) (w : world) : res world :=
  match l with
  | [] => Ok w
  | a :: l => let* w := step a w in run l w
  end.

(* nothing has been made yet *)
(* src/display.c:53-79, src/server.c:2215-2230 *)
Definition world0 : world := mk_world [] [].

(* src/display.c:105-109, nvnc_display_get_server *)
Definition display_get_server (d : nat) (w : world) : res (option nat) :=
  let* x := get_display d w in Ok (d_server x).
