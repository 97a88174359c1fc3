(** Any number of clients on one server: the lists of clients of src/server.c around the
    single client of Msg_Model.v.

    What belongs to the server (the display's buffer, the cursor's number, the clipboard) is
    there once; a client's code gets it from there and what it leaves there is what the next
    one gets.  Simplifications: a client is added when its handshake is over (on the
    handshake see Serve), with whatever damage it has by then; nvnc_send_cut_text is not one
    of the events (see Clip). *)
From Verif Require Import Common Msg_Model Msg_Spec.

(** What the clients share. *)
(* include/common.h:171-211: display, cursor_seq, ext_clipboard_provide_msg *)
Record common := mk_common { sh_disp : option fb; sh_seq : Z; sh_provide : option (list Z) }.

(* client->server, include/common.h:88-149 *)
Definition see (sh : common) (c : client) : client :=
  set_disp (sh_disp sh) (set_srv_seq (sh_seq sh) (set_provide (sh_provide sh) c)).
(* what the code of a client has left there: include/common.h:171-211 *)
Definition leaves (c : client) : common := mk_common (disp c) (srv_seq c) (provide c).

(** One client: its address, its state and the bytes it has sent that were not read yet. *)
(* include/common.h:88-149 *)
Record guest := mk_guest { g_id : nat; g_client : client; g_bytes : list Z }.
(* include/common.h:171-211 *)
Record server := mk_server { s_common : common; s_clients : list guest }.

(** What concerns one client. *)
(* src/server.c:1938-1995, 2552-2559, 2447-2451, 2818-2823, 1944-1948 *)
Inductive own : Type := Bytes (k : nat) | Encoded (f : frame) | Written | Lights (s : Z) | Ended.

(* src/server.c:480-502, 1938-1995, 164-203, 2625-2636, 2900-2934 *)
Inductive event : Type :=
| Joins (i : nat) (c : client) (s : list Z) (shared : bool) (* ClientInit, 480-502 *)
| Leaves (i : nat)                                         (* client_close, 164-203 *)
| At (i : nat) (x : own)
| Feed (f : fb) (r : region)   (* nvnc_display_feed_buffer, src/display.c:31-51 *)
| Point.                       (* nvnc_set_cursor, 2900-2934 *)

Section Many.
Variable E : nat -> env.
Variable fuel : nat.

(* src/server.c:1938-1995, 2552-2559, 2447-2451, 2818-2823, 1944-1948 *)
Definition tend (i : nat) (x : own) (c : client) (s : list Z) : res (client * list Z) :=
  match x with
  | Bytes k =>
      let n := Nat.min k (Z.to_nat (room c)) in
      let* c := step (E i) fuel c (IRead (Some (firstn n s))) in
      Ok (c, skipn n s)
  | Encoded f => let* c := step (E i) fuel c (IEncoded f) in Ok (c, s)
  | Written => let* c := step (E i) fuel c IWritten in Ok (c, s)
  | Lights v => let* c := step (E i) fuel c (ILed v) in Ok (c, s)
  | Ended => let* c := step (E i) fuel c IClosed in Ok (c, s)
  end.

(* the client at the address; nobody else is looked at.  As above: src/server.c:1938-1995 *)
Fixpoint at_one (i : nat) (x : own) (sh : common) (l : list guest) : res (common * list guest) :=
  match l with
  | [] => Ok (sh, [])
  | q :: l =>
      if Nat.eqb (g_id q) i then
        let* (c, s) := tend i x (see sh (g_client q)) (g_bytes q) in
        Ok (leaves c, mk_guest i c s :: l)
      else
        let* (sh, l) := at_one i x sh l in
        Ok (sh, q :: l)
  end.

(* LIST_FOREACH with process_fb_update_requests, src/server.c:2634-2635, 2932-2933 *)
Fixpoint process_all (sh : common) (l : list guest) : res (common * list guest) :=
  match l with
  | [] => Ok (sh, [])
  | q :: l =>
      let i := g_id q in
      let resume := fun c => receive (E i) fuel c (e_more (E i) (log c)) in
      let* c := process_requests (E i) resume (see sh (g_client q)) in
      let* (sh, l) := process_all (leaves c) l in
      Ok (sh, mk_guest i c (g_bytes q) :: l)
  end.

(* src/server.c:2629-2632 *)
Definition mark (r : region) (q : guest) : guest :=
  let c := g_client q in
  mk_guest (g_id q) (if closed c then c else set_damage (region_union (damage c) r) c) (g_bytes q).

(* client_close takes the client off the list, src/server.c:187 *)
Definition without (i : nat) (l : list guest) : list guest := filter (fun q => negb (Nat.eqb (g_id q) i)) l.

(* src/server.c:480-502 with 406-418, 164-203, 1938-1995, 2625-2636 with src/display.c:31-51,
   2927-2933; the addresses of clients that are there differ *)
Definition turn (v : server) (e : event) : res server :=
  let sh := s_common v in
  let l := s_clients v in
  match e with
  | Joins i c s shared => Ok (mk_server sh (mk_guest i c s :: (if shared then without i l else [])))
  | Leaves i => Ok (mk_server sh (without i l))
  | At i x => let* (sh, l) := at_one i x sh l in Ok (mk_server sh l)
  | Feed f r =>
      let* (sh, l) := process_all (mk_common (Some f) (sh_seq sh) (sh_provide sh)) (map (mark r) l) in
      Ok (mk_server sh l)
  | Point =>
      let* (sh, l) := process_all (mk_common (sh_disp sh) (sh_seq sh + 1) (sh_provide sh)) l in
      Ok (mk_server sh l)
  end.

(* the main loop: the events of [turn], src/server.c:480-502 and so on, one after the other *)
Fixpoint turns (v : server) (es : list event) : res server :=
  match es with
  | [] => Ok v
  | e :: es => let* v := turn v e in turns v es
  end.
End Many.
