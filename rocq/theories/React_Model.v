(** An application that calls the library from within its callbacks.

    The handlers of messages (Msg_Model.v) call functions of the application: for keys,
    pointers, cut texts, requests and desktop layouts.  Here these may in turn call the
    library; everything else is as in Msg_Model.v. *)
From Verif Require Import Common Msg_Model.

(** What the application may do in a callback about a client. *)
(* src/display.c:120-146 with src/server.c:2625-2636, 2818-2823, 2900-2934, 2755-2759 *)
Inductive reaction : Type :=
| Show (f : fb) (r : region)   (* nvnc_display_feed_buffer *)
| Light (state : Z)            (* nvnc_client_set_led_state *)
| Cursor                       (* nvnc_set_cursor *)
| Leave.                       (* nvnc_client_close *)

Section React.
Variable E : env.
Variable app : list out -> list reaction.
(* as in Msg_Model: on_client_event, called at src/server.c:2435 *)
Variable resume : client -> res client.

(** One call.  nvnc_client_close frees the client at once (src/server.c:164-203); whichever the
    callback, the code it returns to uses the client again: src/server.c:1000-1006 after
    requests, 1629-1634 and 1696 after layouts, 1493-1495 after long cut texts, and 1985 after
    all others. *)
(* src/server.c:2625-2636, 2818-2823, 2900-2934, 2755-2759 *)
Definition call (a : reaction) (c : client) : res client :=
  match a with
  | Show f r =>
      let c := set_disp (Some f) c in
      process_requests E resume (if closed c then c else set_damage (region_union (damage c) r) c)
  | Light s => process_requests E resume (set_led_want s c)
  | Cursor => process_requests E resume (set_srv_seq (srv_seq c + 1) c)
  | Leave => Fault UseAfterFree
  end.

(* the body of a callback: src/server.c:998, 1027, 1052, 1093, 1260, 1378, 1490, 1629 *)
Fixpoint calls (l : list reaction) (c : client) : res client :=
  match l with
  | [] => Ok c
  | a :: l => let* c := call a c in calls l c
  end.

(* src/server.c:998, 1027, 1052, 1093, 1260, 1378, 1490, 1629: the callback is in the log already *)
Definition react (c : client) : res client := calls (app (log c)) c.

(* callbacks that come last in their handlers: src/server.c:1027, 1052, 1093, 1260, 1378 *)
Definition is_callback (o : out) : bool :=
  match o with KeySym _ _ | KeyCode _ _ | Pointer _ _ _ | CutText _ => true | _ => false end.

(* src/server.c:1027, 1052, 1093, 1260, 1378: whether one was called between [c] and [c'] *)
Definition called (c c' : client) : bool :=
  match skipn (length (log c)) (log c') with
  | [] => false
  | l => is_callback (last l Completed)
  end.

(* src/server.c:961-1009 *)
Definition on_fb_update_request (c : client) (m : list Z) : res (client * Z) :=
  if zlen m <? 10 then Ok (c, 0) else
  let inc := u8 m 1 in
  let x := u16 m 2 in let y := u16 m 4 in
  let w := u16 m 6 in let h := u16 m 8 in
  if negb (inc =? 0) && cu_on c then Ok (c, 0) else
  let c := set_pending (pending c + 1) c in
  let c := if inc =? 0 then
             let c := set_damage (union_rect (damage c) x y w h) c in
             match encoder c with Some _ => say KeyFrame c | None => c end
           else c in
  let* c := react (say (FbReq inc x y w h) c) in
  let c := if (inc =? 0) && has_encoding c ENC_EXTDESKTOPSIZE
           then set_known (0, 0) c else c in
  let* c := process_requests E resume c in
  Ok (c, 10).

(* src/server.c:1592-1634 *)
Definition check_layout (w h : Z) (ls : list layout) (c : client) : res (client * Z) :=
  if existsb (outside w h) ls then Ok (c, 3) else
  match e_layout E with
  | None => Ok (c, 1)
  | Some fn =>
      let status := if fn (log c) w h ls then 4 else 1 in
      let* c := react (say (AskLayout w h ls) c) in
      Ok (c, status)
  end.

(* src/server.c:1665-1700 *)
Definition on_set_desktop_size (c : client) (m : list Z) : res (client * Z) :=
  if zlen m <? 8 then Ok (c, 0) else
  let n := u8 m 6 in
  if zlen m <? 8 + n * 16 then Ok (c, 0) else
  let w := u16 m 2 in let h := u16 m 4 in
  let* (c, status) := check_layout w h (layouts_of (Z.to_nat n) (skipn 8 m)) c in
  Ok (say (Update KLayout (update_head 1 ++ ext_size_rect w h 1 status)) c, 8 + n * 16).

(* src/server.c:1865-1902 *)
Definition on_message (c : client) (m : list Z) : res (client * Z) :=
  match m with
  | 3 :: _ => on_fb_update_request c m
  | 251 :: _ => on_set_desktop_size c m
  | _ =>
      let* (c', n) := Msg_Model.on_message E resume c m in
      if called c c' then let* c' := react c' in Ok (c', n) else Ok (c', n)
  end.

(* src/server.c:1976-1986 *)
Fixpoint message_loop (fuel : nat) (c : client) : res client :=
  match fuel with
  | O => Fault Diverges
  | S fuel =>
      if blocked c then Ok c
      else if zlen (buf c) <? idx c then Fault OobRead
      else
        let c := set_block_next false (set_blocked (block_next c) c) in
        let* (c, n) := on_message c (skipn (Z.to_nat (idx c)) (buf c)) in
        if n =? 0 then Ok c
        else message_loop fuel (set_idx (idx c + n) c)
  end.

(* src/server.c:1453-1496: the buffer is given up after the callback *)
Definition big_cut_text (t : cut_text) (d : list Z) (c : client) : res client :=
  if ct_length t <=? zlen (ct_data t) then Fault AssertFail else
  let data := ct_data t ++ d in
  if negb (zlen data =? ct_length t)
  then Ok (set_cut (Some (mk_cut (ct_zlib t) (ct_provide t) (ct_length t) data)) c)
  else
    let* c' :=
      if ct_zlib t then (if ct_provide t then clipboard_provide E data c else Ok c)
      else Ok (say (CutText data) c) in
    let* c' := if called c c' then react c' else Ok c' in
    Ok (set_cut None c').

(* src/server.c:1938-1995 *)
Definition on_client_event (c : client) (d : option (list Z)) : res client :=
  match cut c with
  | Some t =>
      match d with
      | None => Ok c
      | Some [] => Ok c
      | Some d =>
          if Z.min (ct_length t - zlen (ct_data t)) MSG_BUFFER_SIZE <? zlen d then Ok c
          else big_cut_text t d c
      end
  | None =>
      if negb (idx c =? 0) then Fault AssertFail else
      let space := MSG_BUFFER_SIZE - zlen (buf c) in
      if space <=? 0 then Ok (set_closed true c) else
      match d with
      | None => Ok c
      | Some [] => Ok c
      | Some d =>
          if space <? zlen d then Ok c else
          let c := set_buf (buf c ++ d) c in
          let* c := message_loop (Z.to_nat 4098) c in
          if zlen (buf c) <? idx c then Fault AssertFail
          else Ok (set_idx 0 (set_buf (skipn (Z.to_nat (idx c)) (buf c)) c))
      end
  end.
End React.

(* src/server.c:1938-1995 with 2435 *)
Fixpoint receive (E : env) (app : list out -> list reaction) (fuel : nat) (c : client) (d : option (list Z)) : res client :=
  match fuel with
  | O => Fault Diverges
  | S fuel => on_client_event E app (fun c => receive E app fuel c (e_more E (log c))) c d
  end.

(* src/server.c:1938-1995, 2552-2559, 2447-2451, 2625-2636, 2818-2823, 2900-2934, 1944-1948 *)
Definition step (E : env) (app : list out -> list reaction) (fuel : nat) (c : client) (i : input) : res client :=
  let resume := fun c => receive E app fuel c (e_more E (log c)) in
  match i with
  | IRead d => if closed c then Ok c else receive E app (S fuel) c d
  | IDamage f r => call E resume (Show f r) c
  | IEncoded f => finish_update E resume f c
  | IWritten => complete_update E resume c
  | ILed s => call E resume (Light s) c
  | ICursor => call E resume Cursor c
  | IClosed => Ok (set_closed true c)
  end.
