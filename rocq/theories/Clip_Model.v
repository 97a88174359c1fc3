(** The application puts a text on the clipboard: nvnc_send_cut_text,
    src/server.c:1498-1590, for all connections of a server.

    Simplifications: allocation succeeds; zlib's compress into a buffer of
    compressBound bytes is a parameter, None for a result other than Z_OK.  A
    connection is its state and the fields of Msg_Model.client, all of which exist
    (zeroed by calloc, src/server.c:2003) from the moment it is accepted. *)
From Verif Require Import Common Msg_Model.

Section Clip.
Variable compress : list Z -> option (list Z).

(* an entry of server->clients, include/common.h:88-149; [p_ready] tells if its state
   is VNC_CLIENT_STATE_READY, include/common.h:62 *)
Record peer := mk_peer { p_ready : bool; p_client : client }.

(* src/server.c:1498-1542, ext_clipboard_save_provide_msg: the new
   ext_clipboard_provide_msg; 4 + len + 1 is computed in 32 bits at line 1510 *)
Definition save_provide_msg (text : list Z) : res (option (list Z)) :=
  let len := zlen text in
  if len =? 0 then Ok None
  else
    let size := (4 + len + 1) mod 2 ^ 32 in
    if size <? 4 + len then Fault OobWrite
    else Ok (compress (be 4 len ++ text ++ [0])).

(* src/server.c:1544-1554, send_cut_text_to_client *)
Definition send_cut_text_to_client (text : list Z) (c : client) : client :=
  say (Sent text) (say (Sent ([3; 0; 0; 0] ++ be 4 (zlen text))) c).

(* src/server.c:1574-1589: one round of the loop; stream_write does nothing on a closed
   stream (src/stream/tcp.c:219-222) *)
Definition offer (text : list Z) (c : client) : res client :=
  if closed c then Ok c
  else if has_encoding c ENC_EXT_CLIPBOARD then
    match provide c with
    | None => Ok c
    | Some _ =>
        if flag (caps c) CB_PROVIDE && (zlen text <=? max_text c) then send_clipboard_provide c
        else if flag (caps c) CB_NOTIFY then Ok (send_clipboard_notify c)
        else Ok c
    end
  else Ok (send_cut_text_to_client text c).

(* src/server.c:1574-1589, the loop *)
Fixpoint offer_all (text : list Z) (l : list peer) : res (list peer) :=
  match l with
  | [] => Ok []
  | p :: l =>
      let* c := offer text (p_client p) in
      let* l := offer_all text l in
      Ok (mk_peer (p_ready p) c :: l)
  end.

(* src/server.c:1557-1590, nvnc_send_cut_text; ext_clipboard_provide_msg is a field of
   the server, here a field of each client *)
Definition nvnc_send_cut_text (l : list peer) (text : list Z) : res (list peer) :=
  let in_use := existsb (fun p => has_encoding (p_client p) ENC_EXT_CLIPBOARD) l in
  let* msg := if in_use then save_provide_msg text else Ok None in
  offer_all text (map (fun p => mk_peer (p_ready p) (set_provide msg (p_client p))) l).
End Clip.
