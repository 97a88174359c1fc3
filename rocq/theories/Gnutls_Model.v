(** The TLS stream: src/stream/gnutls.c, with the one reader it has
    (src/server.c:1938-1995).

    GnuTLS is the environment: what gnutls_record_send, gnutls_record_recv and
    gnutls_handshake return is given with each operation or stands in the list of
    what the network holds.  Bytes on the network are those of the decrypted
    records.  Not modelled: allocation failure; the assertion on
    gnutls_record_get_direction after a failed read (gnutls.c:217), which speaks
    of the inside of GnuTLS; what the messages of the client mean.  Callbacks
    given to stream_send are lists of actions on the stream. *)
From Verif Require Import Common.

(** What a completion callback does to the stream. *)
(* calls from req->on_done, src/stream/common.c:22-25 *)
Inductive act : Type :=
| ASend (p : list Z) (cb : list act)
| AClose.

(* include/stream/stream.h:42-45, enum stream_req_status *)
Inductive status := DONE | FAILED.

(* include/stream/stream.h:59-65, struct stream_req; [rid] is a ghost serial number *)
Record req := mk_req { rid : nat; rpay : list Z; rcb : list act }.

(** What gnutls_record_send returns: a count, a passing error, a fatal error. *)
(* src/stream/gnutls.c:89-99 *)
Inductive outcome := Sent (n : nat) | Again | Fatal.

(** The sending half.  [script] is what the next calls of gnutls_record_send
    return; [rd], [wr] the event mask; [watched] whether the event handler is
    started.  Ghost fields: [wire] the bytes taken by the TLS session, [accepted]
    the payloads accepted, [finished] the calls of stream_req__finish. *)
(* include/stream/stream.h:79-98, struct stream *)
Record out := mk_out {
  closed : bool;
  queue : list req;
  script : list outcome;
  rd : bool;
  wr : bool;
  watched : bool;
  wire : list Z;
  accepted : list (list Z);
  finished : list (nat * status) }.

(* include/stream/common.h:23-36, stream__poll_r, stream__poll_w and stream__poll_rw *)
Definition poll (r w : bool) (s : out) : out :=
  mk_out (closed s) (queue s) (script s) r w (watched s) (wire s) (accepted s) (finished s).

(* aml_stop in src/stream/gnutls.c:234 *)
Definition unwatch (s : out) : out :=
  mk_out (closed s) (queue s) (script s) (rd s) (wr s) false (wire s) (accepted s) (finished s).

(* one call of gnutls_record_send taken from the script, src/stream/gnutls.c:89 *)
Definition set_script sc (s : out) : out :=
  mk_out (closed s) (queue s) sc (rd s) (wr s) (watched s) (wire s) (accepted s) (finished s).

(* src/stream/gnutls.c:48-72, stream_gnutls_close.  The state is set first, so
   that the callbacks called with STREAM_REQ_FAILED cannot affect the stream. *)
Definition close (s : out) : out :=
  if closed s then s
  else mk_out true [] (script s) (rd s) (wr s) false (wire s) (accepted s)
         (finished s ++ map (fun r => (rid r, FAILED)) (queue s)).

(* src/stream/gnutls.c:177-185 *)
Definition enqueue (p : list Z) (cb : list act) (s : out) : out :=
  mk_out (closed s) (queue s ++ [mk_req (length (accepted s)) p cb]) (script s) (rd s) (wr s)
    (watched s) (wire s) (accepted s ++ [p]) (finished s).

(* src/stream/gnutls.c:103-109: a request sent in part stays first, shortened *)
Definition shorten (n : nat) (r : req) (rest : list req) (s : out) : out :=
  mk_out (closed s) (mk_req (rid r) (skipn n (rpay r)) (rcb r) :: rest) (script s) true true
    (watched s) (wire s ++ firstn n (rpay r)) (accepted s) (finished s).

(* src/stream/gnutls.c:115-116: a request sent whole leaves the queue *)
Definition complete (r : req) (rest : list req) (s : out) : out :=
  mk_out (closed s) rest (script s) (rd s) (wr s)
    (watched s) (wire s ++ rpay r) (accepted s) (finished s ++ [(rid r, DONE)]).

(* src/stream/gnutls.c:81-124, stream_gnutls__flush, with the callback called by
   stream_req__finish (common.c:22-25), which may send - and so flush - itself
   (gnutls.c:171-188).  When the script is used up GnuTLS says GNUTLS_E_AGAIN; a
   count larger than what was offered counts as all of it. *)
Fixpoint flush (fuel : nat) (s : out) : res out :=
  match fuel with
  | O => Fault Diverges
  | S fuel =>
      match queue s with
      | [] => Ok (if closed s then s else poll true false s)
      | r :: rest =>
          if closed s then Fault AssertFail
          else match script s with
               | [] | Again :: _ => Ok (poll true true (set_script (tl (script s)) s))
               | Fatal :: sc => Ok (close (set_script sc s))
               | Sent n :: sc =>
                   let s := set_script sc s in
                   if (n <? length (rpay r))%nat then Ok (shorten n r rest s)
                   else
                     let* s := (fix go (l : list act) (s : out) : res out :=
                                  match l with
                                  | [] => Ok s
                                  | AClose :: l => go l (close s)
                                  | ASend p cb :: l =>
                                      let* s := if closed s then Ok s else flush fuel (enqueue p cb s) in
                                      go l s
                                  end) (rcb r) (complete r rest s) in
                     flush fuel s
               end
      end
  end.

(* src/stream/gnutls.c:81-124; fuel for as many rounds as the script allows *)
Definition flush_now (s : out) : res out := flush (S (length (script s))) s.

(* src/stream/gnutls.c:171-188, stream_gnutls_send *)
Definition send (p : list Z) (cb : list act) (s : out) : res out :=
  if closed s then Ok s else flush_now (enqueue p cb s).

(** What the network holds, as gnutls_record_recv will find it: a record of
    application data, the end of the session, a signal during the call, a warning
    alert or another condition that GnuTLS does not call fatal, a fatal error. *)
(* src/stream/gnutls.c:190-213 *)
Inductive net := Rec (b : list Z) | Eof | Signal | Notice | Broken.

(* include/stream/stream.h:33-40, enum stream_state, other than CLOSED *)
Inductive phase := Handshake | Ready.

(** The stream.  [pending] is what GnuTLS has decrypted and not handed out.
    Ghost fields: [got] the bytes read by the server, [told] the number of
    STREAM_EVENT_REMOTE_CLOSED events, [freed] whether the stream was destroyed. *)
(* src/stream/gnutls.c:37-41, include/stream/stream.h:79-98 *)
Record tls := mk_tls {
  snd_half : out;
  ph : phase;
  input : list net;
  pending : list Z;
  got : list Z;
  told : nat;
  freed : bool }.

(* src/stream/gnutls.c:37-41 *)
Definition set_out o (s : tls) : tls := mk_tls o (ph s) (input s) (pending s) (got s) (told s) (freed s).

(** What stream_read returns, with errno: data, 0, -1 with EAGAIN, -1 with EINTR
    or 0. *)
(* src/stream/gnutls.c:190-219 *)
Inductive result := Data (b : list Z) | End | TryAgain | Error.

(* gnutls_record_recv and src/stream/gnutls.c:194-218.  Decrypted data is handed
   out first; otherwise one record is taken from the network. *)
Definition recv (size : nat) (s : tls) : result * tls :=
  match size with
  | O => (Error, s)                     (* GNUTLS_E_INVALID_REQUEST *)
  | _ =>
      match pending s with
      | _ :: _ =>
          let b := firstn size (pending s) in
          (Data b, mk_tls (snd_half s) (ph s) (input s) (skipn size (pending s)) (got s ++ b) (told s) (freed s))
      | [] =>
          match input s with
          | [] => (TryAgain, s)
          | x :: rest =>
              let s' := mk_tls (snd_half s) (ph s) rest [] (got s) (told s) (freed s) in
              match x with
              | Rec [] => (TryAgain, s')
              | Rec b => (Data (firstn size b),
                          mk_tls (snd_half s) (ph s) rest (skipn size b) (got s ++ firstn size b) (told s) (freed s))
              | Eof => (End, s')
              | Signal | Notice | Broken => (Error, s')
              end
          end
      end
  end.

(* src/stream/common.c:35-41, stream__remote_closed *)
Definition remote_closed (s : tls) : tls :=
  mk_tls (close (snd_half s)) (ph s) (input s) (pending s) (got s) (S (told s)) (freed s).

(* the answers of the server to a message: calls of stream_send *)
(* src/server.c:1975-1986 *)
Fixpoint answer (l : list (list Z)) (o : out) : res out :=
  match l with
  | [] => Ok o
  | p :: l => let* o := send p [] o in answer l o
  end.

(* src/server.c:1938-1995, on_client_event: one read of at most [size] bytes, the
   answers [l]; on an error other than EAGAIN the client and its stream are freed
   (1965-1969, 164-203) *)
Definition on_read (size : nat) (l : list (list Z)) (s : tls) : res tls :=
  let x := recv size s in
  let s := snd x in
  match fst x with
  | Data _ => let* o := answer l (snd_half s) in Ok (set_out o s)
  | End => Ok (remote_closed s)
  | TryAgain => Ok s
  | Error => Ok (mk_tls (close (snd_half s)) (ph s) (input s) (pending s) (got s) (told s) true)
  end.

(** What gnutls_handshake returns: success, a fatal error, a passing error while
    writing or while reading. *)
(* src/stream/gnutls.c:226-246 *)
Inductive hs := HOk | HFatal | HAgain (writing : bool).

(* src/stream/gnutls.c:221-246, stream__try_tls_accept *)
Definition accept (h : hs) (s : tls) : tls :=
  match h with
  | HOk => mk_tls (poll true false (snd_half s)) Ready (input s) (pending s) (got s) (told s) (freed s)
  | HFatal => set_out (unwatch (snd_half s)) s
  | HAgain w => mk_tls (poll (negb w) w (snd_half s)) Handshake (input s) (pending s) (got s) (told s) (freed s)
  end.

(* src/stream/gnutls.c:126-141, stream_gnutls__on_readable *)
Definition on_readable (h : hs) (size : nat) (l : list (list Z)) (s : tls) : res tls :=
  if closed (snd_half s) then Ok s
  else match ph s with
       | Ready => on_read size l s
       | Handshake => Ok (accept h s)
       end.

(* src/stream/gnutls.c:143-157, stream_gnutls__on_writable *)
Definition on_writable (h : hs) (s : tls) : res tls :=
  if freed s then Fault UseAfterFree
  else if closed (snd_half s) then Ok s
  else match ph s with
       | Ready => let* o := flush_now (snd_half s) in Ok (set_out o s)
       | Handshake => Ok (accept h s)
       end.

(** One turn of the event loop for this stream: the events found, what the
    handshake calls return, the space in the server's message buffer and its
    answers. *)
(* src/stream/gnutls.c:159-169, stream_gnutls__on_event *)
Record turn := mk_turn { can_r : bool; can_w : bool; h_r : hs; h_w : hs; space : nat; says : list (list Z) }.

(* src/stream/gnutls.c:159-169, stream_gnutls__on_event; nothing is reported while
   the handler is stopped, and only what the mask asks for *)
Definition on_event (t : turn) (s : tls) : res tls :=
  if watched (snd_half s) then
    let r := can_r t && rd (snd_half s) in
    let w := can_w t && wr (snd_half s) in
    let* s := if r then on_readable (h_r t) (space t) (says t) s else Ok s in
    if w then on_writable (h_w t) s else Ok s
  else Ok s.

(* src/stream/gnutls.c:48-292 *)
Inductive op :=
| OSend (p : list Z) (cb : list act) (sc : list outcome)  (* stream_send *)
| OArrive (l : list net)                                  (* the network delivers *)
| OTurn (t : turn) (sc : list outcome)                    (* the event loop *)
| OClose.                                                 (* stream_close *)

(* src/stream/gnutls.c:48-292; [sc] is what gnutls_record_send returns during the
   operation.  A stream that was destroyed is not used by the server any more. *)
Definition step (a : op) (s : tls) : res tls :=
  if freed s then Ok s
  else match a with
       | OSend p cb sc => let* o := send p cb (set_script sc (snd_half s)) in Ok (set_out o s)
       | OArrive l => Ok (mk_tls (snd_half s) (ph s) (input s ++ l) (pending s) (got s) (told s) (freed s))
       | OTurn t sc => on_event t (set_out (set_script sc (snd_half s)) s)
       | OClose => Ok (set_out (close (snd_half s)) s)
       end.

(* src/stream/gnutls.c:48-292 *)
Fixpoint run (l : list op) (s : tls) : res tls :=
  match l with
  | [] => Ok s
  | a :: l => let* s := step a s in run l s
  end.

(* requests left over from the unencrypted stream; their callbacks are not modelled *)
(* src/stream/gnutls.c:255-287 *)
Fixpoint left_over (i : nat) (ps : list (list Z)) : list req :=
  match ps with [] => [] | p :: ps => mk_req i p [] :: left_over (S i) ps end.

(* src/stream/gnutls.c:255-292, stream_upgrade_to_tls, when it succeeds.  The send
   queue of the unencrypted stream, with what [ps] it still holds, is kept. *)
Definition upgrade (ps : list (list Z)) (h : hs) : tls :=
  accept h (mk_tls (mk_out false (left_over 0 ps) [] true false true [] ps []) Handshake [] [] [] 0 false).
