(** Send side of the TCP stream: src/stream/tcp.c, src/stream/common.c.

    Not modelled: allocation failure; the event loop (a [poll_w] flag stands for
    the event mask); the 32-bit byte counters; sharing of one payload between
    two requests.  A producer given to stream_exec_and_send is a function of a
    clock supplied with each flush.  Callbacks given to stream_send are lists of
    actions on the stream. *)
From Verif Require Import Common.

(** What a completion callback does to the stream: send (with a callback of its
    own), send deferred, or close. *)
(* calls from req->on_done, src/stream/common.c:22-34 *)
Inductive act : Type :=
| ASend (p : list Z) (cb : option (list act))
| AExec (f : nat -> list Z)
| AClose.

(* include/stream/stream.h:42-45, enum stream_req_status *)
Inductive status := DONE | FAILED.

(* include/stream/stream.h:59-65, struct stream_req; [rid] is a ghost serial number *)
Record req := mk_sreq {
  rid : nat;
  rpay : option (list Z);
  rexec : option (nat -> list Z);
  rcb : option (list act) }.

(** An accepted request, for the ghost history. *)
(* src/stream/tcp.c:217-267 *)
Inductive item := Fixed (p : list Z) | Produced (f : nat -> list Z).

(* include/stream/stream.h:79-98, struct stream.  Ghost fields: [wire] the bytes
   taken by the kernel, [accepted] the requests accepted so far, [done] the calls
   of stream_req__finish. *)
Record tcp := mk_tcp {
  queue : list req;
  closed : bool;
  cork : bool;
  poll_w : bool;
  wire : list Z;
  accepted : list item;
  finished : list (nat * status) }.

(* src/stream/tcp.c:278-304, stream_tcp_init *)
Definition tcp0 : tcp := mk_tcp [] false false false [] [] [].

(* include/stream/stream.h:79-98 *)
Definition set_queue q s := mk_tcp q (closed s) (cork s) (poll_w s) (wire s) (accepted s) (finished s).
(* include/stream/stream.h:79-98 *)
Definition set_cork c s := mk_tcp (queue s) (closed s) c (poll_w s) (wire s) (accepted s) (finished s).
(* include/stream/stream.h:79-98 *)
Definition set_poll w s := mk_tcp (queue s) (closed s) (cork s) w (wire s) (accepted s) (finished s).
(* include/stream/stream.h:79-98 *)
Definition log_finish r x s :=
  mk_tcp (queue s) (closed s) (cork s) (poll_w s) (wire s) (accepted s) (finished s ++ [(rid r, x)]).

(* the queue part of stream_tcp_send (tcp.c:220-231) and
   stream_tcp_exec_and_send (tcp.c:254-264): refused on a closed stream *)
Definition enqueue (i : item) (cb : option (list act)) (s : tcp) : tcp :=
  let n := length (accepted s) in
  let r := match i with
           | Fixed p => mk_sreq n (Some p) None cb
           | Produced f => mk_sreq n None (Some f) None
           end in
  mk_tcp (queue s ++ [r]) (closed s) (cork s) (poll_w s) (wire s) (accepted s ++ [i]) (finished s).

(* src/stream/tcp.c:48-52: finish every queued request as failed.  While the
   stream is closed the callbacks cannot affect it (every operation they call
   returns immediately).  rcbuf_unref(NULL) (common.c:31, rcbuf.c:64)
   dereferences a null pointer. *)
Fixpoint fail_all (q : list req) (s : tcp) : res tcp :=
  match q with
  | [] => Ok (set_queue [] s)
  | r :: q => match rpay r with
              | None => Fault NullDeref
              | Some _ => fail_all q (log_finish r FAILED s)
              end
  end.

(* src/stream/tcp.c:40-59, stream_tcp_close *)
Definition close (s : tcp) : res tcp :=
  if closed s then Ok s
  else fail_all (queue s)
    (mk_tcp (queue s) true true (poll_w s) (wire s) (accepted s) (finished s)).

(* a completion callback run from the flush loop, i.e. while the stream is
   corked or closed, so that no operation it performs flushes *)
(* src/stream/common.c:22-34 *)
Fixpoint run_cb (l : list act) (s : tcp) : res tcp :=
  match l with
  | [] => Ok s
  | a :: l =>
      let* s := match a with
                | AClose => close s
                | ASend p cb => Ok (if closed s then s else enqueue (Fixed p) cb s)
                | AExec f => Ok (if closed s then s else enqueue (Produced f) None s)
                end in
      run_cb l s
  end.

(* src/stream/common.c:22-33, stream_req__finish with STREAM_REQ_DONE *)
Definition finish_done (r : req) (s : tcp) : res tcp :=
  let s := log_finish r DONE s in
  match rcb r with None => Ok s | Some l => run_cb l s end.

(* src/stream/tcp.c:123-145: walk over the queue after [left] bytes were taken.
   The next element is saved before the callback runs (TAILQ_FOREACH_SAFE); if
   the callback closed the stream it has been freed. *)
Fixpoint walk (fuel : nat) (left : Z) (s : tcp) : res (Z * tcp) :=
  match fuel, queue s with
  | _, [] => Ok (left, s)
  | O, _ => Fault Diverges
  | S fuel, r :: rest =>
      match rpay r with
      | None => Fault NullDeref
      | Some p =>
          let left := left - zlen p in
          if 0 <=? left then
            let* s := finish_done r (set_queue rest s) in
            if left <=? 0 then Ok (left, s)
            else match rest with
                 | [] => Ok (left, s)
                 | _ => if closed s then Fault UseAfterFree else walk fuel left s
                 end
          else
            let r' := mk_sreq (rid r) (Some (skipn (Z.to_nat (zlen p + left)) p)) None (rcb r) in
            Ok (left, set_poll true (set_queue (r' :: rest) s))
      end
  end.

(* src/stream/tcp.c:74 *)
Definition IOV_MAX : nat := 1024.

(* src/stream/tcp.c:79-93: produce deferred payloads and collect the vector *)
Fixpoint prepare (n t : nat) (q : list req) : list req :=
  match n, q with
  | S n, r :: q =>
      match rexec r with
      | Some f => mk_sreq (rid r) (Some (f t)) (rexec r) (rcb r)
      | None => r
      end :: prepare n t q
  | _, _ => q
  end.

(* the iovec given to sendmsg, src/stream/tcp.c:79-103 *)
Fixpoint gather (q : list req) : res (list Z) :=
  match q with
  | [] => Ok []
  | r :: q => match rpay r with
              | None => Fault NullDeref
              | Some p => let* rest := gather q in Ok (p ++ rest)
              end
  end.

(** Outcome of sendmsg(2): bytes taken, EAGAIN, EPIPE, another error. *)
(* src/stream/tcp.c:103-119 *)
Inductive outcome := Sent (n : nat) | Again | Pipe | Err.

(* src/stream/tcp.c:69-155, stream_tcp__flush.  [t] the clock, [o] the outcome
   of sendmsg (a count larger than what was offered counts as all of it).  The
   REMOTE_CLOSED event (common.c:39-40) is not modelled. *)
Definition flush (t : nat) (o : outcome) (s : tcp) : res (Z * tcp) :=
  if cork s then Ok (0, s)
  else
    let s := set_queue (prepare IOV_MAX t (queue s)) s in
    let* bytes := gather (firstn IOV_MAX (queue s)) in
    match queue s with
    | [] => Ok (0, s)
    | _ =>
        match o with
        | Again => Ok (0, set_poll true s)
        | Pipe => let* s := close s in Ok (-1, s)
        | Err => Ok (-1, s)
        | Sent n =>
            let sent := firstn n bytes in
            let s := mk_tcp (queue s) (closed s) true (poll_w s) (wire s ++ sent) (accepted s) (finished s) in
            let* x := walk (length (queue s)) (zlen sent) s in
            let rem := fst x in
            let s := set_cork false (snd x) in
            let s := if (rem =? 0) && negb (closed s) then set_poll false s else s in
            if 0 <? rem then Fault AssertFail else Ok (zlen sent, s)
        end
    end.

(* src/stream/tcp.c:217-234, stream_tcp_send *)
Definition send (p : list Z) (cb : option (list act)) (t : nat) (o : outcome) (s : tcp) : res (Z * tcp) :=
  if closed s then Ok (-1, s) else flush t o (enqueue (Fixed p) cb s).

(* src/stream/tcp.c:251-267, stream_tcp_exec_and_send *)
Definition exec_and_send (f : nat -> list Z) (t : nat) (o : outcome) (s : tcp) : res (Z * tcp) :=
  if closed s then Ok (0, s) else flush t o (enqueue (Produced f) None s).

(* src/stream/tcp.c:171-182, stream_tcp__on_writable *)
Definition on_writable (t : nat) (o : outcome) (s : tcp) : res (Z * tcp) :=
  if closed s then Ok (0, s) else flush t o s.

(* src/stream/tcp.c:236-249, stream_tcp_send_first *)
Definition send_first (p : list Z) (t : nat) (o : outcome) (s : tcp) : res (Z * tcp) :=
  if closed s then Ok (-1, s)
  else flush t o (mk_tcp (mk_sreq (length (accepted s)) (Some p) None None :: queue s)
                    (closed s) (cork s) (poll_w s) (wire s) (accepted s ++ [Fixed p]) (finished s)).

(** ** Runs *)
(* src/stream/tcp.c:40-267 *)
Inductive op :=
| OSend (p : list Z) (cb : option (list act)) (t : nat) (o : outcome)
| OExec (f : nat -> list Z) (t : nat) (o : outcome)
| OWritable (t : nat) (o : outcome)
| OClose.

(* src/stream/tcp.c:40-267 *)
Definition step (a : op) (s : tcp) : res tcp :=
  match a with
  | OSend p cb t o => let* x := send p cb t o s in Ok (snd x)
  | OExec f t o => let* x := exec_and_send f t o s in Ok (snd x)
  | OWritable t o => let* x := on_writable t o s in Ok (snd x)
  | OClose => close s
  end.

(* src/stream/tcp.c:40-267 *)
Fixpoint run (l : list op) (s : tcp) : res tcp :=
  match l with
  | [] => Ok s
  | a :: l => let* s := step a s in run l s
  end.
