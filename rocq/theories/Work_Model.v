(** Encoders at work: src/enc/interface.c, the parts of src/enc/raw.c, zrle.c and
    tight.c that run in the main thread, and what src/server.c does around them.

    One client and one encoder.  The works run in threads of their own; here a work
    is running from aml_start until its completion function is called, in any order.
    A frame is the number of the call that took it.  What the threads compute is in
    Raw_Model, Zrle_Model and Tight_Model; encoded frames are freed in the function
    that makes or hands them out and are left out; buffers can be mapped, the damage
    is not empty, and memory for anything but works is there. *)
From Verif Require Import Common.

(* src/enc/interface.c:36-51, encoder_new *)
Inductive kind := Raw | Zrle | Tight.

(* src/enc/raw.c:32-46; zrle.c:390; tight.c:441, 511 *)
Inductive work := RawWork (f : nat) | ZrleWork | TightJob (i : nat) | TightFinish.

(* include/neatvnc.h, NVNC_NO_PTS: UINT64_MAX; used at src/enc/tight.c:201, 529 *)
Definition NO_PTS : Z := 2 ^ 64 - 1.

(* include/enc/encoder.h:60-70; src/enc/zrle.c:40-52: [cur] is current_fb;
   src/enc/tight.c:60-86: [cur] is fb, [time] is pts, [jobs] is n_jobs, and [dst] says
   whether dst has been initialised and not destroyed or given away since *)
Record encoder := mk_encoder {
  refs : Z; alive : bool; attached : bool; (* on_done is set *)
  cur : option nat; time : Z; jobs : Z; dst : bool }.

(* the client (include/common.h:88-149), with the writes of frames whose callback is to
   come, and the world: works running, frames whose buffer is held, and the history:
   times of the frames taken, and frames handed to the client with their times *)
Record world := mk_world {
  en : encoder; works : list work; held : list nat; taken : list Z; shown : list (nat * Z);
  updating : bool; writes : nat; client : bool }.

(* include/enc/encoder.h:60-70 *)
Definition set_en e w := mk_world e (works w) (held w) (taken w) (shown w) (updating w) (writes w) (client w).
(* src/enc/raw.c:247, zrle.c:464, tight.c:456 *)
Definition set_works l w := mk_world (en w) l (held w) (taken w) (shown w) (updating w) (writes w) (client w).
(* include/fb.h:29-50 *)
Definition set_held l w := mk_world (en w) (works w) l (taken w) (shown w) (updating w) (writes w) (client w).
(* include/common.h:88-149 *)
Definition set_updating b w := mk_world (en w) (works w) (held w) (taken w) (shown w) b (writes w) (client w).
(* include/common.h:88-149 *)
Definition set_writes n w := mk_world (en w) (works w) (held w) (taken w) (shown w) (updating w) n (client w).
(* include/enc/encoder.h:60-70 *)
Definition set_attached b w :=
  let e := en w in set_en (mk_encoder (refs e) (alive e) b (cur e) (time e) (jobs e) (dst e)) w.
(* src/enc/zrle.c:40-52, tight.c:60-86 *)
Definition set_cur c t j d w :=
  let e := en w in set_en (mk_encoder (refs e) (alive e) (attached e) c t j d) w.

(* src/enc/interface.c:78-82, encoder_ref *)
Definition encoder_ref (w : world) : res world :=
  let e := en w in
  if negb (alive e) then Fault UseAfterFree
  else Ok (set_en (mk_encoder (refs e + 1) true (attached e) (cur e) (time e) (jobs e) (dst e)) w).

(* src/enc/interface.c:84-94, encoder_unref, and the destroy functions *)
Definition encoder_unref (w : world) : res world :=
  let e := en w in
  if negb (alive e) then Fault UseAfterFree
  else Ok (set_en (mk_encoder (refs e - 1) (negb (refs e - 1 =? 0)) (attached e) (cur e) (time e) (jobs e) (dst e)) w).

(* nvnc_fb_ref and nvnc_fb_hold; nvnc_fb_release and nvnc_fb_unref: src/fb.c:203-249 *)
Definition hold (f : nat) (w : world) : world := set_held (f :: held w) w.
(* src/fb.c:203-249 *)
Definition release (f : nat) (w : world) : res world :=
  if existsb (Nat.eqb f) (held w) then Ok (set_held (filter (fun g => negb (Nat.eqb f g)) (held w)) w)
  else Fault UseAfterFree.
(* a thread reads the buffer: src/enc/raw.c:104-112, zrle.c:350-365, tight.c:250-270 *)
Definition uses (f : nat) (w : world) : res world :=
  if existsb (Nat.eqb f) (held w) then Ok w else Fault UseAfterFree.

(* the history *)
(* src/server.c:949-951 *)
Definition take (p : Z) (w : world) : world :=
  mk_world (en w) (works w) (held w) (taken w ++ [p]) (shown w) (updating w) (writes w) (client w).

(* src/enc/tight.c:454-476, tight_schedule_encoding_jobs: [ok] jobs can be started;
   whether all four were *)
Fixpoint schedule (i : nat) (ok : nat) (n : nat) (w : world) {struct n} : res (bool * world) :=
  match n with
  | O => Ok (true, w)
  | S n =>
      let* w := encoder_ref w in
      match ok with
      | O => let* w := encoder_unref w in Ok (false, w)
      | S ok =>
          let e := en w in
          schedule (S i) ok n (set_works (works w ++ [TightJob i]) (set_cur (cur e) (time e) (jobs e + 1) (dst e) w))
      end
  end.

(** Calls that fail: none, or that with this number (for Raw and ZRLE 0 is aml_work_new and
    1 aml_start, for Tight the four aml_start). *)
(* src/enc/raw.c:213-253, zrle.c:437-476, tight.c:573-618: encoder_encode; whether it
   succeeds *)
Definition encode (k : kind) (p : Z) (fails : option nat) (w : world) : res (bool * world) :=
  let f := length (taken w) in
  if negb (alive (en w)) then Fault UseAfterFree
  else
    match k with
    | Raw =>
        match fails with
        | Some O => Ok (false, w)
        | _ =>
            let* w := encoder_ref w in
            let w := hold f w in
            match fails with
            | Some 1%nat =>
                let* w := release f w in
                let* w := encoder_unref w in
                Ok (false, w)
            | _ => Ok (true, take p (set_works (works w ++ [RawWork f]) w))
            end
        end
    | Zrle =>
        match cur (en w) with
        | Some _ => Fault AssertFail
        | None =>
            match fails with
            | Some O => Ok (false, w)
            | _ =>
                let w := hold f (set_cur (Some f) (time (en w)) (jobs (en w)) (dst (en w)) w) in
                let* w := encoder_ref w in
                match fails with
                | Some 1%nat =>
                    let* w := encoder_unref w in
                    let* w := release f w in
                    Ok (false, set_cur None (time (en w)) (jobs (en w)) (dst (en w)) w)
                | _ => Ok (true, take p (set_works (works w ++ [ZrleWork]) w))
                end
            end
        end
    | Tight =>
        let w := hold f (set_cur (Some f) p (jobs (en w)) true w) in
        let* r := schedule 0 (match fails with Some n => n | None => 4%nat end) 4 w in
        let (ok, w) := r in
        if ok then Ok (true, take p w)
        else
          let* w := release f w in
          Ok (false, set_cur (cur (en w)) (time (en w)) (jobs (en w)) false w)
    end.

(* src/server.c:863-875, 924-956, process_fb_update_requests: [p] and [fails] are for the
   next frame, if one is due *)
Definition process (k : kind) (next : option (Z * option nat)) (w : world) : res world :=
  match next with
  | None => Ok w
  | Some (p, fails) =>
      if negb (client w) || updating w then Ok w
      else
        let* r := encode k p fails (set_attached true (set_updating true w)) in
        let (ok, w) := r in
        Ok (if ok then w else set_updating false w)
  end.

(* src/server.c:2438-2445, complete_fb_update *)
Definition complete (k : kind) (next : option (Z * option nat)) (w : world) : res world :=
  if negb (updating w) then Ok w else process k next (set_updating false w).

(** What becomes of a frame handed to the client's stream: the callback comes later, or it
    comes at once (written in full, dropped, or the stream is closed), or sendmsg failed
    for a reason that leaves the frame in the queue. *)
(* src/server.c:2488-2550, finish_fb_update; src/stream/tcp.c:103-119 *)
Inductive sending :=
| Later
| Now (next : option (Z * option nat))
| Failed (next : option (Z * option nat)).

(* src/enc/interface.c:118-122, encoder_finish_frame, with src/server.c:2552-2559 *)
Definition finish_frame (k : kind) (f : nat) (p : Z) (o : sending) (w : world) : res world :=
  if negb (attached (en w)) then Ok w
  else
    let w := set_attached false w in
    let w := mk_world (en w) (works w) (held w) (taken w) (shown w ++ [(f, p)]) (updating w) (writes w) (client w) in
    match o with
    | Later => Ok (set_writes (S (writes w)) w)
    | Now next => complete k next w
    | Failed next => complete k next (set_writes (S (writes w)) w)
    end.

(* nvnc_fb_get_pts of a frame: src/enc/raw.c:158, zrle.c:370 *)
Definition time_of (f : nat) (w : world) : Z := nth f (taken w) 0.

(** schedule_tight_finish: all well, no work, or the work does not start. *)
(* src/enc/tight.c:535-551 *)
Inductive finishing := FinOk | FinNoWork | FinNoStart.

(* the completion functions: src/enc/raw.c:166-178 and 202-211; zrle.c:378-401;
   tight.c:438-452 and 517-533.  [w] has lost the work. *)
Definition work_done (k : kind) (x : work) (o : sending) (fin : finishing) (w : world) : res world :=
  if negb (alive (en w)) then Fault UseAfterFree
  else
    match x with
    | RawWork f =>
        let* w := uses f w in
        let* w := finish_frame k f (time_of f w) o w in
        let* w := release f w in
        encoder_unref w
    | ZrleWork =>
        match cur (en w) with
        | None => Fault NullDeref
        | Some f =>
            let* w := uses f w in
            let p := time_of f w in
            let* w := release f w in
            let* w := finish_frame k f p o (set_cur None (time (en w)) (jobs (en w)) (dst (en w)) w) in
            encoder_unref w
        end
    | TightJob _ =>
        match cur (en w) with
        | None => Fault NullDeref
        | Some f =>
            let* w := uses f w in
            let w := set_cur (cur (en w)) (time (en w)) (jobs (en w) - 1) (dst (en w)) w in
            let* w :=
              (if jobs (en w) =? 0 then
                 let* w := release f w in
                 let* w := encoder_ref w in
                 match fin with
                 | FinOk => Ok (set_works (works w ++ [TightFinish]) w)
                 | FinNoWork => encoder_unref w
                 | FinNoStart => Ok w
                 end
               else Ok w) in
            encoder_unref w
        end
    | TightFinish =>
        if negb (dst (en w)) then Fault UseAfterFree
        else
          match cur (en w) with
          | None => Fault NullDeref
          | Some f =>
              let w := set_cur (cur (en w)) (time (en w)) (jobs (en w)) false w in
              let* w := finish_frame k f (time (en w)) o w in
              let w := set_cur (cur (en w)) NO_PTS (jobs (en w)) (dst (en w)) w in
              encoder_unref w
          end
    end.

(* references the client has: src/server.c:797-813; client->encoder, and for ZRLE and Tight
   client->zrle_encoder or tight_encoder *)
Definition owners (k : kind) : nat := match k with Raw => 1 | _ => 2 end.

(* src/server.c:192-200 *)
Fixpoint unref_all (n : nat) (w : world) : res world :=
  match n with O => Ok w | S n => let* w := encoder_unref w in unref_all n w end.

(* src/server.c:164-203, client_close: stream_close calls the callbacks of the writes, and
   finds the stream closed (869) *)
Definition client_close (k : kind) (w : world) : res world :=
  if negb (client w) then Ok w
  else
    let w := set_attached false w in
    unref_all (owners k)
      (mk_world (en w) (works w) (held w) (taken w) (shown w) (updating w && match writes w with O => true | _ => false end) 0 false).

(** What happens. *)
(* src/server.c:863-959 (a request or damage), aml's completion of the i-th work,
   src/server.c:2447-2451, src/server.c:164-203 *)
Inductive event :=
| Due (p : Z) (fails : option nat)
| Ready (i : nat) (o : sending) (fin : finishing)
| Written (next : option (Z * option nat))
| Close.

(* the i-th work leaves the list; a number too large is no event *)
(* src/enc/raw.c:166, zrle.c:378, tight.c:438, 517 *)
Fixpoint pick (i : nat) (l : list work) : option (work * list work) :=
  match l, i with
  | [], _ => None
  | x :: l, O => Some (x, l)
  | x :: l, S i => match pick i l with Some (y, l) => Some (y, x :: l) | None => None end
  end.

(* src/server.c:863-959, 2447-2451, 164-203 *)
Definition step (k : kind) (ev : event) (w : world) : res world :=
  match ev with
  | Due p fails => process k (Some (p, fails)) w
  | Ready i o fin =>
      match pick i (works w) with
      | None => Ok w
      | Some (x, l) => work_done k x o fin (set_works l w)
      end
  | Written next => match writes w with O => Ok w | S n => complete k next (set_writes n w) end
  | Close => client_close k w
  end.

(* src/server.c:771-826, ensure_encoder; src/enc/interface.c:53-57, encoder_init *)
Definition start (k : kind) : world :=
  mk_world (mk_encoder (Z.of_nat (owners k)) true false None NO_PTS 0 false) [] [] [] [] false 0 true.

(* src/server.c:863-959, 2447-2451, 164-203 *)
Fixpoint run (k : kind) (evs : list event) (w : world) : res world :=
  match evs with
  | [] => Ok w
  | ev :: evs => let* w := step k ev w in run k evs w
  end.
