(** How much is sent before a client has answered: src/server.c, the pings after
    frames, the answers and the bandwidth limit.

    Time is the number of microseconds of the monotonic clock, in full; doubles are
    exact (see Bwe_Model).  What the limit holds back is in Msg_Model (e_limited). *)
From Verif Require Import Common Bwe_Model.

(* include/common.h:133-136, bwe, last_ping_time, min_rtt, inflight_bytes *)
Record pace := mk_pace { p_bwe : bwe; p_last : Z; p_min_rtt : Z; p_inflight : Z }.

(* gettime_us(CLOCK_MONOTONIC) stored in an int32_t: src/server.c:115-120, 306, 1808 *)
Definition clock32 (now : Z) : Z := to_signed 32 (now mod 2 ^ 32).

(* src/server.c:2010-2011, 2059 *)
Definition pace_new (now : Z) : pace := mk_pace (bwe_create (2 ^ 31 - 1)) (clock32 now) (2 ^ 31 - 1) 0.

(* src/server.c:304-314 *)
Definition update_min_rtt (s : pace) (now : Z) : res pace :=
  let* diff := int32 (clock32 now - p_last s) in
  if diff <? p_min_rtt s
  then Ok (mk_pace (bwe_update_rtt_min (p_bwe s) diff) (clock32 now) diff (p_inflight s))
  else Ok (mk_pace (p_bwe s) (clock32 now) (p_min_rtt s) (p_inflight s)).

(* src/server.c:598-614, for a client that knows fences: the state and the payload's
   two numbers; int32_t += uint32_t *)
Definition send_ping (s : pace) (frame_size now : Z) : pace * (Z * Z) :=
  (mk_pace (p_bwe s) (p_last s) (p_min_rtt s) (to_signed 32 ((p_inflight s + frame_size) mod 2 ^ 32)),
   (now mod 2 ^ 32, frame_size)).

(* src/server.c:1788-1832 without the call at the end; the parts that return early do
   not get to line 1826.  The second result says whether that call is made. *)
Definition fence_answered (s : pace) (now departure frame_size length : Z) : res (pace * bool) :=
  let* r := on_fence_response (p_bwe s) (p_min_rtt s) (clock32 now) departure frame_size length in
  let (b, m) := r in
  if frame_size =? 0 then Ok (mk_pace b (p_last s) m (p_inflight s), false)
  else if clock32 now - to_signed 32 departure <? 0 then Ok (mk_pace b (p_last s) m (p_inflight s), false)
  else Ok (mk_pace b (p_last s) m (to_signed 32 ((p_inflight s - frame_size) mod 2 ^ 32)), true).

(* round(33.333e-3 + 1e-6 * min_rtt * bandwidth), src/server.c:911-912 *)
Definition max_inflight (min_rtt bandwidth : Z) : res Z :=
  let n := 33333 + min_rtt * bandwidth in (* millionths *)
  int32 (if n >=? 0 then (2 * n + 1000000) / 2000000 else - ((2 * - n + 1000000) / 2000000)).

(* src/server.c:908-920: whether the frame is dropped *)
Definition limited (s : pace) : res bool :=
  let* bandwidth := bwe_get_estimate (p_bwe s) in
  if bandwidth =? 0 then Ok false
  else
    let* m := max_inflight (p_min_rtt s) bandwidth in
    Ok (m <? p_inflight s).
