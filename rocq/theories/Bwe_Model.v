(** The bandwidth estimator: src/bandwidth.c, and what feeds it in src/server.c.

    Simplifications: a double is an exact fraction, an infinity or NaN, so
    rounding errors of the floating point operations are not modelled; the time
    is what the caller passes in. *)
From Verif Require Import Common.

(* include/bandwidth.h:3-7 *)
Record sample := mk_sample { s_bytes : Z; s_dep : Z; s_arr : Z }.

(* int arithmetic *)
(* used at src/bandwidth.c:48-52, 70-75 *)
Definition int32 (v : Z) : res Z := if (- 2 ^ 31 <=? v) && (v <? 2 ^ 31) then Ok v else Fault SignedOverflow.

(* values of a double: n/d with d > 0 *)
(* the double of src/bandwidth.c:13 *)
Inductive dbl := Fin (n d : Z) | PInf | MInf | NaN.

(* src/bandwidth.c:9-15 *)
Record bwe := mk_bwe { rtt_min : Z; n_samples : Z; index : Z; estimate : dbl; samples : list sample }.

(* src/bandwidth.c:7 *)
Definition SAMPLES_MAX : Z := 16.

(* src/bandwidth.c:17-25: the argument is not used *)
Definition bwe_create (rtt : Z) : bwe := mk_bwe 0 0 0 (Fin 0 1) (repeat (mk_sample 0 0 0) 16).

(* src/bandwidth.c:32-37 *)
Definition get_sample (self : bwe) (i : Z) : res sample :=
  match nth_error (samples self) (Z.to_nat ((index self + i - n_samples self + SAMPLES_MAX) mod SAMPLES_MAX)) with
  | Some s => Ok s
  | None => Fault OobRead
  end.

(* (double)b / (d * 1e-6), src/bandwidth.c:55, 77 *)
Definition per_second (b d : Z) : dbl :=
  if d =? 0 then (if b =? 0 then NaN else if b >? 0 then PInf else MInf)
  else if d >? 0 then Fin (b * 1000000) d else Fin (- b * 1000000) (- d).

(* fmax *)
(* called at src/bandwidth.c:84 *)
Definition fmax (a b : dbl) : dbl :=
  match a, b with
  | NaN, _ => b
  | _, NaN => a
  | PInf, _ | _, PInf => PInf
  | MInf, _ => b
  | _, MInf => a
  | Fin n d, Fin n' d' => if n * d' <? n' * d then b else a
  end.

(* src/bandwidth.c:45-53: the loop, from sample [i] on, [k] left *)
Fixpoint sum_non_congested (self : bwe) (k : nat) (i bytes_total bw_delay_total : Z) : res (Z * Z) :=
  match k with
  | O => Ok (bytes_total, bw_delay_total)
  | S k =>
      let* s := get_sample self i in
      let* rtt := int32 (s_arr s - s_dep s) in
      let* bw_delay := int32 (rtt - rtt_min self) in
      let* bytes_total := int32 (bytes_total + s_bytes s) in
      let* bw_delay_total := int32 (bw_delay_total + bw_delay) in
      sum_non_congested self k (i + 1) bytes_total bw_delay_total
  end.

(* src/bandwidth.c:40-56 *)
Definition estimate_non_congested (self : bwe) : res dbl :=
  let* t := sum_non_congested self (Z.to_nat (n_samples self)) 0 0 0 in
  Ok (per_second (fst t) (snd t)).

(* src/bandwidth.c:69-72: the loop *)
Fixpoint sum_congested (self : bwe) (k : nat) (i bytes_total : Z) : res Z :=
  match k with
  | O => Ok bytes_total
  | S k =>
      let* s := get_sample self i in
      let* bytes_total := int32 (bytes_total + s_bytes s) in
      sum_congested self k (i + 1) bytes_total
  end.

(* src/bandwidth.c:59-78 *)
Definition estimate_congested (self : bwe) : res dbl :=
  if n_samples self =? 0 then Ok (Fin 0 1)
  else
    let* s0 := get_sample self 0 in
    let* s1 := get_sample self (n_samples self - 1) in
    let* bytes_total := sum_congested self (Z.to_nat (n_samples self)) 0 0 in
    let* rtt := int32 (s_arr s1 - s_dep s0) in
    let* bw_delay := int32 (rtt - rtt_min self) in
    Ok (per_second bytes_total bw_delay).

(* src/bandwidth.c:80-85 *)
Definition update_estimate (self : bwe) : res bwe :=
  let* a := estimate_non_congested self in
  let* b := estimate_congested self in
  Ok (mk_bwe (rtt_min self) (n_samples self) (index self) (fmax a b) (samples self)).

(* self->samples[n] = s *)
(* src/bandwidth.c:89 *)
Fixpoint set_sample (l : list sample) (n : nat) (s : sample) : list sample :=
  match l, n with
  | [], _ => []
  | _ :: l, O => s :: l
  | x :: l, S n => x :: set_sample l n s
  end.

(* src/bandwidth.c:87-96 *)
Definition bwe_feed (self : bwe) (s : sample) : res bwe :=
  if (0 <=? index self) && (index self <? SAMPLES_MAX) then
    update_estimate
      (mk_bwe (rtt_min self)
        (if n_samples self <? SAMPLES_MAX then n_samples self + 1 else n_samples self)
        ((index self + 1) mod SAMPLES_MAX) (estimate self)
        (set_sample (samples self) (Z.to_nat (index self)) s))
  else Fault OobWrite.

(* src/bandwidth.c:98-101 *)
Definition bwe_update_rtt_min (self : bwe) (rtt : Z) : bwe :=
  mk_bwe rtt (n_samples self) (index self) (estimate self) (samples self).

(* src/bandwidth.c:103-106: round() and the conversion to int *)
Definition bwe_get_estimate (self : bwe) : res Z :=
  match estimate self with
  | Fin n d => int32 (if n >=? 0 then (2 * n + d) / (2 * d) else - ((2 * - n + d) / (2 * d)))
  | _ => Fault SignedOverflow
  end.

(* what a client's estimator is used for: src/server.c:312, 1816, 1824 *)
Inductive bwe_op := Feed (s : sample) | Rtt (rtt : Z).

(* src/bandwidth.c:87-101 *)
Definition bwe_step (self : bwe) (op : bwe_op) : res bwe :=
  match op with
  | Feed s => bwe_feed self s
  | Rtt r => Ok (bwe_update_rtt_min self r)
  end.

(* any sequence of the calls of src/bandwidth.c:87-101 *)
Fixpoint bwe_run (self : bwe) (ops : list bwe_op) : res bwe :=
  match ops with
  | [] => Ok self
  | op :: ops => let* self := bwe_step self op in bwe_run self ops
  end.

(* src/server.c:1788-1829, on_fence_response: what a reply to a ping does to the
   estimator and min_rtt; departure and frame_size are the payload's two numbers,
   length the payload's length, sizeof(struct rfb_fence_msg) is 9.  The estimate
   is read at 1829 when tracing and at 908 in process_fb_update_requests. *)
Definition on_fence_response (self : bwe) (min_rtt now departure frame_size length : Z) : res (bwe * Z) :=
  let departure_time := to_signed 32 departure in
  if frame_size =? 0 then Ok (self, min_rtt)
  else
    let* rtt := int32 (now - departure_time) in
    if rtt <? 0 then Ok (self, min_rtt)
    else
      let (self, min_rtt) := if rtt <? min_rtt then (bwe_update_rtt_min self rtt, rtt) else (self, min_rtt) in
      let s := mk_sample (to_signed 32 ((frame_size + 9 + length) mod 2 ^ 32)) departure_time now in
      let* self := bwe_feed self s in
      Ok (self, min_rtt).
