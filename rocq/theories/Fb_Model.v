(** Framebuffers, the framebuffer pool and reference counted buffers:
    src/fb.c, src/fb_pool.c, src/rcbuf.c.

    Simplifications: allocation succeeds; counters do not overflow int; main
    memory framebuffers (NVNC_FB_SIMPLE), so map and unmap do nothing; no
    userdata.  A pool's framebuffers are numbered in the order of their
    allocation; the heap keeps freed ones, so that using one is a fault. *)
From Verif Require Import Common Pixels_Model.

(** ** Allocation *)

(* src/fb.c:54-58: size_t size = height * stride * bpp; the factors are promoted
   to int, the last product is uint32_t.  The number of bytes allocated. *)
Definition fb_alloc_size (height stride bpp : Z) : res Z :=
  if height * stride <? 2 ^ 31 then
    let size := ((height * stride) * bpp) mod 2 ^ 32 in
    Ok (((size + 8 - 1) / 8) * 8)
  else Fault SignedOverflow.

(* src/fb.c:37-65, nvnc_fb_new: bytes at addr; pixel_size_from_fourcc is 0 for an
   unknown format *)
Definition fb_new (width height fourcc stride : Z) : res Z :=
  fb_alloc_size height stride (pixel_size_from_fourcc fourcc).

(** ** Reference and hold counts *)

(* width, height, fourcc_format, stride *)
(* include/fb.h:29-50 *)
Definition geometry : Type := Z * Z * Z * Z.

(* include/fb.h:29-50, as far as it matters; freed: free(fb) was called;
   released: how often on_release was called *)
Record fb := mk_fb { fb_ref : Z; fb_hold : Z; fb_freed : bool; fb_released : Z; fb_geo : geometry }.

(* src/fb.c:37-65: a new framebuffer *)
Definition fb_fresh (g : geometry) : fb := mk_fb 1 0 false 0 g.

(* src/fb.c:200-203 *)
Definition nvnc_fb_ref (f : fb) : res fb :=
  if fb_freed f then Fault UseAfterFree
  else Ok (mk_fb (fb_ref f + 1) (fb_hold f) false (fb_released f) (fb_geo f)).

(* src/fb.c:206-210, 172-197 *)
Definition nvnc_fb_unref (f : fb) : res fb :=
  if fb_freed f then Fault UseAfterFree
  else Ok (mk_fb (fb_ref f - 1) (fb_hold f) (fb_ref f - 1 =? 0) (fb_released f) (fb_geo f)).

(* src/fb.c:231-234 *)
Definition nvnc_fb_hold (f : fb) : res fb :=
  if fb_freed f then Fault UseAfterFree
  else Ok (mk_fb (fb_ref f) (fb_hold f + 1) false (fb_released f) (fb_geo f)).

(* src/fb.c:236-249: the framebuffer, and whether on_release is called *)
Definition nvnc_fb_release (f : fb) : res (fb * bool) :=
  if fb_freed f then Fault UseAfterFree
  else
    let hold := fb_hold f - 1 in
    if hold =? 0 then Ok (mk_fb (fb_ref f) hold false (fb_released f + 1) (fb_geo f), true)
    else Ok (mk_fb (fb_ref f) hold false (fb_released f) (fb_geo f), false).

(* what owners of a framebuffer do *)
(* src/fb.c:200-249 *)
Inductive fb_op := Ref | Unref | Hold | Release.

(* src/fb.c:200-249 *)
Definition fb_step (f : fb) (o : fb_op) : res fb :=
  match o with
  | Ref => nvnc_fb_ref f
  | Unref => nvnc_fb_unref f
  | Hold => nvnc_fb_hold f
  | Release => let* r := nvnc_fb_release f in Ok (fst r)
  end.

(* any sequence of the calls of src/fb.c:200-249 *)
Fixpoint fb_run (f : fb) (ops : list fb_op) : res fb :=
  match ops with
  | [] => Ok f
  | o :: ops => let* f := fb_step f o in fb_run f ops
  end.

(** ** Shared byte buffers *)

(* include/rcbuf.h, src/rcbuf.c:23-34; frees: how often payload and buffer were freed *)
Record rcbuf := mk_rc { rc_ref : Z; rc_payload : list Z; rc_frees : Z }.

(* src/rcbuf.c:23-34 *)
Definition rcbuf_new (payload : list Z) : rcbuf := mk_rc 1 payload 0.

(* src/rcbuf.c:57-60 *)
Definition rcbuf_ref (b : rcbuf) : res rcbuf :=
  if rc_frees b >? 0 then Fault UseAfterFree else Ok (mk_rc (rc_ref b + 1) (rc_payload b) (rc_frees b)).

(* src/rcbuf.c:62-71 *)
Definition rcbuf_unref (b : rcbuf) : res rcbuf :=
  if rc_frees b >? 0 then Fault UseAfterFree
  else if negb (rc_ref b >? 0) then Fault AssertFail
  else if rc_ref b - 1 >? 0 then Ok (mk_rc (rc_ref b - 1) (rc_payload b) (rc_frees b))
  else Ok (mk_rc (rc_ref b - 1) (rc_payload b) (rc_frees b + 1)).

(* any sequence of rcbuf_ref and rcbuf_unref, src/rcbuf.c:57-71 *)
Fixpoint rcbuf_run (b : rcbuf) (ups : list bool) : res rcbuf :=
  match ups with
  | [] => Ok b
  | up :: ups => let* b := (if up : bool then rcbuf_ref b else rcbuf_unref b) in rcbuf_run b ups
  end.

(** ** The pool *)

(* src/fb_pool.c:34-45 *)
Record pool := mk_pool { p_ref : Z; p_freed : bool; p_fbs : list nat; p_geo : geometry }.

(* all framebuffers whose release function is the pool's, and the pool *)
(* src/fb_pool.c:34-45 *)
Record world := mk_w { w_heap : list fb; w_pool : pool }.

(* the framebuffer at an address changes, src/fb.c:200-249 *)
Fixpoint set_fb (l : list fb) (n : nat) (f : fb) : list fb :=
  match l, n with
  | [], _ => []
  | _ :: l, O => f :: l
  | x :: l, S n => x :: set_fb l n f
  end.

(* a call on framebuffer [i] *)
(* src/fb.c:200-249 *)
Definition on_fb (w : world) (i : nat) (call : fb -> res fb) : res world :=
  match nth_error (w_heap w) i with
  | None => Fault NullDeref
  | Some f => let* f := call f in Ok (mk_w (set_fb (w_heap w) i f) (w_pool w))
  end.

(* src/fb_pool.c:48-65 *)
Definition pool_new (g : geometry) : world := mk_w [] (mk_pool 1 false [] g).

(* src/fb_pool.c:67-75, nvnc_fb_pool__destroy_fbs *)
Fixpoint destroy_fbs (heap : list fb) (fbs : list nat) : res (list fb) :=
  match fbs with
  | [] => Ok heap
  | i :: fbs =>
      match nth_error heap i with
      | None => Fault NullDeref
      | Some f => let* f := nvnc_fb_unref f in destroy_fbs (set_fb heap i f) fbs
      end
  end.

(* the comparison of src/fb_pool.c:84-100 *)
Definition geo_eqb (a b : geometry) : bool :=
  let '(w, h, f, s) := a in let '(w', h', f', s') := b in (w =? w') && (h =? h') && (f =? f') && (s =? s').

(* src/fb_pool.c:84-100 *)
Definition pool_resize (w : world) (g : geometry) : res world :=
  let p := w_pool w in
  if p_freed p then Fault UseAfterFree
  else if geo_eqb g (p_geo p) then Ok w
  else
    let* heap := destroy_fbs (w_heap w) (p_fbs p) in
    Ok (mk_w heap (mk_pool (p_ref p) false [] g)).

(* src/fb_pool.c:103-106 *)
Definition pool_ref (w : world) : res world :=
  let p := w_pool w in
  if p_freed p then Fault UseAfterFree else Ok (mk_w (w_heap w) (mk_pool (p_ref p + 1) false (p_fbs p) (p_geo p))).

(* src/fb_pool.c:109-113, 77-81 *)
Definition pool_unref (w : world) : res world :=
  let p := w_pool w in
  if p_freed p then Fault UseAfterFree
  else if p_ref p - 1 =? 0 then
    let* heap := destroy_fbs (w_heap w) (p_fbs p) in
    Ok (mk_w heap (mk_pool 0 true [] (p_geo p)))
  else Ok (mk_w (w_heap w) (mk_pool (p_ref p - 1) false (p_fbs p) (p_geo p))).

(* src/fb_pool.c:159-173 *)
Definition pool_release (w : world) (i : nat) : res world :=
  let p := w_pool w in
  if p_freed p then Fault UseAfterFree
  else
    match nth_error (w_heap w) i with
    | None => Fault NullDeref
    | Some f =>
        if fb_freed f then Fault UseAfterFree
        else if negb (geo_eqb (fb_geo f) (p_geo p)) then Ok w
        else
          let* w := on_fb w i nvnc_fb_ref in
          Ok (mk_w (w_heap w) (mk_pool (p_ref p) false (p_fbs p ++ [i]) (p_geo p)))
    end.

(* src/fb_pool.c:151-156, 123-134, 136-148: the world and the framebuffer *)
Definition pool_acquire (w : world) : res (world * nat) :=
  let p := w_pool w in
  if p_freed p then Fault UseAfterFree
  else
    match p_fbs p with
    | [] =>
        let* w' := pool_ref (mk_w (w_heap w ++ [fb_fresh (p_geo p)]) p) in
        Ok (w', length (w_heap w))
    | i :: fbs =>
        let* w' := pool_ref (mk_w (w_heap w) (mk_pool (p_ref p) false fbs (p_geo p))) in
        Ok (w', i)
    end.

(* src/fb.c:236-249 with src/fb_pool.c:115-121, nvnc_fb_pool__on_fb_release, as
   release function *)
Definition release_to_pool (w : world) (i : nat) : res world :=
  match nth_error (w_heap w) i with
  | None => Fault NullDeref
  | Some f =>
      let* r := nvnc_fb_release f in
      let w := mk_w (set_fb (w_heap w) i (fst r)) (w_pool w) in
      if snd r then let* w := pool_release w i in pool_unref w else Ok w
  end.

(* what users of a pool and its framebuffers do *)
(* include/neatvnc.h:234-245, src/fb_pool.c:47-172 *)
Inductive pool_op :=
| PoolRef | PoolUnref | Resize (g : geometry) | Acquire (* src/fb_pool.c *)
| FbRef (i : nat) | FbUnref (i : nat) | FbHold (i : nat) | FbRelease (i : nat) (* src/fb.c *).

(* the world, and the framebuffer an Acquire returned *)
(* src/fb_pool.c:47-172, src/fb.c:200-249 *)
Definition pool_step (w : world) (o : pool_op) : res (world * option nat) :=
  let plain r := let* w := r in Ok (w, None) in
  match o with
  | PoolRef => plain (pool_ref w)
  | PoolUnref => plain (pool_unref w)
  | Resize g => plain (pool_resize w g)
  | Acquire => let* r := pool_acquire w in Ok (fst r, Some (snd r))
  | FbRef i => plain (on_fb w i nvnc_fb_ref)
  | FbUnref i => plain (on_fb w i nvnc_fb_unref)
  | FbHold i => plain (on_fb w i nvnc_fb_hold)
  | FbRelease i => plain (release_to_pool w i)
  end.
