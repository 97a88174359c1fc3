(** Buffers in graphics memory: mapping them for reading, src/fb.c with HAVE_GBM, and the
    users of one such buffer: encoders, whose work runs in worker threads, the damage
    refinery, the resampler, the display and the application.

    Simplifications: counters do not overflow int; nvnc_fb_map is three steps when a worker
    runs it, everything else one step; what gbm_bo_map answers (the number of bytes from row to
    row, or a failure) is an input of each call.  Mappings are numbered in the order in
    which the driver makes them.  The buffer object belongs to the application and exists
    as long as the framebuffer.  No pts, see Disp. *)
From Verif Require Import Common Pixels_Model.

(** ** The framebuffer *)

(** [g_addr] and [g_handle]: the mapping they came from; [g_live]: mappings the driver made
    and has not been told to undo; [g_made]: how many it made so far; [g_told]: how often
    the release callback was called. *)
(* include/fb.h:29-50 *)
Record gfb := mk_g {
  g_ref : Z; g_hold : Z; g_freed : bool;
  g_width : Z; g_height : Z; g_format : Z;
  g_addr : option nat; g_handle : option nat; g_stride : Z;
  g_live : list nat; g_made : nat; g_told : Z }.

(* src/fb.c:89-112, nvnc_fb_from_gbm_bo; width and height become uint16_t *)
Definition from_gbm_bo (width height format : Z) : gfb :=
  mk_g 1 0 false (width mod 2 ^ 16) (height mod 2 ^ 16) format None None 0 [] 0 0.

(* src/fb.c:148-152, nvnc_fb_get_pixel_size *)
Definition pixel_size (g : gfb) : Z := pixel_size_from_fourcc (g_format g).

(* src/fb.c:254-255: there is nothing to do *)
Definition is_mapped (g : gfb) : bool := match g_handle g with Some _ => true | None => false end.

(* src/fb.c:257-258, gbm_bo_map: the driver maps the buffer and sets the handle *)
Definition map_call (g : gfb) (answer : option Z) : gfb * option (nat * Z) :=
  match answer with
  | Some pitch =>
      let n := g_made g in
      (mk_g (g_ref g) (g_hold g) (g_freed g) (g_width g) (g_height g) (g_format g)
         (g_addr g) (Some n) (g_stride g) (n :: g_live g) (S n) (g_told g), Some (n, pitch))
  | None => (g, None)
  end.

(* src/fb.c:257-265, what follows: the framebuffer, and whether it could be mapped *)
Definition map_store (g : gfb) (r : option (nat * Z)) : res (gfb * bool) :=
  if pixel_size g =? 0 then Fault DivByZero
  else match r with
  | Some (n, pitch) =>
      Ok (mk_g (g_ref g) (g_hold g) (g_freed g) (g_width g) (g_height g) (g_format g)
            (Some n) (g_handle g) (to_signed 32 (pitch / pixel_size g)) (g_live g) (g_made g) (g_told g), true)
  | None =>
      Ok (mk_g (g_ref g) (g_hold g) (g_freed g) (g_width g) (g_height g) (g_format g)
            None None 0 (g_live g) (g_made g) (g_told g), false)
  end.

(* src/fb.c:251-269, nvnc_fb_map as called from the main thread *)
Definition fb_map (g : gfb) (answer : option Z) : res (gfb * bool) :=
  if g_freed g then Fault UseAfterFree
  else if is_mapped g then Ok (g, true)
  else let (g, r) := map_call g answer in map_store g r.

(* the driver undoes a mapping, src/fb.c:277-278 *)
Definition undo (live : list nat) (n : nat) : res (list nat) :=
  if existsb (Nat.eqb n) live then Ok (remove Nat.eq_dec n live) else Fault UseAfterFree.

(* src/fb.c:271-284, nvnc_fb_unmap *)
Definition fb_unmap (g : gfb) : res gfb :=
  if g_freed g then Fault UseAfterFree
  else
    let* live := match g_handle g with Some n => undo (g_live g) n | None => Ok (g_live g) end in
    Ok (mk_g (g_ref g) (g_hold g) false (g_width g) (g_height g) (g_format g)
          None None 0 live (g_made g) (g_told g)).

(* include/fb.h:29-50 *)
Definition set_counts (g : gfb) (ref hold : Z) : gfb :=
  mk_g ref hold (g_freed g) (g_width g) (g_height g) (g_format g)
    (g_addr g) (g_handle g) (g_stride g) (g_live g) (g_made g) (g_told g).

(* src/fb.c:200-203 *)
Definition fb_ref (g : gfb) : res gfb :=
  if g_freed g then Fault UseAfterFree else Ok (set_counts g (g_ref g + 1) (g_hold g)).

(* src/fb.c:231-234 *)
Definition fb_hold (g : gfb) : res gfb :=
  if g_freed g then Fault UseAfterFree else Ok (set_counts g (g_ref g) (g_hold g + 1)).

(* src/fb.c:196: free(fb); the callback of line 248 *)
Definition set_freed (g : gfb) : gfb :=
  mk_g (g_ref g) (g_hold g) true (g_width g) (g_height g) (g_format g)
    (g_addr g) (g_handle g) (g_stride g) (g_live g) (g_made g) (g_told g).

(* src/fb.c:247-248 *)
Definition tell (g : gfb) : gfb :=
  mk_g (g_ref g) (g_hold g) (g_freed g) (g_width g) (g_height g) (g_format g)
    (g_addr g) (g_handle g) (g_stride g) (g_live g) (g_made g) (g_told g + 1).

(* src/fb.c:206-210, nvnc_fb_unref, and 172-197; the buffer object is external *)
Definition fb_unref (g : gfb) : res gfb :=
  if g_freed g then Fault UseAfterFree
  else
    let g := set_counts g (g_ref g - 1) (g_hold g) in
    if g_ref g =? 0 then let* g := fb_unmap g in Ok (set_freed g) else Ok g.

(* src/fb.c:236-249 *)
Definition fb_release (g : gfb) : res gfb :=
  if g_freed g then Fault UseAfterFree
  else
    let g := set_counts g (g_ref g) (g_hold g - 1) in
    if g_hold g =? 0 then let* g := fb_unmap g in Ok (tell g) else Ok g.

(* how all readers find a pixel, given addr and stride: src/enc/raw.c:64-67 and 77-79,
   src/damage-refinery.c:77-91: the mapping they read, and the offset in it *)
Definition read_at (g : gfb) (addr : option nat) (stride x y : Z) : res (nat * Z) :=
  match addr with
  | None => Fault NullDeref
  | Some n =>
      if existsb (Nat.eqb n) (g_live g) then Ok (n, x * pixel_size g + y * (stride * pixel_size g))
      else Fault UseAfterFree
  end.

(* src/enc/raw.c:64-67, src/damage-refinery.c:77-79: addr and stride as they are now *)
Definition fb_read (g : gfb) (x y : Z) : res (nat * Z) :=
  if g_freed g then Fault UseAfterFree else read_at g (g_addr g) (g_stride g) x y.

(** ** Its users *)

(* The work of an encoder: queued; found the buffer not mapped; the driver has answered; the
   buffer is mapped; encodes a box, with addr and stride as they were at its begin; over *)
(* src/enc/raw.c:95-125 and 54-83, src/fb.c:254-257 *)
Inductive phase := Queued | Mapping | Storing (r : option (nat * Z)) | Mapped | InBox (addr : option nat) (stride : Z) | Over.

(* [w_v4l2]: buffers the V4L2 encoder has; [w_shown]: holds of displays; [w_app]:
   references of the application *)
(* src/display.c:31-51, src/enc/h264/v4l2m2m-impl.c:462-512 *)
Record world := mk_w { w_fb : gfb; w_works : list phase; w_v4l2 : nat; w_shown : nat; w_app : nat }.

(* one work moves on *)
(* src/enc/raw.c:127-162 *)
Fixpoint set_phase (l : list phase) (i : nat) (p : phase) : list phase :=
  match l, i with
  | [], _ => []
  | _ :: l, O => p :: l
  | a :: l, S i => a :: set_phase l i p
  end.

(* the functions named at each *)
(* src/fb.c:200-284, src/enc/raw.c:214-254, src/display.c:31-51 *)
Inductive act :=
| AppRef | AppUnref                       (* nvnc_fb_ref, nvnc_fb_unref by the application *)
| Show                                    (* it becomes a display's buffer, src/display.c:43-45 *)
| Hide                                    (* another one does, src/display.c:38-41 *)
| Take                                    (* an encoder queues work, src/enc/raw.c:229-244 *)
| Begin (i : nat)                         (* the work starts and looks for a mapping, src/fb.c:254 *)
| Map (i : nat) (answer : option Z)       (* the driver maps, src/fb.c:257-258 *)
| Store (i : nat)                         (* addr and stride are set, src/fb.c:257-265 *)
| Box (i : nat)                           (* it begins a box, src/enc/raw.c:64-67 *)
| Read (i : nat) (x y : Z)                (* it reads a pixel, src/enc/raw.c:77-79 *)
| Finish (i : nat)                        (* src/enc/raw.c:201-212 *)
| VTake (answer : option Z)               (* src/enc/h264/v4l2m2m-impl.c:472-482 *)
| VGive                                   (* src/enc/h264/v4l2m2m-impl.c:390-393 *)
| Refine (answer : option Z) (x y : Z)    (* src/damage-refinery.c:143, 71-94 *)
| Resample (answer : option Z) (x y : Z). (* src/resampler.c:232, 118-124: pixman makes memory
                                             of its own for an image without address *)

(* the framebuffer changes *)
(* include/fb.h:29-50 *)
Definition set_fb (w : world) (g : gfb) : world := mk_w g (w_works w) (w_v4l2 w) (w_shown w) (w_app w).
(* src/enc/raw.c:127-162 *)
Definition set_work (w : world) (i : nat) (p : phase) : world :=
  mk_w (w_fb w) (set_phase (w_works w) i p) (w_v4l2 w) (w_shown w) (w_app w).

(* nvnc_fb_ref and nvnc_fb_hold in a row, src/fb.c:200-203 and 231-234 *)
Definition keep (g : gfb) : res gfb := let* g := fb_ref g in fb_hold g.
(* nvnc_fb_release and nvnc_fb_unref in a row, src/fb.c:236-249 and 206-210 *)
Definition drop (g : gfb) : res gfb := let* g := fb_release g in fb_unref g.

(* One step.  What nobody can do (reading before mapping, giving back what one does not
   have) changes nothing. *)
(* src/fb.c:200-284 and the places named at [act] *)
Definition step (w : world) (a : act) : res world :=
  let g := w_fb w in
  match a with
  | AppRef =>
      match w_app w with
      | O => Ok w
      | S _ => let* g := fb_ref g in Ok (mk_w g (w_works w) (w_v4l2 w) (w_shown w) (S (w_app w)))
      end
  | AppUnref =>
      match w_app w with
      | O => Ok w
      | S n => let* g := fb_unref g in Ok (mk_w g (w_works w) (w_v4l2 w) (w_shown w) n)
      end
  | Show =>
      match w_app w with
      | O => Ok w
      | S _ => let* g := keep g in Ok (mk_w g (w_works w) (w_v4l2 w) (S (w_shown w)) (w_app w))
      end
  | Hide =>
      match w_shown w with
      | O => Ok w
      | S n => let* g := drop g in Ok (mk_w g (w_works w) (w_v4l2 w) n (w_app w))
      end
  | Take =>
      match w_shown w with
      | O => Ok w
      | S _ => let* g := keep g in Ok (mk_w g (w_works w ++ [Queued]) (w_v4l2 w) (w_shown w) (w_app w))
      end
  | Begin i =>
      match nth_error (w_works w) i with
      | Some Queued =>
          if g_freed g then Fault UseAfterFree
          else Ok (set_work w i (if is_mapped g then Mapped else Mapping))
      | _ => Ok w
      end
  | Map i answer =>
      match nth_error (w_works w) i with
      | Some Mapping =>
          if g_freed g then Fault UseAfterFree
          else let (g, r) := map_call g answer in Ok (set_work (set_fb w g) i (Storing r))
      | _ => Ok w
      end
  | Store i =>
      match nth_error (w_works w) i with
      | Some (Storing r) =>
          if g_freed g then Fault UseAfterFree
          else
            let* r := map_store g r in
            if snd r : bool then Ok (set_work (set_fb w (fst r)) i Mapped)
            else Fault AssertFail                             (* src/enc/raw.c:152-154, unless NDEBUG *)
      | _ => Ok w
      end
  | Box i =>
      match nth_error (w_works w) i with
      | Some Mapped | Some (InBox _ _) =>
          if g_freed g then Fault UseAfterFree else Ok (set_work w i (InBox (g_addr g) (g_stride g)))
      | _ => Ok w
      end
  | Read i x y =>
      match nth_error (w_works w) i with
      | Some (InBox addr stride) => let* _ := read_at g addr stride x y in Ok w
      | _ => Ok w
      end
  | Finish i =>
      match nth_error (w_works w) i with
      | Some Queued | Some Mapped | Some (InBox _ _) =>
          let* g := drop g in Ok (set_work (set_fb w g) i Over)
      | _ => Ok w
      end
  | VTake answer =>
      match w_shown w with
      | O => Ok w
      | S _ =>
          let* g := keep g in
          let* r := fb_map g answer in
          Ok (mk_w (fst r) (w_works w) (S (w_v4l2 w)) (w_shown w) (w_app w))
      end
  | VGive =>
      match w_v4l2 w with
      | O => Ok w
      | S n =>
          let* g := fb_unmap g in
          let* g := drop g in
          Ok (mk_w g (w_works w) n (w_shown w) (w_app w))
      end
  | Refine answer x y =>
      match w_app w with
      | O => Ok w
      | S _ =>
          let* r := fb_map g answer in
          let* _ := fb_read (fst r) x y in
          Ok (set_fb w (fst r))
      end
  | Resample answer x y =>
      match w_app w with
      | O => Ok w
      | S _ =>
          let* r := fb_map g answer in
          match g_addr (fst r) with
          | None => Fault Uninit
          | Some _ => let* _ := fb_read (fst r) x y in Ok (set_fb w (fst r))
          end
      end
  end.

(* any sequence of steps *)
(* src/fb.c:200-284 *)
Fixpoint run (w : world) (acts : list act) : res world :=
  match acts with
  | [] => Ok w
  | a :: acts => let* w := step w a in run w acts
  end.

(* the application makes the framebuffer, src/fb.c:89-112 *)
Definition start (width height format : Z) : world := mk_w (from_gbm_bo width height format) [] 0 0 1.
