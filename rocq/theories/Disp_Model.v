(** Feeding buffers to a display: src/display.c, src/resampler.c, with the holds of
    the encoders on the displayed buffer.

    A feed is known by its number: the damage it brings (refined and transformed,
    see Refinery and Transform) is reported to the clients when [Show] with its number
    is logged.  Buffers of the application and buffers of the resampler's pool are in
    two heaps.  Left out: mapping; failure to allocate the side data or the item of
    the pool's list; changing the transform, the user data or the geometry of a
    buffer after it was created; what the release callback of the application does. *)
From Verif Require Import Common Fb_Model.

(* a framebuffer, of the application or of the resampler's pool *)
(* src/resampler.c:42-48 *)
Inductive frame := Own (i : nat) | Pooled (i : nat).

(** A buffer of the application.  [b_upright]: its transform is NORMAL; [b_data]: it
    has user data; [b_side]: that is the side data of the resampler; [b_owned]
    (ghost): the application still has its reference. *)
(* include/fb.h:29-50, include/common.h:75-78 *)
Record buffer := mk_buffer {
  b_fb : fb; b_upright : bool; b_geo : geometry; b_pts : option Z; b_data : bool; b_side : bool; b_owned : bool }.

(* src/resampler.c:42-48, struct resampler_work; [k_no] stands for frame_damage *)
Record work := mk_work { k_no : nat; k_src : nat; k_dst : nat }.

(* what the application and the clients see *)
(* src/fb.c:247-248, src/display.c:43-50 *)
Inductive event :=
| Released (i : nat)                                (* the release callback of buffer i *)
| Show (n : nat) (f : frame) (pts : option Z).      (* feed n is displayed, its damage reported *)

(** [d_alive]: the display and its resampler exist; [d_side]: the list of side data,
    by the buffers they belong to; [d_users]: frames being encoded; [d_fed] (ghost)
    numbers the feeds. *)
(* src/display.c:53-79, include/display.h:29-36, src/resampler.c:37-40 *)
Record world := mk_d {
  d_bufs : list buffer; d_pool : Fb_Model.world; d_shown : option frame; d_works : list work;
  d_users : list frame; d_alive : bool; d_side : list nat; d_fed : nat; d_log : list event }.

(* include/display.h:29-36 *)
Definition set_bufs l w := mk_d l (d_pool w) (d_shown w) (d_works w) (d_users w) (d_alive w) (d_side w) (d_fed w) (d_log w).
(* include/display.h:29-36 *)
Definition set_pool p w := mk_d (d_bufs w) p (d_shown w) (d_works w) (d_users w) (d_alive w) (d_side w) (d_fed w) (d_log w).
(* include/display.h:29-36 *)
Definition set_shown s w := mk_d (d_bufs w) (d_pool w) s (d_works w) (d_users w) (d_alive w) (d_side w) (d_fed w) (d_log w).
(* src/resampler.c:42-48 *)
Definition set_works l w := mk_d (d_bufs w) (d_pool w) (d_shown w) l (d_users w) (d_alive w) (d_side w) (d_fed w) (d_log w).
(* src/enc/raw.c:243-244 *)
Definition set_users l w := mk_d (d_bufs w) (d_pool w) (d_shown w) (d_works w) l (d_alive w) (d_side w) (d_fed w) (d_log w).
(* src/display.c:89 *)
Definition set_alive a w := mk_d (d_bufs w) (d_pool w) (d_shown w) (d_works w) (d_users w) a (d_side w) (d_fed w) (d_log w).
(* src/resampler.c:39 *)
Definition set_side l w := mk_d (d_bufs w) (d_pool w) (d_shown w) (d_works w) (d_users w) (d_alive w) l (d_fed w) (d_log w).
(* src/display.c:112-146 *)
Definition set_fed n w := mk_d (d_bufs w) (d_pool w) (d_shown w) (d_works w) (d_users w) (d_alive w) (d_side w) n (d_log w).
(* src/fb.c:248 *)
Definition say e w := mk_d (d_bufs w) (d_pool w) (d_shown w) (d_works w) (d_users w) (d_alive w) (d_side w) (d_fed w) (d_log w ++ [e]).

(* include/fb.h:29-50 *)
Definition with_fb f (b : buffer) : buffer :=
  mk_buffer f (b_upright b) (b_geo b) (b_pts b) (b_data b) (b_side b) (b_owned b).

(* include/fb.h:29-50: the buffer at an address changes *)
Fixpoint put_buf (l : list buffer) (n : nat) (b : buffer) : list buffer :=
  match l, n with
  | [], _ => []
  | _ :: l, O => b :: l
  | x :: l, S n => x :: put_buf l n b
  end.

(* src/fb.c:200-203, 231-234 *)
Definition call (c : fb -> res fb) (f : frame) (w : world) : res world :=
  match f with
  | Own i =>
      match nth_error (d_bufs w) i with
      | None => Fault NullDeref
      | Some b => let* x := c (b_fb b) in Ok (set_bufs (put_buf (d_bufs w) i (with_fb x b)) w)
      end
  | Pooled i => let* p := on_fb (d_pool w) i c in Ok (set_pool p w)
  end.

(* src/fb.c:236-249, nvnc_fb_release: the presentation time is forgotten; pooled
   buffers go back to their pool *)
Definition release (f : frame) (w : world) : res world :=
  match f with
  | Own i =>
      match nth_error (d_bufs w) i with
      | None => Fault NullDeref
      | Some b =>
          let* r := nvnc_fb_release (b_fb b) in
          if snd r then
            Ok (say (Released i) (set_bufs (put_buf (d_bufs w) i
                  (mk_buffer (fst r) (b_upright b) (b_geo b) None (b_data b) (b_side b) (b_owned b))) w))
          else Ok (set_bufs (put_buf (d_bufs w) i (with_fb (fst r) b)) w)
      end
  | Pooled i => let* p := release_to_pool (d_pool w) i in Ok (set_pool p w)
  end.

(* src/resampler.c:50-56, fb_side_data_destroy: LIST_REMOVE writes to the element
   before, or to the head of the list, which is in the resampler *)
Definition side_remove (i : nat) (w : world) : res world :=
  match d_side w with
  | j :: _ => if Nat.eqb j i && negb (d_alive w) then Fault UseAfterFree
              else Ok (set_side (filter (fun k => negb (Nat.eqb k i)) (d_side w)) w)
  | [] => Ok w
  end.

(* src/fb.c:172-197, 206-210, nvnc_fb_unref *)
Definition unref (f : frame) (w : world) : res world :=
  let* w := call nvnc_fb_unref f w in
  match f with
  | Own i =>
      match nth_error (d_bufs w) i with
      | Some b => if fb_freed (b_fb b) && b_side b then side_remove i w else Ok w
      | None => Ok w
      end
  | Pooled _ => Ok w
  end.

(* src/fb.c:225-229: the presentation time of a frame; buffers of the pool never
   get one (src/resampler.c:170-243, src/fb.c:52) *)
Definition pts_of (f : frame) (w : world) : option Z :=
  match f with
  | Own i => match nth_error (d_bufs w) i with Some b => b_pts b | None => None end
  | Pooled _ => None
  end.

(* src/display.c:31-51, nvnc_display__on_resampler_done *)
Definition on_done (n : nat) (f : frame) (w : world) : res world :=
  if negb (d_alive w) then Fault UseAfterFree
  else
    let* w := match d_shown w with
              | Some old => let* w := release old w in unref old w
              | None => Ok w
              end in
    let w := set_shown (Some f) w in
    let* w := call nvnc_fb_ref f w in
    let* w := call nvnc_fb_hold f w in
    Ok (say (Show n f (pts_of f w)) w).

(* src/resampler.c:67-79, resampler_work_free *)
Definition work_free (k : work) (w : world) : res world :=
  let* w := release (Own (k_src k)) w in
  let* w := unref (Own (k_src k)) w in
  unref (Pooled (k_dst k)) w.

(** How a feed goes: all right; no memory for the work or the new buffer; the work
    cannot be made or started. *)
(* src/resampler.c:191-193, 198-200, 225-236 *)
Inductive outcome := Started | NoMemory | NotStarted.

(* src/resampler.c:170-243, resampler_feed; aml_work_new failing ends like
   aml_start failing *)
Definition resampler_feed (i : nat) (b : buffer) (o : outcome) (n : nat) (w : world) : res world :=
  if b_upright b then on_done n (Own i) w
  else
    let* p := pool_resize (d_pool w) (b_geo b) in
    let w := set_pool p w in
    match o with
    | NoMemory => Ok w
    | _ =>
        let* r := pool_acquire (d_pool w) in
        let w := set_pool (fst r) w in
        let w := if b_data b then w
                 else set_side (i :: d_side w) (set_bufs (put_buf (d_bufs w) i
                        (mk_buffer (b_fb b) (b_upright b) (b_geo b) (b_pts b) true true (b_owned b))) w) in
        let* w := call nvnc_fb_ref (Own i) w in
        let* w := call nvnc_fb_hold (Own i) w in
        let k := mk_work n i (snd r) in
        match o with
        | Started => Ok (set_works (d_works w ++ [k]) w)
        | _ => work_free k w
        end
    end.

(** What happens to a display.  [b_geo] of a buffer that is not upright is the
    geometry its upright copy has. *)
(* include/neatvnc.h:207-253, src/display.c:53-146, src/resampler.c:162-168 *)
Inductive op :=
| Create (upright : bool) (g : geometry) (data : bool) (* nvnc_fb_new *)
| SetPts (i : nat) (p : Z)                             (* nvnc_fb_set_pts *)
| Feed (i : nat) (o : outcome)                         (* nvnc_display_feed_buffer *)
| Done (k : nat)                                       (* a worker has finished *)
| Encode                                               (* an encoder takes the frame *)
| Encoded (k : nat)                                    (* and is done with it *)
| Drop (i : nat)                                       (* nvnc_fb_unref by the application *)
| Gone.                                                (* the last nvnc_display_unref *)

(* the n-th element leaves a list *)
(* src/resampler.c:162-168 *)
Definition without {A} (n : nat) (l : list A) : list A := firstn n l ++ skipn (S n) l.

(* the buffer, if the application still has it *)
(* include/neatvnc.h:207-215 *)
Definition owned (i : nat) (w : world) : option buffer :=
  match nth_error (d_bufs w) i with
  | Some b => if b_owned b then Some b else None
  | None => None
  end.

(* src/display.c:81-146, src/resampler.c:162-243, src/enc/raw.c:210-211, 243-244;
   the application calls only for what it has *)
Definition step (a : op) (w : world) : res world :=
  match a with
  | Create upright g data =>
      Ok (set_bufs (d_bufs w ++ [mk_buffer (fb_fresh g) upright g None data false true]) w)
  | SetPts i p =>
      match owned i w with
      | Some b => Ok (set_bufs (put_buf (d_bufs w) i
                       (mk_buffer (b_fb b) (b_upright b) (b_geo b) (Some p) (b_data b) (b_side b) (b_owned b))) w)
      | None => Ok w
      end
  | Feed i o =>
      match owned i w, d_alive w with
      | Some b, true => resampler_feed i b o (d_fed w) (set_fed (S (d_fed w)) w)
      | _, _ => Ok w
      end
  | Done n =>
      match nth_error (d_works w) n with
      | None => Ok w
      | Some k =>
          let* w := on_done (k_no k) (Pooled (k_dst k)) (set_works (without n (d_works w)) w) in
          work_free k w
      end
  | Encode =>
      match d_alive w, d_shown w with
      | true, Some f =>
          let* w := call nvnc_fb_ref f w in
          let* w := call nvnc_fb_hold f w in
          Ok (set_users (d_users w ++ [f]) w)
      | _, _ => Ok w
      end
  | Encoded n =>
      match nth_error (d_users w) n with
      | None => Ok w
      | Some f =>
          let w := set_users (without n (d_users w)) w in
          let* w := release f w in
          unref f w
      end
  | Drop i =>
      match owned i w with
      | Some b => unref (Own i) (set_bufs (put_buf (d_bufs w) i
                    (mk_buffer (b_fb b) (b_upright b) (b_geo b) (b_pts b) (b_data b) (b_side b) false)) w)
      | None => Ok w
      end
  | Gone =>
      if d_alive w then
        (* src/display.c:81-90, src/resampler.c:98-102 *)
        let* w := match d_shown w with
                  | Some old => let* w := release old w in unref old w
                  | None => Ok w
                  end in
        let w := set_shown None w in
        let* p := pool_unref (d_pool w) in
        Ok (set_alive false (set_pool p w))
      else Ok w
  end.

(* src/display.c:53-146, any sequence *)
Fixpoint run (l : list op) (w : world) : res world :=
  match l with
  | [] => Ok w
  | a :: l => let* w := step a w in run l w
  end.

(* src/display.c:53-79, nvnc_display_new; src/resampler.c:87 *)
Definition world0 : world := mk_d [] (pool_new (0, 0, 0, 0)) None [] [] true [] 0 [].
