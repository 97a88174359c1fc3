(** H.264: src/enc/h264/open-h264.c over src/enc/h264/ffmpeg-impl.c, and the source
    buffers and pixel formats of src/enc/h264/v4l2m2m-impl.c.

    Simplifications: allocation succeeds; what FFmpeg makes of a frame is an input, the
    bytes that h264_encoder__encode gathered in current_packet (none at all also if it
    failed); a callback that runs inside on_packet_ready comes after the step, which is
    the same, as the code touches only local variables after it (ffmpeg-impl.c:489-490,
    open-h264.c:86-90).  Framebuffers are known by a number; their reference and hold
    counts are the events of the log. *)
From Verif Require Import Common.

(* struct nvnc_fb, include/fb.h:29-50, as far as it matters; [f_gbm]: its type is
   NVNC_FB_GBM_BO; [f_plain]: its transform is NVNC_TRANSFORM_NORMAL *)
Record frame := mk_frame {
  f_id : nat; f_width : Z; f_height : Z; f_format : Z; f_pts : Z; f_gbm : bool; f_plain : bool }.

(* calls of src/fb.c:200-249, work started with the frame marked as a key frame or not
   (ffmpeg-impl.c:425-439), and encoded frames handed to encoder_finish_frame *)
Inductive event :=
| Reffed (id : nat) | Unreffed (id : nat) | Held (id : nat) | Released (id : nat)
| Started (f : frame) (key : bool)
| Finished (payload : list Z) (n_rects width height pts : Z).

(** ** The encoder over FFmpeg *)

(* struct h264_encoder_ffmpeg, src/enc/h264/ffmpeg-impl.c:53-83, and the base,
   include/enc/h264-encoder.h:22-27; [k_quality]: codec_ctx->global_quality *)
Record codec := mk_codec {
  k_quality : Z; k_queue : list frame; k_current : option frame;
  k_key_next : bool; k_dying : bool }.

(* src/enc/h264/ffmpeg-impl.c:513-596 *)
Definition codec_new (quality : Z) : codec := mk_codec quality [] None true false.

(* src/enc/h264/ffmpeg-impl.c:353-368 *)
Definition schedule_work (k : codec) : codec * list event :=
  match k_current k with
  | Some _ => (k, [])
  | None =>
      match k_queue k with
      | [] => (k, [])
      | f :: q => (mk_codec (k_quality k) q (Some f) false (k_dying k), [Started f (k_key_next k)])
      end
  end.

(* src/enc/h264/ffmpeg-impl.c:616-632 and 190-201 *)
Definition codec_feed (k : codec) (f : frame) : res (codec * list event) :=
  if negb (f_gbm f) then Fault AssertFail
  else if negb (f_plain f) then Fault AssertFail
  else
    let k := mk_codec (k_quality k) (k_queue k ++ [f]) (k_current k) (k_key_next k) (k_dying k) in
    let '(k, started) := schedule_work k in
    Ok (k, [Reffed (f_id f); Held (f_id f)] ++ started).

(* src/enc/h264/ffmpeg-impl.c:456-491: the encoder, or None if it destroys itself; the
   events; and the packet for the handler with the pts *)
Definition on_work_done (k : codec) (packet : list Z)
  : res (option codec * list event * option (list Z * Z)) :=
  match k_current k with
  | None => Fault NullDeref
  | Some f =>
      let k := mk_codec (k_quality k) (k_queue k) None (k_key_next k) (k_dying k) in
      let rel := [Released (f_id f); Unreffed (f_id f)] in
      if k_dying k then Ok (None, rel, None)
      else match packet with
      | [] => Ok (Some k, rel, None)
      | _ => let '(k, started) := schedule_work k in Ok (Some k, rel ++ started, Some (packet, f_pts f))
      end
  end.

(* src/enc/h264/ffmpeg-impl.c:598-614: what is left of it, with the queue that is not
   emptied *)
Definition codec_destroy (k : codec) : option codec :=
  match k_current k with
  | Some _ => Some (mk_codec (k_quality k) (k_queue k) (k_current k) (k_key_next k) true)
  | None => None
  end.

(* src/enc/h264/encoder.c:70-73 *)
Definition request_keyframe (k : codec) : codec :=
  mk_codec (k_quality k) (k_queue k) (k_current k) true (k_dying k).

(** ** The RFB encoder *)

(* struct open_h264, src/enc/h264/open-h264.c:36-52; [o_dying]: encoders that wait for
   their work to finish; [o_gone]: destroyed itself *)
Record open := mk_open {
  o_enc : option codec; o_pending : list Z; o_pts : Z; o_width : Z; o_height : Z; o_format : Z;
  o_reset : bool; o_quality : Z; o_quality_changed : bool; o_x : Z; o_y : Z;
  o_dying : list codec; o_gone : bool; o_log : list event }.

(* include/neatvnc.h:27 *)
Definition NO_PTS : Z := 2 ^ 64 - 1.
(* include/rfb-proto.h:70 *)
Definition ENC_OPEN_H264 : Z := 50.
(* src/enc/h264/open-h264.c:55 *)
Definition RESET_CONTEXT : Z := 0.

(* src/enc/h264/open-h264.c:93-102 *)
Definition init_pending : list Z := repeat 0 12 ++ repeat 0 8.

(* src/enc/h264/open-h264.c:104-121; x_pos and y_pos of the parent are set by the caller *)
Definition open_h264_new (x y : Z) : open :=
  mk_open None init_pending NO_PTS 0 0 0 false 6 false x y [] false [].

(* struct rfb_server_fb_rect and struct open_h264_header, include/rfb-proto.h:262-268 and
   src/enc/h264/open-h264.c:31-34, as filled in at lines 198-208 *)
Definition h264_head (x y w h len flags : Z) : list Z :=
  be 2 x ++ be 2 y ++ be 2 w ++ be 2 h ++ be 4 ENC_OPEN_H264 ++ be 4 len ++ be 4 flags.

(* src/enc/h264/open-h264.c:182-218: None for NULL *)
Definition open_h264_pull (o : open) : open * option event :=
  let payload := (zlen (o_pending o) - 12 - 8) mod 2 ^ 64 in
  if payload =? 0 then (o, None)
  else
    let flags := if o_reset o then RESET_CONTEXT else 0 in
    let data := h264_head (o_x o) (o_y o) (o_width o mod 2 ^ 16) (o_height o mod 2 ^ 16)
                  (payload mod 2 ^ 32) flags ++ skipn 20 (o_pending o) in
    (mk_open (o_enc o) init_pending NO_PTS (o_width o) (o_height o) (o_format o) false (o_quality o)
       (o_quality_changed o) (o_x o) (o_y o) (o_dying o) (o_gone o) (o_log o),
     Some (Finished data 1 (o_width o mod 2 ^ 16) (o_height o mod 2 ^ 16) (o_pts o))).

(* appending to the log *)
(* no code of its own: the record of the calls in src/fb.c:200-249 *)
Definition note (evs : list event) (o : open) : open :=
  mk_open (o_enc o) (o_pending o) (o_pts o) (o_width o) (o_height o) (o_format o) (o_reset o)
    (o_quality o) (o_quality_changed o) (o_x o) (o_y o) (o_dying o) (o_gone o) (o_log o ++ evs).

(* src/enc/h264/open-h264.c:69-91; encoder_finish_frame with NULL leads to
   frame->n_rects at src/server.c:2508 *)
Definition handle_packet (o : open) (data : list Z) (pts : Z) : res open :=
  if 100000000 <? zlen (o_pending o) then Ok o
  else
    let o := mk_open (o_enc o) (o_pending o ++ data) pts (o_width o) (o_height o) (o_format o)
               (o_reset o) (o_quality o) (o_quality_changed o) (o_x o) (o_y o) (o_dying o)
               (o_gone o) (o_log o) in
    match open_h264_pull o with
    | (_, None) => Fault NullDeref
    | (o, Some e) => Ok (note [e] o)
    end.

(* src/enc/h264/open-h264.c:136; round goes away from zero at halves *)
Definition qp_of (quality : Z) : Z := 51 - (100 * quality + 9) / 18.

(* src/enc/h264/open-h264.c:134-158; [ok]: h264_encoder_create succeeds.  None for -1. *)
Definition open_h264_resize (o : open) (f : frame) (ok : bool) : option open :=
  if ok then
    Some (mk_open (Some (codec_new (qp_of (o_quality o)))) (o_pending o) (o_pts o) (f_width f)
            (f_height f) (f_format f) true (o_quality o) false (o_x o) (o_y o)
            (o_dying o ++ match o_enc o with
                          | Some k => match codec_destroy k with Some k => [k] | None => [] end
                          | None => [] end)
            (o_gone o) (o_log o))
  else None.

(* src/enc/h264/open-h264.c:160-180: the encoder and the return value *)
Definition open_h264_encode (o : open) (f : frame) (ok : bool) : res (open * Z) :=
  let resize := negb (f_width f =? o_width o) || negb (f_height f =? o_height o) ||
                negb (f_format f =? o_format o) || o_quality_changed o in
  match (if resize then open_h264_resize o f ok else Some o) with
  | None => Ok (o, -1)
  | Some o =>
      if (o_width o =? 0) || (o_height o =? 0) then Fault AssertFail
      else match o_enc o with
      | None => Fault NullDeref
      | Some k =>
          let* r := codec_feed k f in
          Ok (note (snd r) (mk_open (Some (fst r)) (o_pending o) (o_pts o) (o_width o) (o_height o)
                (o_format o) (o_reset o) (o_quality o) (o_quality_changed o) (o_x o) (o_y o)
                (o_dying o) (o_gone o) (o_log o)), 0)
      end
  end.

(* src/enc/h264/open-h264.c:220-224 *)
Definition open_h264_request_keyframe (o : open) : res open :=
  match o_enc o with
  | None => Fault NullDeref
  | Some k =>
      Ok (mk_open (Some (request_keyframe k)) (o_pending o) (o_pts o) (o_width o) (o_height o)
            (o_format o) (o_reset o) (o_quality o) (o_quality_changed o) (o_x o) (o_y o)
            (o_dying o) (o_gone o) (o_log o))
  end.

(* src/enc/h264/open-h264.c:226-233 *)
Definition open_h264_set_quality (o : open) (value : Z) : open :=
  let value := if value =? 10 then 6 else value in
  mk_open (o_enc o) (o_pending o) (o_pts o) (o_width o) (o_height o) (o_format o) (o_reset o) value
    (o_quality_changed o || negb (o_quality o =? value)) (o_x o) (o_y o) (o_dying o) (o_gone o) (o_log o).

(* src/enc/h264/open-h264.c:123-132 *)
Definition open_h264_destroy (o : open) : open :=
  mk_open None (o_pending o) (o_pts o) (o_width o) (o_height o) (o_format o) (o_reset o)
    (o_quality o) (o_quality_changed o) (o_x o) (o_y o)
    (o_dying o ++ match o_enc o with
                  | Some k => match codec_destroy k with Some k => [k] | None => [] end
                  | None => [] end) true (o_log o).

(** ** What happens to it *)

(* calls of src/server.c:863-1009 (Encode, Key, Quality) and 141-203 (Destroy), and the
   event loop's on_work_done, of the encoder in use (Done) or of the oldest encoder that
   is waiting to be destroyed (DoneOld) *)
Inductive op :=
| Encode (f : frame) (ok : bool) | Done (packet : list Z) | DoneOld (packet : list Z)
| Key | Quality (v : Z) | Destroy.

(* one of them; src/enc/h264/open-h264.c:69-233 *)
Definition step (o : open) (a : op) : res open :=
  match a with
  | DoneOld p =>
      match o_dying o with
      | [] => Fault NullDeref
      | k :: l =>
          let* r := on_work_done k p in
          let '(k, evs, _) := r in
          Ok (note evs (mk_open (o_enc o) (o_pending o) (o_pts o) (o_width o) (o_height o) (o_format o)
                (o_reset o) (o_quality o) (o_quality_changed o) (o_x o) (o_y o)
                (match k with Some k => k :: l | None => l end) (o_gone o) (o_log o)))
      end
  | _ =>
      if o_gone o then Fault UseAfterFree
      else match a with
      | Encode f ok => let* r := open_h264_encode o f ok in Ok (fst r)
      | Done p =>
          match o_enc o with
          | None => Fault NullDeref
          | Some k =>
              let* r := on_work_done k p in
              let '(k, evs, packet) := r in
              let o := note evs (mk_open k (o_pending o) (o_pts o) (o_width o) (o_height o) (o_format o)
                         (o_reset o) (o_quality o) (o_quality_changed o) (o_x o) (o_y o)
                         (o_dying o) (o_gone o) (o_log o)) in
              match packet with
              | None => Ok o
              | Some (data, pts) => handle_packet o data pts
              end
          end
      | Key => open_h264_request_keyframe o
      | Quality v => Ok (open_h264_set_quality o v)
      | _ => Ok (open_h264_destroy o)
      end
  end.

(* any sequence of them *)
(* src/enc/h264/open-h264.c:69-233 *)
Fixpoint run (o : open) (l : list op) : res open :=
  match l with
  | [] => Ok o
  | a :: l => let* o := step o a in run o l
  end.

(** ** Pixel formats *)

(* the eight formats of src/enc/h264/ffmpeg-impl.c:89-101 by their names in drm_fourcc.h *)
Inductive drm := XRGB8888 | ARGB8888 | XBGR8888 | ABGR8888 | RGBX8888 | RGBA8888 | BGRX8888 | BGRA8888.
(* FFmpeg's names used at src/enc/h264/ffmpeg-impl.c:87-105 *)
Inductive av := AV_BGR0 | AV_RGB0 | AV_0BGR | AV_0RGB.
(* V4L2's names used at src/enc/h264/v4l2m2m-impl.c:159-211 *)
Inductive v4l2 := RGBX32 | RGBA32 | XRGB32 | ARGB32 | RGB32 | XBGR32 | ABGR32 | BGR32 | BGRX32 | BGRA32.

(* src/enc/h264/ffmpeg-impl.c:87-105 *)
Definition drm_to_av (f : drm) : av :=
  match f with
  | XRGB8888 | ARGB8888 => AV_BGR0
  | XBGR8888 | ABGR8888 => AV_RGB0
  | RGBX8888 | RGBA8888 => AV_0BGR
  | BGRX8888 | BGRA8888 => AV_0RGB
  end.

(* src/enc/h264/v4l2m2m-impl.c:163-189: the formats tried, in this order *)
Definition v4l2_candidates (f : drm) : list v4l2 :=
  match f with
  | RGBX8888 | RGBA8888 => [RGBX32; RGBA32]
  | XRGB8888 | ARGB8888 => [XRGB32; ARGB32; RGB32]
  | BGRX8888 | BGRA8888 => [XBGR32; ABGR32; BGR32]
  | XBGR8888 | ABGR8888 => [BGRX32; BGRA32]
  end.

(* src/enc/h264/v4l2m2m-impl.c:159-194; [have]: the formats the device supports *)
Definition v4l2_format_from_drm (have : v4l2 -> bool) (f : drm) : option v4l2 :=
  find have (v4l2_candidates f).

(** ** Source buffers of the V4L2 encoder *)

(* src/enc/h264/v4l2m2m-impl.c:98-105: the do-while loop; [count] is the number of
   buffers still to look at after this one, [i] the buffer to look at.  The last buffer
   looked at and the next index. *)
Fixpoint look (taken : list bool) (count i : nat) : nat * nat :=
  let next := Nat.modulo (i + 1) (length taken) in
  match count with
  | O => (i, next)
  | S count => if nth i taken false then look taken count next else (i, next)
  end.

(* src/enc/h264/v4l2m2m-impl.c:93-112: the buffer taken and the new src_buf_index *)
Definition take_src_buffer (taken : list bool) (index : nat) : option (nat * nat) :=
  let '(b, next) := look taken (length taken - 1) index in
  if nth b taken false then None else Some (b, next).
