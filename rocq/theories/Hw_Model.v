(** Making, using and destroying the FFmpeg encoder's resources:
    src/enc/h264/ffmpeg-impl.c:107-175, 203-351, 370-488, 493-614.

    What libdrm, GBM and FFmpeg answer is an input ([lib], [answers]).  An [AVBufferRef]
    counts references; a frames context has one to its device from av_hwframe_ctx_alloc
    on, a filter graph those it was given.  References inside FFmpeg (to the device that
    hwmap derives, and of the codec to the frames that come out of the graph) are not
    modelled.  The queue of buffers, the schedule and the packet handler are in
    H264_Model.v.  AVFilterInOut lists belong to avfilter_graph_parse, which frees them
    whether it succeeds or not. *)
From Verif Require Import Common.

(** ** The device *)

(* one drmDevice: [Some path] if available_nodes has the render node's bit,
   src/enc/h264/ffmpeg-impl.c:499-501 *)
Definition device := option (list Z).

(* src/enc/h264/ffmpeg-impl.c:532: char render_node[64], not initialised *)
Definition fresh_node : list (option Z) := repeat None 64.

(* strncpy(node, path, n), src/enc/h264/ffmpeg-impl.c:503: up to the terminator, then
   zeros; [path] has none *)
Definition strncpy (n : nat) (path : list Z) : list (option Z) :=
  map Some (firstn n path ++ repeat 0 (n - length path)).

(* src/enc/h264/ffmpeg-impl.c:493-511: the returned value and the buffer.  [r] is a bool,
   so that -1 becomes 1. *)
Fixpoint find_render_node (maxlen : nat) (node : list (option Z)) (devices : list device) : Z * list (option Z) :=
  match devices with
  | [] => (1, node)
  | None :: devices => find_render_node maxlen node devices
  | Some path :: _ => (0, strncpy (maxlen - 1) path ++ [Some 0])
  end.

(* what a reader of a C string at [node] sees, called with the buffer of
   src/enc/h264/ffmpeg-impl.c:536-537 *)
Fixpoint node_path (node : list (option Z)) : res (list Z) :=
  match node with
  | [] => Fault OobRead
  | None :: _ => Fault Uninit
  | Some c :: node => if c =? 0 then Ok [] else let* l := node_path node in Ok (c :: l)
  end.

(** ** What is held *)

(* struct h264_encoder_ffmpeg, src/enc/h264/ffmpeg-impl.c:53-83, as far as it owns
   things: itself, current_packet, work; references to hw_device_ctx and hw_frames_ctx,
   all of them and not just its own; filter_graph with the references to the two that it
   has; codec_ctx *)
Record kit := mk_kit {
  k_self : bool; k_packet : bool; k_work : bool; k_dev : nat; k_frames : nat; k_has_frames : bool;
  k_graph : option (nat * nat); k_codec : bool }.
(* before src/enc/h264/ffmpeg-impl.c:518, calloc *)
Definition nothing : kit := mk_kit false false false 0 0 false None false.

(* the answers of the libraries to src/enc/h264/ffmpeg-impl.c:513-580 in their order:
   calloc, vec_init and aml_work_new; drmGetDevices2 (devices, or none if it fails);
   av_hwdevice_ctx_create, given the path; the format known to drm_to_av_pixel_format
   (87-105); avcodec_find_encoder_by_name; av_hwframe_ctx_alloc and _init (337-348);
   avfilter_graph_alloc (243-245); of the source 210-235: avfilter_graph_create_filter,
   av_buffersrc_parameters_alloc and _set; the sink (251-255), the two avfilter_inout_alloc
   (257-270), avfilter_graph_parse (277-284), the number of filters then in the graph,
   avfilter_graph_config (293-295) given whether the source has a frames context;
   avcodec_alloc_context3 (307-309); whether av_buffersink_get_hw_frames_ctx has one
   (565-566); avcodec_open2 *)
Record lib := mk_lib {
  l_self : bool; l_packet : bool; l_work : bool; l_devices : list device; l_device : list Z -> bool;
  l_format : bool; l_find : bool; l_frames : bool; l_frames_init : bool; l_graph : bool;
  l_source : bool; l_params : bool; l_params_set : bool; l_sink : bool; l_inputs : bool; l_outputs : bool;
  l_parse : bool; l_filters : nat; l_config : bool -> bool; l_codec : bool; l_sink_frames : bool; l_open : bool }.

(* av_buffer_unref of hw_device_ctx, e.g. src/enc/h264/ffmpeg-impl.c:587 *)
Definition unref_dev (k : kit) : kit :=
  mk_kit (k_self k) (k_packet k) (k_work k) (k_dev k - 1) (k_frames k) (k_has_frames k) (k_graph k) (k_codec k).
(* av_buffer_unref of a reference to the frames context; the last one lets go of the
   device: e.g. src/enc/h264/ffmpeg-impl.c:583 *)
Definition unref_frames (k : kit) : kit :=
  mk_kit (k_self k) (k_packet k) (k_work k) (if (k_frames k =? 1)%nat then k_dev k - 1 else k_dev k) (k_frames k - 1)
    (k_has_frames k) (k_graph k) (k_codec k).
(* av_buffer_unref(&self->hw_frames_ctx), which does nothing for NULL and clears the
   pointer: src/enc/h264/ffmpeg-impl.c:347-348, 583, 608 *)
Definition drop_frames (k : kit) : kit :=
  if k_has_frames k
  then let k := unref_frames k in
    mk_kit (k_self k) (k_packet k) (k_work k) (k_dev k) (k_frames k) false (k_graph k) (k_codec k)
  else k.
(* avfilter_graph_free, src/enc/h264/ffmpeg-impl.c:300, 611 *)
Definition free_graph (k : kit) : kit :=
  match k_graph k with
  | None => k
  | Some (d, f) =>
      let k := mk_kit (k_self k) (k_packet k) (k_work k) (k_dev k - d) (k_frames k) (k_has_frames k) None (k_codec k) in
      Nat.iter f unref_frames k
  end.
(* the end of src/enc/h264/ffmpeg-impl.c:588-595: work, vector and struct *)
Definition free_rest (k : kit) : kit :=
  mk_kit false false false (k_dev k) (k_frames k) (k_has_frames k) (k_graph k) (k_codec k).

(* src/enc/h264/ffmpeg-impl.c:335-351: 0 also if av_hwframe_ctx_init fails *)
Definition init_hw_frames (L : lib) (k : kit) : bool * kit :=
  if l_frames L
  then let k := mk_kit (k_self k) (k_packet k) (k_work k) (k_dev k + 1) 1 true (k_graph k) (k_codec k) in
    (true, if l_frames_init L then k else drop_frames k)
  else (false, k).

(* src/enc/h264/ffmpeg-impl.c:203-237 *)
Definition init_buffersrc (L : lib) (k : kit) : res (bool * kit) :=
  if negb (l_source L) then Ok (false, k)
  else if negb (l_params L) then Ok (false, k)
  else if negb (l_params_set L) then Fault AssertFail
  else Ok (true,
    if k_has_frames k
    then mk_kit (k_self k) (k_packet k) (k_work k) (k_dev k) (k_frames k + 1) (k_has_frames k) (Some (0%nat, 1%nat)) (k_codec k)
    else k).

(* src/enc/h264/ffmpeg-impl.c:239-302 *)
Definition init_filters (L : lib) (k : kit) : res (bool * kit) :=
  if negb (l_graph L) then Ok (false, k)
  else
    let k := mk_kit (k_self k) (k_packet k) (k_work k) (k_dev k) (k_frames k) (k_has_frames k) (Some (0%nat, 0%nat)) (k_codec k) in
    let* s := init_buffersrc L k in
    let '(ok, k) := s in
    if negb (ok && l_sink L && l_inputs L && l_outputs L && l_parse L) then Ok (false, free_graph k)
    else
      let f := match k_graph k with Some (_, f) => f | None => 0%nat end in
      let k := mk_kit (k_self k) (k_packet k) (k_work k) (k_dev k + l_filters L) (k_frames k) (k_has_frames k)
                 (Some (l_filters L, f)) (k_codec k) in
      if negb (l_config L (k_has_frames k)) then Ok (false, free_graph k)
      else Ok (true, k).

(* src/enc/h264/ffmpeg-impl.c:513-596: whether there is an encoder, and what is held then *)
Definition create (L : lib) : res (bool * kit) :=
  if negb (l_self L) then Ok (false, nothing)
  else if negb (l_packet L) then Ok (false, nothing)
  else if negb (l_work L) then Ok (false, nothing)
  else
    let k := mk_kit true true true 0 0 false None false in
    let '(r, node) := find_render_node 64 fresh_node (l_devices L) in
    if r <? 0 then Ok (false, free_rest k)
    else
      let* path := node_path node in
      if negb (l_device L path) then Ok (false, free_rest k)
      else
        let k := mk_kit true true true 1 0 false None false in
        if negb (l_format L) then Ok (false, free_rest (unref_dev k))
        else if negb (l_find L) then Ok (false, free_rest (unref_dev k))
        else
          let '(ok, k) := init_hw_frames L k in
          if negb ok then Ok (false, free_rest (unref_dev k))
          else
            let* s := init_filters L k in
            let '(ok, k) := s in
            if negb ok then Ok (false, free_rest (unref_dev (drop_frames k)))
            else if negb (l_codec L) then Ok (false, free_rest (unref_dev (drop_frames k)))
            else if negb (l_sink_frames L) then Fault NullDeref
            else if negb (l_open L) then Ok (false, free_rest (unref_dev (drop_frames k)))
            else Ok (true, mk_kit true true true (k_dev k) (k_frames k) (k_has_frames k) (k_graph k) true).

(* src/enc/h264/ffmpeg-impl.c:607-613, when no frame is being encoded *)
Definition destroy (k : kit) : kit :=
  let k := drop_frames k in
  let k := mk_kit (k_self k) (k_packet k) (k_work k) (k_dev k) (k_frames k) (k_has_frames k) (k_graph k) false in
  free_rest (free_graph (unref_dev k)).

(** ** A frame *)

(* the answers for one frame: the file descriptors that gbm_bo_get_fd_for_plane opens for
   the planes (135), av_frame_alloc and av_buffer_create (145-163); then of
   src/enc/h264/ffmpeg-impl.c:370-409 av_buffersrc_add_frame_flags, av_frame_alloc,
   av_buffersink_get_frame, avcodec_send_frame, the packets avcodec_receive_packet gives
   and the code it ends with *)
Record answers := mk_answers {
  a_fds : list Z; a_frame : bool; a_buffer : bool;
  a_add : Z; a_alloc : bool; a_get : Z; a_send : Z; a_packets : list (list Z); a_end : Z }.
(* AVERROR(EAGAIN), src/enc/h264/ffmpeg-impl.c:415 *)
Definition eagain : Z := -11.
(* AV_DRM_MAX_PLANES of libavutil/hwcontext_drm.h: the room in a descriptor for the loop of
   src/enc/h264/ffmpeg-impl.c:132-143 *)
Definition max_planes : nat := 4.

(* file descriptors opened and closed, src/enc/h264/ffmpeg-impl.c:135 and 113 *)
Inductive event := Opened (fd : Z) | Closed (fd : Z).

(* src/enc/h264/ffmpeg-impl.c:132-143: objects[i].fd for each plane *)
Fixpoint open_planes (fds : list Z) (objects : list Z) : res (list Z * list event) :=
  match fds with
  | [] => Ok (objects, [])
  | fd :: fds =>
      if (max_planes <=? length objects)%nat then Fault OobWrite
      else let* r := open_planes fds (objects ++ [fd]) in Ok (fst r, Opened fd :: snd r)
  end.
(* src/enc/h264/ffmpeg-impl.c:107-116 *)
Definition desc_free (objects : list Z) : list event := map Closed objects.

(* src/enc/h264/ffmpeg-impl.c:119-175: the descriptor's objects if there is a frame *)
Definition fb_to_avframe (A : answers) : res (option (list Z) * list event) :=
  let* d := open_planes (a_fds A) [] in
  let '(objects, ev) := d in
  if negb (a_frame A) then Ok (None, ev ++ desc_free objects)
  else if negb (a_buffer A) then Ok (None, ev ++ desc_free objects)
  else Ok (Some objects, ev).

(* src/enc/h264/ffmpeg-impl.c:370-416: the result and current_packet *)
Definition encode (A : answers) (packet : list Z) : res (Z * list Z) :=
  let code rc := if rc =? eagain then 0 else rc in
  if negb (a_add A =? 0) then Ok (-1, packet)
  else if negb (a_alloc A) then Ok (-1, packet)
  else if negb (a_get A =? 0) then Ok (code (a_get A), packet)
  else if negb (a_send A =? 0) then Ok (code (a_send A), packet)
  else
    let packet := packet ++ concat (a_packets A) in
    if match packet with c :: _ => negb (c =? 0) | [] => false end then Fault AssertFail
    else Ok (code (a_end A), packet).

(* src/enc/h264/ffmpeg-impl.c:418-454: current_packet and the events; the descriptor goes
   with the frame (452-453), FFmpeg having let go of it.  [has_frames]: hw_frames_ctx is
   not NULL, 425 *)
Definition do_work (has_frames : bool) (A : answers) (packet : list Z) : res (list Z * list event) :=
  let* f := fb_to_avframe A in
  match fst f with
  | None => Fault AssertFail
  | Some objects =>
      if negb has_frames then Fault NullDeref
      else let* r := encode A packet in Ok (snd r, snd f ++ desc_free objects)
  end.

(* src/enc/h264/ffmpeg-impl.c:471-488: what is handed on, and current_packet then *)
Definition hand_on (packet : list Z) : list (list Z) * list Z :=
  match packet with [] => ([], []) | _ => ([packet], []) end.

(* works one after the other, src/enc/h264/ffmpeg-impl.c:353-368 seeing to that: the
   packets handed on, current_packet and the events *)
Fixpoint works (has_frames : bool) (l : list answers) (packet : list Z) : res (list (list Z) * list Z * list event) :=
  match l with
  | [] => Ok ([], packet, [])
  | A :: l =>
      let* r := do_work has_frames A packet in
      let '(out, packet) := hand_on (fst r) in
      let* r' := works has_frames l packet in
      let '(outs, packet, ev) := r' in
      Ok (out ++ outs, packet, snd r ++ ev)
  end.
