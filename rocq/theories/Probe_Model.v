(** Finding and setting up a V4L2 device for H.264: src/enc/h264/v4l2m2m-impl.c:123-326,
    397-452, 520-716.

    The kernel and the event loop are a parameter: what each ioctl, open, mmap and
    aml_start answers.  What a driver enumerates is a finite list.  Simplifications: the
    fields of struct v4l2_format that are only passed through are left out, and so are the
    answers that are ignored (VIDIOC_S_CTRL, fcntl, STREAMON of the output queue). *)
From Coq Require Import String.
From Verif Require Import Common Pixels_Model.
Open Scope string_scope.
Open Scope list_scope.
Open Scope Z_scope.

(* <linux/videodev2.h>, used in src/enc/h264/v4l2m2m-impl.c:165-215, 268, 553 *)
Definition V4L2_RGBX32 : Z := fourcc "XB24".
(* the same *)
(* src/enc/h264/v4l2m2m-impl.c:170 *)
Definition V4L2_RGBA32 : Z := fourcc "AB24".
(* src/enc/h264/v4l2m2m-impl.c:174 *)
Definition V4L2_XRGB32 : Z := fourcc "BX24".
(* src/enc/h264/v4l2m2m-impl.c:175 *)
Definition V4L2_ARGB32 : Z := fourcc "BA24".
(* src/enc/h264/v4l2m2m-impl.c:176 *)
Definition V4L2_RGB32 : Z := fourcc "RGB4".
(* src/enc/h264/v4l2m2m-impl.c:180 *)
Definition V4L2_XBGR32 : Z := fourcc "XR24".
(* src/enc/h264/v4l2m2m-impl.c:181 *)
Definition V4L2_ABGR32 : Z := fourcc "AR24".
(* src/enc/h264/v4l2m2m-impl.c:182 *)
Definition V4L2_BGR32 : Z := fourcc "BGR4".
(* src/enc/h264/v4l2m2m-impl.c:186 *)
Definition V4L2_BGRX32 : Z := fourcc "RX24".
(* src/enc/h264/v4l2m2m-impl.c:187 *)
Definition V4L2_BGRA32 : Z := fourcc "RA24".
(* src/enc/h264/v4l2m2m-impl.c:268, 553 *)
Definition V4L2_H264 : Z := fourcc "H264".

(* struct v4l2_frmsizeenum, src/enc/h264/v4l2m2m-impl.c:571-586 *)
Inductive frmsize :=
| Discrete (w h : Z)
| Stepwise (min_w max_w step_w min_h max_h step_h : Z) (* continuous as well *)
| OtherSize.

(* what the kernel says about one device; the ioctls at the lines given *)
(* src/enc/h264/v4l2m2m-impl.c:130-452, 541-699 *)
Record device := mk_device {
  d_caps : option Z;          (* QUERYCAP, 595; None: error *)
  d_driver : list Z;          (* cap.driver, 663 *)
  d_out : list Z;             (* ENUM_FMT, 139 *)
  d_capture : list Z;         (* ENUM_FMT, 549 *)
  d_sizes : list frmsize;     (* ENUM_FRAMESIZES, 567 *)
  d_src_fmt : bool * bool;    (* G_FMT 235, S_FMT 245 *)
  d_dst_fmt : bool * bool;    (* G_FMT 261, S_FMT 271 *)
  d_dst_count : option Z;     (* REQBUFS, 289: the number of buffers it made *)
  d_query_dst : Z -> bool;    (* QUERYBUF, 303 *)
  d_mmap : Z -> bool;         (* mmap, 307 *)
  d_src_req : bool;           (* REQBUFS, 432 *)
  d_query_src : Z -> bool;    (* QUERYBUF, 446 *)
  d_qbuf : Z -> bool;         (* QBUF, 323 *)
  d_stream_on : bool;         (* STREAMON, 420 *)
  d_start : bool              (* aml_start, 692 *)
}.

(* an entry of /dev and what open gives: the descriptor and the device behind it *)
(* src/enc/h264/v4l2m2m-impl.c:618-630 *)
Record entry := mk_entry { e_name : list Z; e_open : option (Z * device) }.

(* what is done that outlives a call *)
(* src/enc/h264/v4l2m2m-impl.c:235-245, 268-271, 307, 320, 640, 702 *)
Inductive event :=
| Opened (fd : Z) | Closed (fd : Z) | Mapped (i : Z) | Unmapped (i : Z)
| SrcFormat (fmt w h : Z) | DstFormat (w h : Z) | Queued (i : Z).

(* src/enc/h264/v4l2m2m-impl.c:130-151: formats[256] at 217 is written without regard to
   max_len *)
Fixpoint fill (i : Z) (l : list Z) : res (list Z) :=
  match l with
  | [] => Ok []
  | f :: l => if 256 <=? i then Fault OobWrite else let* r := fill (i + 1) l in Ok (f :: r)
  end.

(* qsort with u32_cmp: some sort *)
(* src/enc/h264/v4l2m2m-impl.c:123-128, 148 *)
Fixpoint insert (v : Z) (l : list Z) : list Z :=
  match l with
  | [] => [v]
  | a :: r => if v <=? a then v :: l else a :: insert v r
  end.
(* src/enc/h264/v4l2m2m-impl.c:148 *)
Definition sort (l : list Z) : list Z := fold_right insert [] l.

(* src/enc/h264/v4l2m2m-impl.c:130-151 *)
Definition get_supported_formats (d : device) : res (list Z) :=
  let* l := fill 0 (d_out d) in Ok (sort l).

(* bsearch: the loop of the C library, elements from [lo] to before [hi] *)
(* src/enc/h264/v4l2m2m-impl.c:153-157 *)
Fixpoint search (fuel : nat) (l : list Z) (lo hi : nat) (v : Z) : bool :=
  match fuel with
  | O => false
  | S fuel =>
      if (hi <=? lo)%nat then false else
      let mid := ((lo + hi) / 2)%nat in
      let a := nth mid l 0 in
      if v <? a then search fuel l lo mid v
      else if a <? v then search fuel l (S mid) hi v
      else true
  end.
(* src/enc/h264/v4l2m2m-impl.c:153-157 *)
Definition have_v4l2_format (l : list Z) (v : Z) : bool := search (S (length l)) l 0 (length l) v.

(* TRY_FORMAT, src/enc/h264/v4l2m2m-impl.c:162-164 *)
Fixpoint try_formats (l : list Z) (tries : list Z) : Z :=
  match tries with
  | [] => 0
  | f :: tries => if have_v4l2_format l f then f else try_formats l tries
  end.

(* src/enc/h264/v4l2m2m-impl.c:159-194 *)
Definition v4l2_format_from_drm (l : list Z) (drm : Z) : Z :=
  if (drm =? fourcc "RX24") || (drm =? fourcc "RA24") then try_formats l [V4L2_RGBX32; V4L2_RGBA32]
  else if (drm =? fourcc "XR24") || (drm =? fourcc "AR24") then try_formats l [V4L2_XRGB32; V4L2_ARGB32; V4L2_RGB32]
  else if (drm =? fourcc "BX24") || (drm =? fourcc "BA24") then try_formats l [V4L2_XBGR32; V4L2_ABGR32; V4L2_BGR32]
  else if (drm =? fourcc "XB24") || (drm =? fourcc "AB24") then try_formats l [V4L2_BGRX32; V4L2_BGRA32]
  else 0.

(* src/enc/h264/v4l2m2m-impl.c:196-211 *)
Definition v4l2_format_from_drm_bcm2835 (drm : Z) : Z :=
  if (drm =? fourcc "XR24") || (drm =? fourcc "AR24") then V4L2_RGBA32
  else if (drm =? fourcc "BX24") || (drm =? fourcc "BA24") then V4L2_BGR32
  else 0.

(* ALIGN_UP on uint32_t, src/enc/h264/v4l2m2m-impl.c:35-36 *)
Definition align16 (v : Z) : Z := (16 * ((v + 15) mod 2 ^ 32 / 16)) mod 2 ^ 32.

(* strcmp with "bcm2835-codec", src/enc/h264/v4l2m2m-impl.c:222: the 14th byte read is the
   last, so that it does not matter whether the 16 bytes copied at 664 end with a zero *)
Fixpoint same (a b : list Z) : bool :=
  match a, b with
  | [], [] => true
  | x :: a, y :: b => (x =? y) && same a b
  | _, _ => false
  end.
(* src/enc/h264/v4l2m2m-impl.c:222 *)
Definition is_bcm2835 (d : device) : bool := same (firstn 14 (d_driver d)) (codes "bcm2835-codec" ++ [0]).

(* src/enc/h264/v4l2m2m-impl.c:213-252; false for -1 *)
Definition set_src_fmt (d : device) (w h drm : Z) : res (bool * list event) :=
  let* formats := get_supported_formats d in
  let format := if is_bcm2835 d then v4l2_format_from_drm_bcm2835 drm else v4l2_format_from_drm formats drm in
  if format =? 0 then Ok (false, [])
  else if negb (fst (d_src_fmt d)) then Ok (false, [])
  else if negb (snd (d_src_fmt d)) then Ok (false, [])
  else Ok (true, [SrcFormat format (align16 w) (align16 h)]).

(* src/enc/h264/v4l2m2m-impl.c:254-277 *)
Definition set_dst_fmt (d : device) (w h : Z) : bool * list event :=
  if fst (d_dst_fmt d) && snd (d_dst_fmt d) then (true, [DstFormat w h]) else (false, []).

(* src/enc/h264/v4l2m2m-impl.c:293-314, from buffer [i] on; dst_bufs has three elements,
   line 71 *)
Fixpoint map_dst (d : device) (n : nat) (i : Z) : res (bool * list event) :=
  match n with
  | O => Ok (true, [])
  | S n =>
      if 3 <=? i then Fault OobWrite
      else if negb (d_query_dst d i) then Ok (false, [])
      else if negb (d_mmap d i) then Ok (false, [])
      else let* r := map_dst d n (i + 1) in Ok (fst r, Mapped i :: snd r)
  end.
(* src/enc/h264/v4l2m2m-impl.c:279-317 *)
Definition alloc_dst_buffers (d : device) : res (bool * list event) :=
  match d_dst_count d with
  | None => Ok (false, [])
  | Some n => map_dst d (Z.to_nat n) 0
  end.

(* src/enc/h264/v4l2m2m-impl.c:423-452 *)
Definition alloc_src_buffers (d : device) : bool :=
  d_src_req d && d_query_src d 0 && d_query_src d 1 && d_query_src d 2.

(* src/enc/h264/v4l2m2m-impl.c:319-326: a buffer that alloc_dst_buffers did not reach is
   all zeros, of no type; the kernel refuses it *)
Fixpoint enqueue_dst (d : device) (n : nat) (i : Z) : res (list event) :=
  match n with
  | O => Ok []
  | S n =>
      if (match d_dst_count d with Some k => i <? k | None => false end) && d_qbuf d i
      then let* r := enqueue_dst d n (i + 1) in Ok (Queued i :: r)
      else Fault AssertFail
  end.

(* src/enc/h264/v4l2m2m-impl.c:541-557 *)
Definition can_encode_to_h264 (d : device) : bool := existsb (Z.eqb V4L2_H264) (d_capture d).

(* src/enc/h264/v4l2m2m-impl.c:559-590; 16 % step *)
Fixpoint can_handle_frame_size (l : list frmsize) (w h : Z) : res bool :=
  match l with
  | [] => Ok false
  | Discrete a b :: l => if (a =? w) && (b =? h) then Ok true else can_handle_frame_size l w h
  | Stepwise min_w max_w step_w min_h max_h step_h :: l =>
      if (min_w <=? w) && (w <=? max_w) && (min_h <=? h) && (h <=? max_h) then
        if step_w =? 0 then Fault DivByZero
        else if 16 mod step_w =? 0 then
          if step_h =? 0 then Fault DivByZero
          else if 16 mod step_h =? 0 then Ok true else can_handle_frame_size l w h
        else can_handle_frame_size l w h
      else can_handle_frame_size l w h
  | OtherSize :: l => can_handle_frame_size l w h
  end.

(* V4L2_CAP_VIDEO_M2M_MPLANE and V4L2_CAP_STREAMING, src/enc/h264/v4l2m2m-impl.c:599 *)
Definition required_caps : Z := Z.lor 16384 67108864.

(* src/enc/h264/v4l2m2m-impl.c:592-610 *)
Definition is_device_capable (d : device) (w h : Z) : res bool :=
  match d_caps d with
  | None => Ok false
  | Some caps =>
      if negb (Z.land caps required_caps =? required_caps) then Ok false
      else if negb (can_encode_to_h264 d) then Ok false
      else can_handle_frame_size (d_sizes d) w h
  end.

(* src/enc/h264/v4l2m2m-impl.c:612-644 *)
Fixpoint find_capable_device (dev : list entry) (w h : Z) : res (option (Z * device) * list event) :=
  match dev with
  | [] => Ok (None, [])
  | e :: dev =>
      if negb (same (firstn 5 (e_name e)) (codes "video")) then find_capable_device dev w h
      else match e_open e with
      | None => find_capable_device dev w h
      | Some (fd, d) =>
          let* ok := is_device_capable d w h in
          if ok : bool then Ok (Some (fd, d), [Opened fd])
          else
            let* r := find_capable_device dev w h in
            Ok (fst r, Opened fd :: Closed fd :: snd r)
      end
  end.

(* the label failure, src/enc/h264/v4l2m2m-impl.c:700-704 *)
Definition give_up (fd : Z) (l : list event) : res (option (Z * device) * list event) :=
  Ok (None, l ++ [Closed fd]).

(* src/enc/h264/v4l2m2m-impl.c:646-705 *)
Definition create (dev : list entry) (w h drm : Z) : res (option (Z * device) * list event) :=
  let* found := find_capable_device dev w h in
  match found with
  | (None, l) => Ok (None, l)
  | (Some (fd, d), l) =>
      let* src := set_src_fmt d w h drm in
      let l := l ++ snd src in
      if negb (fst src) then give_up fd l else
      let dst := set_dst_fmt d w h in
      let l := l ++ snd dst in
      if negb (fst dst) then give_up fd l else
      let* bufs := alloc_dst_buffers d in
      let l := l ++ snd bufs in
      if negb (fst bufs) then give_up fd l else
      if negb (alloc_src_buffers d) then give_up fd l else
      let* q := enqueue_dst d 3 0 in
      let l := l ++ q in
      if negb (d_stream_on d) then give_up fd l else
      if negb (d_start d) then give_up fd l else
      Ok (Some (fd, d), l)
  end.

(* src/enc/h264/v4l2m2m-impl.c:406-412, 718-729: all three, mapped or not *)
Definition destroy (fd : Z) : list event := [Unmapped 0; Unmapped 1; Unmapped 2; Closed fd].
