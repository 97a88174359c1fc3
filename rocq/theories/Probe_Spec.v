(** What is expected of finding and setting up a V4L2 device.  Nothing here uses the
    functions of the model but [create] and its inputs. *)
From Coq Require Import String.
From Verif Require Import Common Pixels_Model Probe_Model.
Open Scope string_scope.
Open Scope list_scope.
Open Scope Z_scope.

(** A multi-planar streaming memory-to-memory device that makes H.264 of the size. *)
Definition takes_size (s : frmsize) (w h : Z) : Prop :=
  match s with
  | Discrete a b => a = w /\ b = h
  | Stepwise min_w max_w step_w min_h max_h step_h =>
      min_w <= w <= max_w /\ min_h <= h <= max_h /\ (step_w | 16) /\ (step_h | 16)
  | OtherSize => False
  end.
Definition capable (d : device) (w h : Z) : Prop :=
  (exists caps, d_caps d = Some caps /\ Z.testbit caps 14 = true /\ Z.testbit caps 26 = true) /\
  In (fourcc "H264") (d_capture d) /\ exists s, In s (d_sizes d) /\ takes_size s w h.

(** A file in /dev that can be opened. *)
Definition video (e : entry) (fd : Z) (d : device) : Prop :=
  (exists rest, e_name e = codes "video" ++ rest) /\ e_open e = Some (fd, d).

(** What is still open and mapped after the events. *)
Fixpoint remove_one (v : Z) (l : list Z) : list Z :=
  match l with [] => [] | a :: l => if a =? v then l else a :: remove_one v l end.
Definition files (l : list event) : list Z :=
  fold_left (fun open e => match e with
    | Opened fd => fd :: open | Closed fd => remove_one fd open | _ => open end) l [].
Definition mappings (l : list event) : list Z :=
  fold_left (fun open e => match e with
    | Mapped i => i :: open | Unmapped i => remove_one i open | _ => open end) l [].

(** Devices whose sizes have steps. *)
Definition steps_given (d : device) : Prop :=
  forall a b s c e t, In (Stepwise a b s c e t) (d_sizes d) -> s <> 0 /\ t <> 0.

(** The colours of a pixel, first byte in memory first.  DRM: <drm_fourcc.h>, names from
    the most significant bits of a little-endian word; V4L2: <linux/videodev2.h>, comments
    of the formats. *)
Inductive channel := Red | Green | Blue | Pad.
Definition drm_bytes (f : Z) : option (list channel) :=
  if existsb (Z.eqb f) [fourcc "XR24"; fourcc "AR24"] then Some [Blue; Green; Red; Pad]
  else if existsb (Z.eqb f) [fourcc "XB24"; fourcc "AB24"] then Some [Red; Green; Blue; Pad]
  else if existsb (Z.eqb f) [fourcc "RX24"; fourcc "RA24"] then Some [Pad; Blue; Green; Red]
  else if existsb (Z.eqb f) [fourcc "BX24"; fourcc "BA24"] then Some [Pad; Red; Green; Blue]
  else None.
Definition v4l2_bytes (f : Z) : option (list channel) :=
  if existsb (Z.eqb f) [fourcc "XR24"; fourcc "AR24"; fourcc "BGR4"] then Some [Blue; Green; Red; Pad]
  else if existsb (Z.eqb f) [fourcc "XB24"; fourcc "AB24"] then Some [Red; Green; Blue; Pad]
  else if existsb (Z.eqb f) [fourcc "RX24"; fourcc "RA24"] then Some [Pad; Blue; Green; Red]
  else if existsb (Z.eqb f) [fourcc "BX24"; fourcc "BA24"; fourcc "RGB4"] then Some [Pad; Red; Green; Blue]
  else None.

(** The first file in /dev that will do. *)
Definition first_capable (dev : list entry) (w h fd : Z) (d : device) : Prop :=
  exists pre e post, dev = pre ++ e :: post /\ video e fd d /\ capable d w h /\
    forall e' fd' d', In e' pre -> video e' fd' d' -> ~ capable d' w h.

(** The names of formats under which the server looks for one that suits a buffer. *)
Definition tries (drm : Z) : list Z :=
  if existsb (Z.eqb drm) [fourcc "RX24"; fourcc "RA24"] then [fourcc "XB24"; fourcc "AB24"]
  else if existsb (Z.eqb drm) [fourcc "XR24"; fourcc "AR24"] then [fourcc "BX24"; fourcc "BA24"; fourcc "RGB4"]
  else if existsb (Z.eqb drm) [fourcc "BX24"; fourcc "BA24"] then [fourcc "XR24"; fourcc "AR24"; fourcc "BGR4"]
  else if existsb (Z.eqb drm) [fourcc "XB24"; fourcc "AB24"] then [fourcc "RX24"; fourcc "RA24"]
  else [].

(** Not the driver that is treated apart. *)
Definition ordinary (d : device) : Prop := firstn 14 (d_driver d) <> codes "bcm2835-codec" ++ [0].

(** A device that does all it is asked. *)
Definition willing (d : device) : Prop :=
  Z.of_nat (length (d_out d)) <= 256 /\ d_src_fmt d = (true, true) /\ d_dst_fmt d = (true, true) /\
  d_dst_count d = Some 3 /\ (forall i, 0 <= i < 3 -> d_query_dst d i = true /\ d_mmap d i = true /\ d_query_src d i = true /\ d_qbuf d i = true) /\
  d_src_req d = true /\ d_stream_on d = true /\ d_start d = true.

(** What a driver answers is within what the server has room for. *)
Definition modest (d : device) : Prop :=
  Z.of_nat (length (d_out d)) <= 256 /\ (forall k, d_dst_count d = Some k -> k = 3) /\
  forall i, 0 <= i < 3 -> d_qbuf d i = true.
