(** H.264 on V4L2 devices: src/enc/h264/v4l2m2m-impl.c under src/enc/h264/open-h264.c.

    Simplifications: ioctls succeed, except that VIDIOC_DQBUF fails when there is nothing
    to return; which buffers the device returns, and the packets it makes, are inputs;
    mapping does nothing.  The loop in claim_all_src_bufs that waits until all buffers are
    returned is the list of buffers the device returns from then on. *)
From Verif Require Import Common H264_Model.

(* struct h264_encoder_v4l2m2m_src_buf, src/enc/h264/v4l2m2m-impl.c:48-54: is_taken, fb *)
Definition src_buf : Type := bool * option frame.

(* struct h264_encoder_v4l2m2m, src/enc/h264/v4l2m2m-impl.c:56-73, and width, height and
   format of struct open_h264; [v_gen] tells the encoder objects apart, zero for none;
   [v_dropped]: frames given up at line 467 *)
Record vdev := mk_vdev {
  v_gen : nat; v_width : Z; v_height : Z; v_format : Z;
  v_src : list src_buf; v_index : nat; v_dropped : list frame; v_log : list event }.

(* src/enc/h264/v4l2m2m-impl.c:39 *)
Definition N_SRC_BUFS : nat := 3.

(* an element of the array changes *)
(* src/enc/h264/v4l2m2m-impl.c:69 *)
Fixpoint set_src (l : list src_buf) (n : nat) (s : src_buf) : list src_buf :=
  match l, n with
  | [], _ => []
  | _ :: l, O => s :: l
  | a :: l, S n => a :: set_src l n s
  end.

(* changing the buffers and the log *)
(* src/enc/h264/v4l2m2m-impl.c:56-73 *)
Definition upd (d : vdev) (src : list src_buf) (index : nat) (dropped : list frame) (evs : list event) : vdev :=
  mk_vdev (v_gen d) (v_width d) (v_height d) (v_format d) src index (v_dropped d ++ dropped) (v_log d ++ evs).

(* src/enc/h264/v4l2m2m-impl.c:378-394: one round of the loop; nvnc_fb_unmap(NULL) at
   line 390 *)
Definition return_src (d : vdev) (i : nat) : res vdev :=
  match nth_error (v_src d) i with
  | None => Fault OobRead
  | Some (_, None) => Fault NullDeref
  | Some (_, Some f) =>
      Ok (upd d (set_src (v_src d) i (false, None)) (v_index d) [] [Released (f_id f); Unreffed (f_id f)])
  end.

(* src/enc/h264/v4l2m2m-impl.c:367-395 *)
Fixpoint process_src_bufs (d : vdev) (returned : list nat) : res vdev :=
  match returned with
  | [] => Ok d
  | i :: l => let* d := return_src d i in process_src_bufs d l
  end.

(* src/enc/h264/v4l2m2m-impl.c:462-512 *)
Definition encode_buffer (d : vdev) (f : frame) : res vdev :=
  match take_src_buffer (map fst (v_src d)) (v_index d) with
  | None => Ok (upd d (v_src d) (v_index d) [f] [])
  | Some (b, next) =>
      match nth b (v_src d) (false, None) with
      | (_, Some _) => Fault AssertFail
      | (_, None) => Ok (upd d (set_src (v_src d) b (true, Some f)) next [] [Reffed (f_id f); Held (f_id f)])
      end
  end.

(* src/enc/h264/v4l2m2m-impl.c:731-737 *)
Definition v4l2_feed (d : vdev) (returned : list nat) (f : frame) : res vdev :=
  let* d := process_src_bufs d returned in encode_buffer d f.

(* src/enc/h264/v4l2m2m-impl.c:114-121 *)
Definition any_taken (d : vdev) : bool := existsb fst (v_src d).

(* src/enc/h264/v4l2m2m-impl.c:707-729: waits for all buffers, possibly for ever *)
Definition v4l2_destroy (d : vdev) (claimed : list nat) : res vdev :=
  let* d := process_src_bufs d claimed in
  if any_taken d then Fault Diverges
  else Ok (mk_vdev 0 (v_width d) (v_height d) (v_format d) [] 0 (v_dropped d) (v_log d)).

(* src/enc/h264/v4l2m2m-impl.c:646-705: a new encoder, the [n]-th one *)
Definition v4l2_create (n : nat) (f : frame) (d : vdev) : vdev :=
  mk_vdev n (f_width f) (f_height f) (f_format f) (repeat (false, None) N_SRC_BUFS) 0 (v_dropped d) (v_log d).

(* src/enc/h264/open-h264.c:134-180, with the quality unchanged.  [claimed] is what the
   device returns while the old encoder is destroyed, [returned] what it returns to the
   one that gets the frame. *)
Definition v4l2_encode (d : vdev) (f : frame) (claimed returned : list nat) : res vdev :=
  if (f_width f =? v_width d) && (f_height f =? v_height d) && (f_format f =? v_format d)
  then v4l2_feed d returned f
  else
    let* old := match v_gen d with O => Ok d | _ => v4l2_destroy d claimed end in
    v4l2_feed (v4l2_create (S (v_gen d)) f old) returned f.

(* the server gives it the next frame from within the callback, if the update could be
   written at once: src/server.c:2447-2451, 2438-2445, 863-959 *)
Definition callback : Type := option (frame * list nat * list nat).

(* src/enc/h264/v4l2m2m-impl.c:328-365 over src/enc/h264/open-h264.c:69-91: packets with
   what the callback does; self is used again at line 363 *)
Fixpoint process_dst_bufs (d : vdev) (l : list (list Z * callback)) : res vdev :=
  match l with
  | [] => Ok d
  | (p, cb) :: l =>
      match p with
      | [] => Fault NullDeref
      | _ =>
          let* d' := match cb with
                     | None => Ok d
                     | Some (f, claimed, returned) => v4l2_encode d f claimed returned
                     end in
          if Nat.eqb (v_gen d') (v_gen d) then process_dst_bufs d' l else Fault UseAfterFree
      end
  end.

(* no encoder yet; src/enc/h264/open-h264.c:104-121 *)
Definition v4l2_none : vdev := mk_vdev 0 0 0 0 [] 0 [] [].

(* frames from the server outside of callbacks, and the device's events *)
(* src/enc/h264/v4l2m2m-impl.c:514-518, 731-737 *)
Inductive vop := VEncode (f : frame) (claimed returned : list nat) | VEvents (l : list (list Z * callback)).

(* any sequence of them *)
(* src/enc/h264/v4l2m2m-impl.c:514-518, 731-737 *)
Fixpoint vrun (d : vdev) (l : list vop) : res vdev :=
  match l with
  | [] => Ok d
  | VEncode f c r :: l => let* d := v4l2_encode d f c r in vrun d l
  | VEvents e :: l => let* d := process_dst_bufs d e in vrun d l
  end.
