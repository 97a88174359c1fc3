(** Properties C143 to C145: finding and setting up a V4L2 device for H.264. *)
From Coq Require Import String.
From Verif Require Import Common CommonProofs Pixels_Model Probe_Model Probe_Spec Probe_Proofs.
Open Scope string_scope.
Open Scope list_scope.
Open Scope Z_scope.

(* two devices for the examples: a camera and an encoder *)
Definition camera : device := mk_device (Some (Z.lor 1 67108864)) [] [] [fourcc "YUYV"] [] (true, true) (true, true) (Some 3)
  (fun _ => true) (fun _ => true) true (fun _ => true) (fun _ => true) true true.
Definition coder (out : list Z) (count : option Z) (mmap : Z -> bool) : device :=
  mk_device (Some (Z.lor 16384 67108864)) (codes "some-codec") out [fourcc "VP80"; fourcc "H264"]
    [Discrete 320 200; Stepwise 32 1920 2 32 1088 2] (true, true) (true, true) count
    (fun _ => true) mmap true (fun _ => true) (fun _ => true) true true.
Definition dev_with (d : device) : list entry :=
  [mk_entry (codes "null") (Some (3, camera)); mk_entry (codes "video0") (Some (4, camera)); mk_entry (codes "video1") None;
   mk_entry (codes "video11") (Some (4, d)); mk_entry (codes "video12") (Some (5, d))].

(** ** C143 *)

(** An encoder that was made sits on the first file of /dev that is called video-something,
    can be opened and is a device that makes H.264 of the size asked for. *)
Theorem C143_device_found : forall dev w h drm fd d l, create dev w h drm = Ok (Some (fd, d), l) -> first_capable dev w h fd d.
Proof.
  intros dev w h drm fd d l H.
  destruct (create_right _ _ _ _ _ _ H) as [(E & _)|(fd' & d' & l0 & l1 & F & _ & _ & _ & [(E & _)|(E & _)])]; try discriminate.
  injection E as -> ->. exact F.
Qed.
Print Assumptions C143_device_found.

(** If that device does what it is asked and lists a format that suits the buffers, the
    encoder is made. *)
Theorem C143_willing_device_used : forall dev w h drm fd d, (forall e fd d, In e dev -> video e fd d -> steps_given d) ->
  first_capable dev w h fd d -> willing d -> ordinary d -> (exists f, In f (tries drm) /\ In f (d_out d)) ->
  exists l, create dev w h drm = Ok (Some (fd, d), l).
Proof. apply create_willing. Qed.
Print Assumptions C143_willing_device_used.

(** Of all the files opened on the way only the encoder's is still open; none if there is
    no encoder. *)
Theorem C143_files : forall dev w h drm r l, create dev w h drm = Ok (r, l) ->
  files l = match r with Some (fd, _) => [fd] | None => [] end.
Proof.
  intros dev w h drm r l H.
  destruct (create_right _ _ _ _ _ _ H) as [(-> & _ & E & _)|(fd & d & l0 & l1 & _ & A & _ & Q & [(-> & ->)|(-> & -> & _)])].
  - exact E.
  - rewrite app_assoc. apply files_close. rewrite files_more by exact Q. exact A.
  - rewrite files_more by exact Q. exact A.
Qed.
Print Assumptions C143_files.

(** Destroying the encoder gives back all there is, files and mappings. *)
Theorem C143_destroyed_clean : forall dev w h drm fd d l, create dev w h drm = Ok (Some (fd, d), l) ->
  files (l ++ destroy fd) = [] /\ mappings (l ++ destroy fd) = [].
Proof.
  intros dev w h drm fd d l H. pose proof (C143_files _ _ _ _ _ _ H) as F.
  destruct (create_right _ _ _ _ _ _ H) as [(E & _)|(fd' & d' & l0 & l1 & _ & A & B & Q & [(E & _)|(E & -> & f & q & _ & U & ->)])]; try discriminate.
  split.
  - rewrite files_app, F. cbn. rewrite Z.eqb_refl. reflexivity.
  - unfold mappings. rewrite <- !app_assoc, !fold_left_app. rewrite (mappings_none l0) by exact B.
    cbn [fold_left]. rewrite (mappings_none q) by exact U. reflexivity.
Qed.
Print Assumptions C143_destroyed_clean.

(** An encoder that could not be made leaves memory mapped: when the second buffer cannot
    be mapped the first one stays. *)
Theorem C143_nothing_left_refuted : exists dev w h drm l, create dev w h drm = Ok (None, l) /\ mappings l <> [].
Proof.
  exists (dev_with (coder [fourcc "BX24"] (Some 3) (fun i => i =? 0))), 640, 480, (fourcc "XR24").
  eexists. split; [vm_compute; reflexivity|discriminate].
Qed.
Print Assumptions C143_nothing_left_refuted.

(** What is missing there: nothing is left if no device was found. *)
Theorem C143_nothing_left_partial : forall dev w h drm r l, create dev w h drm = Ok (r, l) ->
  (forall e fd d, In e dev -> video e fd d -> ~ capable d w h) -> r = None /\ files l = [] /\ mappings l = [].
Proof.
  intros dev w h drm r l H N.
  destruct (create_right _ _ _ _ _ _ H) as [(-> & _ & E & M)|(fd & d & l0 & l1 & (pre & e & post & -> & V & C & _) & _)]; [auto|].
  exfalso. apply (N e fd d); [apply in_or_app; right; left; reflexivity|exact V|exact C].
Qed.
Print Assumptions C143_nothing_left_partial.

Example C143_case : let d := coder [fourcc "YU12"; fourcc "BX24"] (Some 3) (fun _ => true) in
  willing d /\ ordinary d /\ (exists f, In f (tries (fourcc "XR24")) /\ In f (d_out d)) /\
  create (dev_with d) 640 480 (fourcc "XR24") = Ok (Some (4, d),
    [Opened 4; Closed 4; Opened 4; SrcFormat (fourcc "BX24") 640 480; DstFormat 640 480; Mapped 0; Mapped 1; Mapped 2; Queued 0; Queued 1; Queued 2]).
Proof.
  cbv zeta. split; [|split; [|split]].
  - repeat split. cbn. lia.
  - unfold ordinary. cbn. discriminate.
  - exists (fourcc "BX24"). split; [left; reflexivity|right; left; reflexivity].
  - vm_compute. reflexivity.
Qed.

(** ** C144 *)

(** Whatever is in /dev, making the encoder does not go outside its memory, divide by zero
    or abort: false. *)
Theorem C144_any_device_refuted : exists dev w h drm f, create dev w h drm = Fault f.
Proof.
  exists (dev_with (coder [fourcc "BX24"] (Some 4) (fun _ => true))), 640, 480, (fourcc "XR24"), OobWrite. vm_compute. reflexivity.
Qed.
Print Assumptions C144_any_device_refuted.

(** A device with more than 256 input formats: always written past the end of the array. *)
Theorem C144_formats_overrun : forall dev w h drm fd d, (forall e fd d, In e dev -> video e fd d -> steps_given d) ->
  first_capable dev w h fd d -> 256 < Z.of_nat (length (d_out d)) -> create dev w h drm = Fault OobWrite.
Proof. apply create_formats. Qed.
Print Assumptions C144_formats_overrun.

(** A size range without steps: always divided by zero. *)
Theorem C144_no_steps : forall e fd d post w h a b c f t drm, video e fd d ->
  (exists caps, d_caps d = Some caps /\ Z.testbit caps 14 = true /\ Z.testbit caps 26 = true) -> In (fourcc "H264") (d_capture d) ->
  d_sizes d = [Stepwise a b 0 c f t] -> a <= w <= b -> c <= h <= f -> create (e :: post) w h drm = Fault DivByZero.
Proof. apply create_no_steps. Qed.
Print Assumptions C144_no_steps.

(** What is missing in general: devices whose sizes have steps, with at most 256 formats,
    that make the three buffers asked for, or none, and accept them. *)
Theorem C144_any_device_partial : forall dev w h drm, (forall e fd d, In e dev -> video e fd d -> steps_given d) ->
  (forall fd d, first_capable dev w h fd d -> modest d) -> exists r, create dev w h drm = Ok r.
Proof. apply create_total. Qed.
Print Assumptions C144_any_device_partial.

Lemma coder_first out n m : first_capable (dev_with (coder out n m)) 640 480 4 (coder out n m).
Proof.
  exists (firstn 3 (dev_with camera)), (mk_entry (codes "video11") (Some (4, coder out n m))), [mk_entry (codes "video12") (Some (5, coder out n m))].
  split; [reflexivity|]. split; [split; [exists (codes "11"); reflexivity|reflexivity]|]. split.
  - split; [eexists; split; [reflexivity|]; split; reflexivity|]. split; [right; left; reflexivity|].
    exists (Stepwise 32 1920 2 32 1088 2). split; [right; left; reflexivity|]. split; [lia|]. split; [lia|]. split; exists 8; reflexivity.
  - intros e fd d I0 [N V] ((k & K & K14 & _) & _). cbn in I0. destruct I0 as [<-|[<-|[<-|[]]]]; cbn in V; [| |discriminate];
      injection V as <- <-; cbn in K; injection K as <-; discriminate K14.
Qed.
Lemma coder_steps out n m e fd d : In e (dev_with (coder out n m)) -> video e fd d -> steps_given d.
Proof.
  intros I0 [_ V] a b s c f t S0. cbn in I0.
  destruct I0 as [<-|[<-|[<-|[<-|[<-|[]]]]]]; cbn in V; [| |discriminate| |]; injection V as <- <-; cbn in S0; [contradiction|contradiction| |];
    (destruct S0 as [S0|[S0|[]]]; [discriminate|]; injection S0 as <- <- <- <- <- <-; lia).
Qed.

Example C144_case :
  (exists l, create (dev_with (coder (repeat 7 256) (Some 3) (fun _ => true))) 640 480 (fourcc "XR24") = Ok (None, l)) /\
  create (dev_with (coder (repeat 7 257) (Some 3) (fun _ => true))) 640 480 (fourcc "XR24") = Fault OobWrite /\
  create (dev_with (coder [fourcc "BX24"] (Some 2) (fun _ => true))) 640 480 (fourcc "XR24") = Fault AssertFail.
Proof.
  split; [eexists; vm_compute; reflexivity|]. split; [|vm_compute; reflexivity].
  apply (C144_formats_overrun _ _ _ _ 4 _ (coder_steps _ _ _) (coder_first _ _ _)). cbn. lia.
Qed.
Example C144_partial_case : exists r, create (dev_with (coder [fourcc "BX24"] (Some 3) (fun _ => true))) 640 480 (fourcc "XR24") = Ok r.
Proof.
  apply C144_any_device_partial; [apply coder_steps|]. intros fd d F.
  assert (d = coder [fourcc "BX24"] (Some 3) (fun _ => true)) as ->.
  { destruct F as (pre & e & post & E & [_ V] & ((k & K & K14 & _) & _) & _).
    assert (I0 : In e (dev_with (coder [fourcc "BX24"] (Some 3) (fun _ => true)))) by (rewrite E; apply in_or_app; right; left; reflexivity).
    cbn in I0. destruct I0 as [<-|[<-|[<-|[<-|[<-|[]]]]]]; cbn in V; try discriminate; injection V as <- <-; try reflexivity;
      cbn in K; injection K as <-; discriminate K14. }
  split; [cbn; lia|]. split; [cbn; congruence|reflexivity].
Qed.
Example C144_no_steps_case : create [mk_entry (codes "video0") (Some (4, mk_device (Some (Z.lor 16384 67108864)) [] [] [fourcc "H264"]
    [Stepwise 16 4096 0 16 4096 0] (true, true) (true, true) (Some 3) (fun _ => true) (fun _ => true) true (fun _ => true) (fun _ => true) true true))]
    640 480 (fourcc "XR24") = Fault DivByZero.
Proof.
  eapply (C144_no_steps _ 4 _ _ 640 480 16 4096 16 4096 0); [split; [exists (codes "0")|]; reflexivity| | |reflexivity|lia|lia].
  - eexists. split; [reflexivity|split; reflexivity].
  - left. reflexivity.
Qed.

(** ** C145 *)

(** The device is told a format that it lists, and a width and a height that are the least
    multiples of 16 that hold the picture.  What is missing: the driver that is treated
    apart, see below. *)
Theorem C145_format_listed_partial : forall dev w h drm fd d l, create dev w h drm = Ok (Some (fd, d), l) -> ordinary d ->
  0 <= w < 2 ^ 32 - 15 -> 0 <= h < 2 ^ 32 - 15 ->
  exists f W H, In (SrcFormat f W H) l /\ In f (d_out d) /\ (16 | W) /\ w <= W < w + 16 /\ (16 | H) /\ h <= H < h + 16.
Proof.
  intros dev w h drm fd d l H OD BW BH.
  destruct (create_right _ _ _ _ _ _ H) as [(E & _)|(fd' & d' & l0 & l1 & _ & _ & _ & _ & [(E & _)|(E & -> & f & q & (_ & F & _) & _ & ->)])]; try discriminate.
  injection E as <- <-. destruct (align16_right w BW), (align16_right h BH). exists f, (align16 w), (align16 h).
  split; [apply in_or_app; right; left; reflexivity|]. split; [apply F, OD|]. auto.
Qed.
Print Assumptions C145_format_listed_partial.

(** A bcm2835 is told a format whether it lists it or not. *)
Theorem C145_format_listed_refuted : exists dev w h drm fd d l f W H,
  create dev w h drm = Ok (Some (fd, d), l) /\ In (SrcFormat f W H) l /\ ~ In f (d_out d).
Proof.
  set (d := mk_device (Some (Z.lor 16384 67108864)) (codes "bcm2835-codec" ++ [0; 0; 0]) [fourcc "YU12"] [fourcc "H264"]
    [Discrete 640 480] (true, true) (true, true) (Some 3) (fun _ => true) (fun _ => true) true (fun _ => true) (fun _ => true) true true).
  exists (dev_with d), 640, 480, (fourcc "XR24"), 4, d. eexists. exists (fourcc "AB24"), 640, 480.
  split; [vm_compute; reflexivity|]. split; [do 3 right; left; reflexivity|]. intros [E|[]]. vm_compute in E. discriminate E.
Qed.
Print Assumptions C145_format_listed_refuted.

(** The order of the bytes of a pixel that the device is told is not that of the buffers:
    always the reverse. *)
Theorem C145_bytes_reversed : forall dev w h drm fd d l, create dev w h drm = Ok (Some (fd, d), l) -> ordinary d ->
  exists f W H b, In (SrcFormat f W H) l /\ drm_bytes drm = Some b /\ v4l2_bytes f = Some (rev b) /\ b <> rev b.
Proof.
  intros dev w h drm fd d l H OD.
  destruct (create_right _ _ _ _ _ _ H) as [(E & _)|(fd' & d' & l0 & l1 & _ & _ & _ & _ & [(E & _)|(E & -> & f & q & (_ & F & _) & _ & ->)])]; try discriminate.
  injection E as <- <-. destruct (tries_reversed drm f) as (b & B); [apply F, OD|].
  exists f, (align16 w), (align16 h), b. split; [apply in_or_app; right; left; reflexivity|exact B].
Qed.
Print Assumptions C145_bytes_reversed.

Theorem C145_layout_refuted : exists dev w h drm fd d l f W H,
  create dev w h drm = Ok (Some (fd, d), l) /\ In (SrcFormat f W H) l /\ v4l2_bytes f <> drm_bytes drm /\
  exists g, In g (d_out d) /\ v4l2_bytes g = drm_bytes drm.
Proof.
  set (d := coder [fourcc "XR24"; fourcc "BX24"] (Some 3) (fun _ => true)).
  exists (dev_with d), 640, 480, (fourcc "XR24"), 4, d. eexists. exists (fourcc "BX24"), 640, 480.
  split; [vm_compute; reflexivity|]. split; [do 3 right; left; reflexivity|]. split; [vm_compute; discriminate|].
  exists (fourcc "XR24"). split; [left; reflexivity|reflexivity].
Qed.
Print Assumptions C145_layout_refuted.

Example C145_case : let d := coder [fourcc "YU12"; fourcc "RGB4"; fourcc "AR24"] (Some 3) (fun _ => true) in
  ordinary d /\ exists l, create (dev_with d) 630 470 (fourcc "AR24") = Ok (Some (4, d), l) /\ In (SrcFormat (fourcc "RGB4") 640 480) l.
Proof.
  cbv zeta. split; [unfold ordinary; cbn; discriminate|]. eexists. split; [vm_compute; reflexivity|]. do 3 right. left. reflexivity.
Qed.
