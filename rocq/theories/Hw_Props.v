(** C149-C151: the FFmpeg encoder's resources, its device, and its frames. *)
From Verif Require Import Common Hw_Model Hw_Spec Hw_Proofs.

(** C149.  Full statement: an attempt to make the encoder that fails leaves nothing
    behind.  It holds if the codec context could be allocated and opened. *)
Theorem C149_failed_attempts_give_back_partial : forall L k,
  paths_ok (l_devices L) -> create L = Ok (false, k) -> l_codec L = true -> l_open L = true -> given_back k.
Proof. intros L k P H C O1. destruct (create_fails L k P H) as [G|[_ G]]; [exact G|]. rewrite C, O1 in G. discriminate. Qed.
Print Assumptions C149_failed_attempts_give_back_partial.

(** All is well up to the codec, which [opens] or not. *)
Definition a_lib (config opens : bool) : lib :=
  mk_lib true true true [None; Some [47; 100]; Some [47; 101]] (fun p => match p with [47; 100] => true | _ => false end)
    true true true true true true true true true true true true 4 (fun f => config && f) true true opens.
Example C149_gives_back_ex : exists k, paths_ok (l_devices (a_lib false true)) /\ create (a_lib false true) = Ok (false, k) /\
  l_codec (a_lib false true) = true /\ l_open (a_lib false true) = true.
Proof.
  eexists. split; [repeat constructor; discriminate|]. split; [vm_compute; reflexivity|]. split; reflexivity.
Qed.

(** If only the codec does not work, the filter graph stays and with it the device. *)
Theorem C149_codec_failure_keeps_the_device : forall L,
  paths_ok (l_devices L) -> only_codec_fails L -> (0 < l_filters L)%nat ->
  exists k, create L = Ok (false, k) /\ k_graph k <> None /\ (0 < k_dev k)%nat.
Proof.
  intros L P C F. eexists. split; [apply codec_alone; assumption|]. destruct (left_over L) as [A B]. auto.
Qed.
Print Assumptions C149_codec_failure_keeps_the_device.
Example C149_codec_ex : paths_ok (l_devices (a_lib true false)) /\ only_codec_fails (a_lib true false) /\ (0 < l_filters (a_lib true false))%nat /\
  create (a_lib true false) = Ok (false, mk_kit false false false 5 1 false (Some (4%nat, 1%nat)) false).
Proof.
  split; [repeat constructor; discriminate|]. split; [|split; [cbn; lia|vm_compute; reflexivity]].
  split; [eexists; vm_compute; reflexivity|]. split; reflexivity.
Qed.

Theorem C149_failed_attempts_give_back_refuted : exists L k,
  paths_ok (l_devices L) /\ create L = Ok (false, k) /\ ~ given_back k.
Proof.
  exists (a_lib true false). eexists. split; [repeat constructor; discriminate|]. split; [vm_compute; reflexivity|].
  intros (_ & _ & _ & D & _). discriminate D.
Qed.
Print Assumptions C149_failed_attempts_give_back_refuted.

(** And so each further attempt keeps one more device open. *)
Theorem C149_devices_pile_up : forall l,
  Forall (fun L => paths_ok (l_devices L) /\ only_codec_fails L /\ (0 < l_filters L)%nat) l ->
  open_devices (leftovers l) = length l.
Proof.
  induction 1 as [|L l (P & C & F) _ IH]; [reflexivity|]. cbn [leftovers length].
  destruct (C149_codec_failure_keeps_the_device L P C F) as (k & -> & _ & D).
  unfold open_devices in *. cbn [app filter]. destruct (Nat.ltb_spec 0 (k_dev k)); [|lia]. cbn [length]. f_equal. exact IH.
Qed.
Print Assumptions C149_devices_pile_up.
Example C149_pile_ex : open_devices (leftovers (repeat (a_lib true false) 3)) = 3%nat.
Proof. vm_compute. reflexivity. Qed.

(** An encoder that was made gives everything back when it is destroyed. *)
Theorem C149_destroyed_encoders_give_back : forall L k,
  paths_ok (l_devices L) -> create L = Ok (true, k) -> given_back (destroy k).
Proof. intros L k P H. apply create_made in H as [-> _]; [|exact P]. apply destroyed. Qed.
Print Assumptions C149_destroyed_encoders_give_back.
Example C149_destroyed_ex : exists k, create (a_lib true true) = Ok (true, k) /\ k_graph k <> None /\ k_dev k = 6%nat.
Proof. eexists. split; [vm_compute; reflexivity|]. split; [discriminate|reflexivity]. Qed.

(** C150.  An encoder is only ever made on the first device that has a render node; its
    path is cut to 63 bytes. *)
Theorem C150_first_render_node_is_used : forall L k,
  paths_ok (l_devices L) -> create L = Ok (true, k) ->
  exists path, first_node (l_devices L) = Some path /\ l_device L (firstn 63 path) = true.
Proof. intros L k P H. apply (create_made L k P H). Qed.
Print Assumptions C150_first_render_node_is_used.
Example C150_first_ex : exists k, create (a_lib true true) = Ok (true, k) /\ first_node (l_devices (a_lib true true)) = Some [47; 100].
Proof. eexists. split; vm_compute; reflexivity. Qed.

(** Full statement: without a render node no encoder is made, and that is all.  The function that
    looks for one returns -1 as a bool, which is not less than zero: the path, never
    written, is used. *)
Theorem C150_no_render_node_reads_garbage : forall L,
  paths_ok (l_devices L) -> l_self L = true -> l_packet L = true -> l_work L = true ->
  first_node (l_devices L) = None -> create L = Fault Uninit.
Proof. intros L P A B C N. rewrite create_is by exact P. rewrite A, B, C, N. reflexivity. Qed.
Print Assumptions C150_no_render_node_reads_garbage.
Definition no_gpu : lib :=
  mk_lib true true true [None] (fun _ => false) true true true true true true true true true true true true 4 (fun f => f) true true true.
Example C150_none_ex : paths_ok (l_devices no_gpu) /\ first_node (l_devices no_gpu) = None.
Proof. split; [repeat constructor|reflexivity]. Qed.
Theorem C150_no_render_node_refuted : exists L, first_node (l_devices L) = None /\ create L = Fault Uninit.
Proof. exists no_gpu. split; vm_compute; reflexivity. Qed.
Print Assumptions C150_no_render_node_refuted.

(** C151.  As long as FFmpeg does not configure a graph without a frames context: *)
Theorem C151_encoders_have_frames : forall L k,
  paths_ok (l_devices L) -> l_config L false = false -> create L = Ok (true, k) -> k_has_frames k = true.
Proof.
  intros L k P C H. apply create_made in H as (-> & G & _); [|exact P].
  unfold made. destruct (l_frames_init L); [reflexivity|]. congruence.
Qed.
Print Assumptions C151_encoders_have_frames.
Example C151_frames_ex : exists k, l_config (a_lib true true) false = false /\ create (a_lib true true) = Ok (true, k).
Proof. eexists. split; [reflexivity|vm_compute; reflexivity]. Qed.

(** Frames one after the other: each packet handed on is what the codec gave for one
    frame, whole, in order, and nothing of a frame is in the next one's; every file
    descriptor is closed as often as it was opened, and never before. *)
Theorem C151_packets_and_descriptors : forall h l packets rest ev,
  works h l [] = Ok (packets, rest, ev) ->
  packets = filter (fun p => negb (length p =? 0)%nat) (map codec_gave l) /\ rest = [] /\
  forall fd, opened fd ev = closed fd ev /\ forall a b, ev = a ++ b -> (closed fd a <= opened fd a)%nat.
Proof. intros h l packets rest ev H. destruct (works_done h l packets rest ev H) as (A & B & C). auto. Qed.
Print Assumptions C151_packets_and_descriptors.

(** And nothing goes wrong with buffers of at most four planes while memory lasts and what
    the codec gives begins with a zero. *)
Theorem C151_frames_are_safe : forall l,
  Forall (fun A => (length (a_fds A) <= 4)%nat /\ a_frame A = true /\ a_buffer A = true /\
    match codec_gave A with c :: _ => c = 0 | [] => True end) l ->
  exists r, works true l [] = Ok r.
Proof. intros l F. apply works_safe; auto. Qed.
Print Assumptions C151_frames_are_safe.

Definition three_frames : list answers :=
  [mk_answers [7; 8] true true 0 true 0 0 [[0; 0; 1]; [9]] eagain;
   mk_answers [7; 8] true true 0 true 0 (-22) [[0; 5]] eagain;
   mk_answers [9] true true 0 true 0 0 [[0; 2]] eagain].
Example C151_ex : exists ev, works true three_frames [] = Ok ([[0; 0; 1; 9]; [0; 2]], [], ev) /\ opened 7 ev = 2%nat /\ opened 9 ev = 1%nat.
Proof. eexists. split; [vm_compute; reflexivity|]. split; reflexivity. Qed.
Example C151_safe_ex : Forall (fun A => (length (a_fds A) <= 4)%nat /\ a_frame A = true /\ a_buffer A = true /\
    match codec_gave A with c :: _ => c = 0 | [] => True end) three_frames.
Proof. repeat (apply Forall_cons; [cbn; repeat split; lia|]). constructor. Qed.
