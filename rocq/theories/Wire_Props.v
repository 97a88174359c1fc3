(** C141: after the handshake, all that a client is sent is whole messages. *)
From Verif Require Import Common Pixels_Model Msg_Model Msg_Spec Msg_Proofs Upd_Spec Upd_Proofs Upd_Props Clip_Model
  Wire_Spec Wire_Proofs Wire2_Proofs Wire3_Proofs.

(** Whatever a client sends, the application does and the encoders deliver, in any order.
    [pic] is how the viewer reads pictures; [proper], [cursors]: pictures are ones it can
    read.  (Partial: LED states for clients with the VMware encoding only; frames of more
    than 65533 rectangles, see C45; texts of more than 2000000000 bytes.) *)
Theorem C141_whole_messages_partial :
  forall pic E fuel compress f d seq l c',
    prefix_wise pic -> cursors pic E -> bounded compress ->
    proper pic E fuel compress (ready f d seq) l ->
    act_run E fuel compress (ready f d seq) l = Ok c' -> one_byte_leds (log c') ->
    exists ms, splits pic [] (traffic (log c')) ms.
Proof.
  intros pic E fuel compress f d seq l c' PW CU B P R O1.
  destruct (run_fl pic PW unit (fun _ s => s) (fun _ _ _ => eq_refl) False E fuel compress CU (fun x => match x with end) B l _ _ P R) as [_ FL]; [split; [cbn; lia|exact I]|].
  apply (flow_splits pic PW _ _ _ _ _ FL O1). exists []. constructor.
Qed.
Print Assumptions C141_whole_messages_partial.

(** Encodings, a clipboard, a frame with the cursor, a fence, lock lights, and a text: taken
    apart by a viewer of 4 bytes per pixel. *)
Definition world : env :=
  mk_env false false None (fun _ => 0) (fun _ _ _ => false)
    (fun _ _ => Some [0; 0; 0; 0; 0; 1; 0; 1; 255; 255; 255; 17; 1; 2; 3; 4; 128])
    (fun _ _ => true) (fun _ => true) (fun _ => false) (fun _ => ([], None)) none.
Definition dot : frame := mk_frame 1 10 10 None [0; 0; 0; 0; 0; 1; 0; 1; 0; 0; 0; 0; 1; 2; 3; 4].
Definition session : list act :=
  [Inp (IRead (Some (encodings [0; ENC_CURSOR; ENC_QEMU_LED; ENC_FENCE; ENC_EXT_CLIPBOARD; ENC_EXTDESKTOPSIZE])));
   Inp (IRead (Some ask_all)); Inp ICursor; Inp (IDamage small [(0, 0, 10, 10)]);
   Inp (IRead (Some ask_all)); Inp (IEncoded dot); Inp IWritten; Inp (IRead (Some fence_before));
   Inp (IRead (Some ask_more)); Inp (ILed 5); Text [] [104; 105]].
Definition messages : list (list Z) :=
  [[3; 0; 0; 0; 255; 255; 255; 248; 31; 0; 0; 1; 0; 0; 0; 0];
   [248; 0; 0; 0; 128; 0; 0; 1; 8; 0; 0; 0; 0; 0; 0; 0; 0];
   [0; 0; 0; 1; 0; 0; 0; 0; 0; 0; 0; 0; 255; 255; 254; 251; 0];
   [0; 0; 0; 1; 0; 0; 0; 0; 0; 1; 0; 1; 255; 255; 255; 17; 1; 2; 3; 4; 128];
   [0; 0; 0; 2; 0; 0; 0; 0; 0; 10; 0; 10; 255; 255; 254; 204; 1; 0; 0; 0; 0; 0; 0; 0; 0; 0; 0; 0; 0; 10; 0; 10; 0; 0; 0; 0;
    0; 0; 0; 0; 0; 1; 0; 1; 0; 0; 0; 0; 1; 2; 3; 4];
   [248; 0; 0; 0; 128; 0; 0; 1; 8; 0; 0; 0; 0; 0; 0; 0; 16];
   [248; 0; 0; 0; 0; 0; 0; 1; 0];
   [3; 0; 0; 0; 255; 255; 255; 245; 16; 0; 0; 1; 0; 0; 0; 2; 104; 105; 0]].
Example C141_session : exists c',
  prefix_wise (fun _ => viewer 4 3) /\ cursors (fun _ => viewer 4 3) world /\ bounded (fun l => Some l) /\
  proper (fun _ => viewer 4 3) world 9 (fun l => Some l) fresh session /\
  act_run world 9 (fun l => Some l) fresh session = Ok c' /\ one_byte_leds (log c') /\
  splits (fun _ => viewer 4 3) [] (traffic (log c')) messages.
Proof.
  eexists. split; [apply viewer_prefix|]. split; [intros l f d [= <-]; reflexivity|].
  split; [intros l z [= <-]; pose proof (Z.div_pos (zlen l) (2 ^ 12)); pose proof (Z.div_pos (zlen l) (2 ^ 14)); pose proof (Z.div_pos (zlen l) (2 ^ 25)); unfold zlen in *; lia|].
  split; [apply steady_proper; repeat (apply Forall_cons; [try exact I; try (vm_compute; intuition congruence)|]); constructor|].
  split; [vm_compute; reflexivity|]. split.
  - intros b B. cbn [log] in B. repeat (destruct B as [B|B]; [try discriminate B; injection B as <-; reflexivity|]). destruct B.
  - change (traffic _) with (concat messages). unfold messages. cbn [concat].
    repeat (apply s_message; [reflexivity|]). constructor.
Qed.

(** A client with the VMware encoding for lock lights and without QEMU's is sent three
    bytes that belong to no message, whichever pictures it can read. *)
Theorem C141_whole_messages_refuted :
  exists E fuel compress f d seq l c',
    (forall pic, proper pic E fuel compress (ready f d seq) l) /\ bounded compress /\
    act_run E fuel compress (ready f d seq) l = Ok c' /\
    forall pic, ~ exists ms, splits pic [] (traffic (log c')) ms.
Proof.
  exists world, 9%nat, (fun l => Some l), rgb, small, 0,
    [Inp (IRead (Some (encodings [ENC_VMWARE_LED]))); Inp (ILed 5); Inp (IRead (Some ask_more))].
  eexists. split; [intros pic; cbn; auto|].
  split; [intros l z [= <-]; pose proof (Z.div_pos (zlen l) (2 ^ 12)); pose proof (Z.div_pos (zlen l) (2 ^ 14)); pose proof (Z.div_pos (zlen l) (2 ^ 25)); unfold zlen in *; lia|].
  split; [vm_compute; reflexivity|]. intros pic [ms M].
  destruct (splits_step pic _ _ _ M) as (n & E1 & h' & ms' & M'); [discriminate|].
  vm_compute in E1. injection E1 as <-. cbn [traffic sent flat_map concat app log skipn] in M'.
  destruct (splits_step pic _ _ _ M') as (n & E1 & _); discriminate.
Qed.
Print Assumptions C141_whole_messages_refuted.
