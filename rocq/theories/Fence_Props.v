(** C132: clients that wait for a fence. *)
From Verif Require Import Common CommonProofs Pixels_Model Msg_Model Msg_Proofs Msg_Spec
  Msg2_Spec Msg3_Proofs Msg4_Proofs Upd_Spec Upd_Proofs Msg5_Proofs Msg6_Proofs Msg7_Proofs Upd_Props Ev_Spec Fence_Proofs.

(** A fence with the flags BLOCK_BEFORE and BLOCK_AFTER, while a frame is under way:
    the client waits, and the fence is remembered as it came. *)
Theorem C132_fence_blocks_partial :
  forall (E : env) r (c : client) p1 p2 p3 flags payload,
    2 ^ 31 <= flags < 2 ^ 32 -> zlen payload <= 64 ->
    pending c = 0 -> updating c = true -> Z.land flags 7 = 3 ->
    exists c1, on_message E r c (fence_msg p1 p2 p3 flags payload) = Ok (c1, zlen (fence_msg p1 p2 p3 flags payload)) /\
      blocked c1 = true /\ pf_n c1 = 1 /\ pf_flags c1 = 3 /\ pf_payload c1 = payload /\ log c1 = log c ++ [FenceReq 3 payload].
Proof. exact fence_blocks. Qed.
Print Assumptions C132_fence_blocks_partial.

(** Whatever a waiting client sends is put by and has no effect, however it is cut into
    reads, as long as there is room. *)
Theorem C132_waiting_client_is_not_heard :
  forall (E : env) (fuel : nat) (ds : list (list Z)) (c : client),
    blocked c = true -> cut c = None -> idx c = 0 -> closed c = false ->
    zlen (buf c) + zlen (concat ds) < MSG_BUFFER_SIZE ->
    run E fuel c (map (fun d => IRead (Some d)) ds) = Ok (set_buf (buf c ++ concat ds) c).
Proof. exact blocked_reads. Qed.
Print Assumptions C132_waiting_client_is_not_heard.

(** When the frame is done, the fence is answered after it, in full, and the client no
    longer waits; the server goes on as if what more there is to read had arrived for a
    client that does not wait, with all that was put by in front of it.  (Partial: if
    there is no more to read, nothing happens, see below.) *)
Theorem C132_client_is_heard_after_answer_partial :
  forall (E : env) (fuel : nat) (c : client) (f : frame),
    pf_n c = 1 -> closed c = false -> fmt_changed c && negb (has_encoding c ENC_FENCE) = false ->
    (forall l, e_sync E l = false) ->
    (fst (known c) = f_w f /\ snd (known c) = f_h f \/ supports_resizing c = true) ->
    exists c1 u ping,
      step E fuel c (IEncoded f) = receive E fuel c1 (e_more E (log c1)) /\ (length ping <= 1)%nat /\
      log c1 = log c ++ [Update KFrame u] ++ ping ++ [Sent (fence_msg 0 0 0 (pf_flags c) (pf_payload c))] /\
      blocked c1 = false /\ pf_n c1 = 0 /\ buf c1 = buf c /\ idx c1 = idx c /\ cut c1 = cut c /\
      block_next c1 = block_next c /\ closed c1 = false.
Proof. intros E fuel c f. apply (answered E (fun c => receive E fuel c (e_more E (log c))) f c). Qed.
Print Assumptions C132_client_is_heard_after_answer_partial.

(** A request of the whole screen, a fence, a key while the frame is being made, and
    then a further key. *)
Definition key_of (sym : Z) : list Z := key_msg 1 0 0 sym.
Definition fence_both : list Z := fence_msg 0 0 0 (2 ^ 31 + 3) [5; 6].
Definition more_after (k : list Z) (l : list out) : option (list Z) :=
  if existsb (fun o => match o with KeySym _ _ => true | _ => false end) l then None else Some k.
Example C132_case : exists c c', run (calm false (more_after (key_of 66))) 3 fresh
    [IRead (Some ask_all); IRead (Some fence_both); IRead (Some (firstn 3 (key_of 65))); IRead (Some (skipn 3 (key_of 65)))] = Ok c /\
  blocked c = true /\ pf_n c = 1 /\ buf c = key_of 65 /\ callbacks (log c) = [FbReq 0 0 0 10 10] /\
  step (calm false (more_after (key_of 66))) 3 c (IEncoded some_frame) = Ok c' /\
  skipn 2 (log c') = [FenceReq 3 [5; 6]; Update KFrame [0; 0; 0; 1; 1; 2; 3]; Sent (fence_msg 0 0 0 3 [5; 6]); KeySym 65 true; KeySym 66 true].
Proof.
  eexists _, _. split; [vm_compute; reflexivity|]. split; [reflexivity|]. split; [reflexivity|]. split; [reflexivity|].
  split; [reflexivity|]. split; [vm_compute; reflexivity|]. reflexivity.
Qed.

(** Of a fence with a payload of more than 64 bytes nothing is copied: the connection is
    closed (and used once more after that, as after every other bad message). *)
Theorem C132_long_payload_is_not_copied :
  forall (E : env) r (c : client) m,
    all_bytes m -> nth 0 m 0 = 248 -> 9 <= zlen m -> 64 < nth 8 m 0 -> 8 + nth 8 m 0 <= zlen m ->
    on_message E r c m = Fault UseAfterFree.
Proof. exact long_payload. Qed.
Print Assumptions C132_long_payload_is_not_copied.
Example C132_long_case :
  let m := fence_msg 0 0 0 (2 ^ 31) (repeat 1 65) in nth 0 m 0 = 248 /\ nth 8 m 0 = 65 /\ 8 + nth 8 m 0 <= zlen m.
Proof. vm_compute. repeat split. discriminate. Qed.

(** A message that was put by is not acted on when the fence is answered, if nothing
    more arrives: the key press stays in the buffer, although nothing is under way and
    the client waits for nothing. *)
Theorem C132_client_is_heard_after_answer_refuted :
  exists E fuel c0 l c sym,
    run E fuel c0 l = Ok c /\ In (IRead (Some (key_of sym))) l /\
    blocked c = false /\ block_next c = false /\ pf_n c = 0 /\ updating c = false /\ closed c = false /\
    In (Sent (fence_msg 0 0 0 3 [5; 6])) (log c) /\
    ~ In (KeySym sym true) (log c) /\ buf c = key_of sym.
Proof.
  exists (calm false none), 3%nat, fresh, [IRead (Some ask_all); IRead (Some fence_both); IRead (Some (key_of 65)); IEncoded some_frame; IWritten].
  eexists _, 65. split; [vm_compute; reflexivity|]. split; [cbn; auto|]. repeat (split; [reflexivity|]).
  split; [vm_compute; tauto|]. split; [|reflexivity].
  vm_compute. intros H. repeat destruct H as [H|H]; try discriminate H. exact H.
Qed.
Print Assumptions C132_client_is_heard_after_answer_refuted.

(** A fence with all three flags asks to block what comes after it too; the key press
    after it is acted on before the fence is answered. *)
Theorem C132_fence_blocks_refuted :
  exists E fuel c0 l c flags sym,
    run E fuel c0 l = Ok c /\ l = [IRead (Some ask_all); IRead (Some (fence_msg 0 0 0 flags [])); IRead (Some (key_of sym))] /\
    2 ^ 31 <= flags /\ Z.testbit flags 1 = true /\ pf_n c = 1 /\
    In (KeySym sym true) (log c) /\ ~ In (Sent (fence_msg 0 0 0 7 [])) (log c).
Proof.
  exists (calm false none), 3%nat, fresh. eexists _, _, (2 ^ 31 + 7), 65. split; [|split; [reflexivity|]]; [vm_compute; reflexivity|].
  split; [lia|]. split; [reflexivity|]. split; [reflexivity|]. split; [vm_compute; tauto|].
  vm_compute. intros H. repeat destruct H as [H|H]; try discriminate H. exact H.
Qed.
Print Assumptions C132_fence_blocks_refuted.
