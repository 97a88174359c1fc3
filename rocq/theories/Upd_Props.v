(** Framebuffer updates: damage, requests and frames in flight.
    The theorems are about every run of the server for one client: any sequence of
    reads of any bytes, damage, finished encodings, sent frames, LED and cursor
    changes, with the nested reads of src/server.c:2435. *)
From Verif Require Import Common CommonProofs Pixels_Model Msg_Model Msg_Proofs
  Upd_Spec Upd_Proofs Upd2_Proofs Upd3_Proofs.

(** Surroundings for the examples: everything succeeds at once. *)
Definition calm (sync : bool) (more : list out -> option (list Z)) : env :=
  mk_env false false None (fun _ => 0) (fun _ _ _ => false) (fun _ _ => Some [7])
    (fun _ _ => true) (fun _ => true) (fun _ => sync) (fun _ => ([], None)) more.
Definition none : list out -> option (list Z) := fun _ => None.
Definition small : fb := mk_fb 10 10 false.
Definition rgb : pixfmt := client_pixfmt [32; 24; 0; 1; 0; 255; 0; 255; 0; 255; 16; 8; 0; 0; 0; 0].
Definition fresh : client := ready rgb small 0.

(** SetEncodings, and update requests for the whole of a 10 by 10 buffer *)
Definition encodings (l : list Z) : list Z :=
  [2; 0] ++ be 2 (zlen l) ++ flat_map (fun e => be 4 (pattern32 e)) l.
Definition ask_all : list Z := [3; 0; 0; 0; 0; 0; 0; 10; 0; 10].
Definition ask_more : list Z := [3; 1; 0; 0; 0; 0; 0; 10; 0; 10].
(** a fence request with the flag BLOCK_BEFORE, and the answer to a ping *)
Definition fence_before : list Z := [248; 0; 0; 0; 128; 0; 0; 1; 0].
Definition pong : list Z := [248; 0; 0; 0; 0; 0; 0; 1; 8; 0; 0; 0; 0; 0; 0; 0; 1].
Definition some_frame : frame := mk_frame 1 10 10 None [1; 2; 3].

Definition show (r : res client) : option (Z * bool * region * list out) :=
  match r with Ok c => Some (pending c, updating c, damage c, log c) | Fault _ => None end.

(** * C46: a damaged pixel of the buffer is given to the encoder or stays marked. *)

(** For buffers not larger than 32767 by 32767: a pixel damaged while the client is
    connected is, whatever happens next, still pending for the client or was in a
    region given to the encoder.  (Partial: the size limit.) *)
Theorem C46_damage_is_never_lost_partial :
  forall (E : env) (fuel : nat) (c : client) (f : fb) (r : region) (l : list input)
         (c' : client) (x y : Z),
    closed c = false ->
    run E fuel c (IDamage f r :: l) = Ok c' ->
    Forall (input_holds x y) (IDamage f r :: l) ->
    covers r x y ->
    covers (damage c') x y \/ exists new, log c' = log c ++ new /\ encoded new x y.
Proof. exact damage_kept. Qed.

(** The same for what was already pending. *)
Theorem C46_pending_damage_is_kept_partial :
  forall (E : env) (fuel : nat) (c : client) (l : list input) (c' : client) (x y : Z),
    run E fuel c l = Ok c' ->
    (forall f, disp c = Some f -> holds x y f) ->
    Forall (input_holds x y) l ->
    covers (damage c) x y ->
    covers (damage c') x y \/ exists new, log c' = log c ++ new /\ encoded new x y.
Proof. exact run_keep. Qed.

Example C46_case : exists c', run (calm false none) 3 fresh
    [IRead (Some ask_more); IDamage small [(2, 2, 5, 5)]; IDamage small [(0, 0, 1, 1)]] = Ok c' /\
  In (Encode [(2, 2, 5, 5)] 10 10 true) (log c') /\ damage c' = [(0, 0, 1, 1)].
Proof. eexists. split; [vm_compute; reflexivity|]. split; [vm_compute; auto|reflexivity]. Qed.

(** In a buffer 40000 pixels wide the pixel 3, 3 is damaged, the damage is taken as
    dealt with, but the region given to the encoder is empty: the corners of the
    buffer's rectangle do not fit pixman's 16-bit boxes (src/server.c:945-947). *)
Theorem C46_damage_is_never_lost_refuted :
  exists (E : env) (fuel : nat) (c : client) (f : fb) (r : region) (l : list input)
         (c' : client) (x y : Z),
    closed c = false /\
    run E fuel c (IDamage f r :: l) = Ok c' /\
    (0 <= x < fb_w f /\ 0 <= y < fb_h f) /\ covers r x y /\
    ~ (covers (damage c') x y \/ exists new, log c' = log c ++ new /\ encoded new x y).
Proof.
  exists (calm false none), 3%nat, fresh, (mk_fb 40000 10 false), [(2, 2, 5, 5)],
    [IRead (Some ask_more)].
  eexists. exists 3, 3. split; [reflexivity|]. split; [vm_compute; reflexivity|].
  split; [cbn; lia|]. split; [constructor; cbn; lia|].
  intros [H|(new & L & r & w & h & ok & I & C)].
  - cbn in H. inversion H.
  - cbn in L. subst new. cbn in I. repeat destruct I as [I|I]; try discriminate I; [|exact I].
    injection I as <- _ _ _. inversion C.
Qed.

(** * C85: damage is not forgotten before the client has seen it. *)

(** The encoder refuses a frame, or a frame is thrown away because the client has
    changed its formats: the damage has been cleared already, and nothing is sent
    when the client asks again (src/server.c:939-958, 2494-2504). *)
Theorem C85_damage_until_sent_refuted :
  (exists (E : env) (c' : client),
     run E 3 fresh [IRead (Some ask_more); IDamage small [(2, 2, 5, 5)];
                    IRead (Some ask_more)] = Ok c' /\
     damage c' = [] /\ updating c' = false /\ pending c' = 2 /\
     ~ (exists l, In (Update KFrame l) (log c'))) /\
  (exists (E : env) (c' : client),
     run E 3 fresh [IRead (Some ask_more); IDamage small [(2, 2, 5, 5)];
                    IRead (Some (encodings [ENC_RAW])); IEncoded some_frame;
                    IRead (Some ask_more)] = Ok c' /\
     damage c' = [] /\ updating c' = false /\ pending c' = 2 /\
     ~ (exists l, In (Update KFrame l) (log c'))).
Proof.
  split.
  - exists (mk_env false false None (fun _ => 0) (fun _ _ _ => false) (fun _ _ => None)
      (fun _ _ => true) (fun _ => false) (fun _ => false) (fun _ => ([], None)) none).
    eexists. split; [vm_compute; reflexivity|]. repeat (split; [reflexivity|]).
    intros [l I]. cbn in I. repeat destruct I as [I|I]; try discriminate I; exact I.
  - exists (calm false none).
    eexists. split; [vm_compute; reflexivity|]. repeat (split; [reflexivity|]).
    intros [l I]. cbn in I. repeat destruct I as [I|I]; try discriminate I; exact I.
Qed.

(** * C47: one frame in flight, requests counted. *)

(** In every run in which the client requests no fence, or in which nothing has
    arrived yet when the answer to a fence makes the server read again, there is at
    most one frame in flight and the number of outstanding requests is not negative;
    and without continuous updates it is the number of requests (a frame thrown away
    counts as asked for again) less the number of frames and of the other updates
    sent.  (Partial: fences with more messages waiting.) *)
Theorem C47_one_frame_and_requests_counted_partial :
  forall (E : env) (fuel : nat) (p : pixfmt) (d : fb) (seq : Z) (l : list input) (c : client),
    run E fuel (ready p d seq) l = Ok c ->
    (forall h, e_more E h = None) \/ count is_fence (log c) = 0 ->
    in_flight (log c) = Some (updating c) /\
    0 <= pending c /\
    (count is_cu_on (log c) = 0 ->
     count is_request (log c) + count is_drop (log c) =
     pending c + count is_reply (log c) + count is_frame (log c)).
Proof.
  intros E fuel p d seq l c H N.
  assert (X : exists md, J md 0 c).
  { destruct N as [N|N]; [exists true|exists false];
      (eapply run_J; [|apply (ready_J _ p d seq)| |exact H]); auto; discriminate. }
  destruct X as [md [_ P _ F _ B]].
  split; [exact F|]. split; [exact P|]. intros U. specialize (B U). unfold balance in B. lia.
Qed.

Example C47_case : exists c, run (calm false none) 3 fresh
    [IRead (Some (encodings [ENC_RAW; ENC_CURSOR])); IRead (Some (ask_all ++ ask_more ++ ask_more));
     ICursor; IEncoded some_frame; IDamage small [(0, 0, 1, 1)]; IWritten] = Ok c /\
  count is_request (log c) = 3 /\ count is_reply (log c) = 1 /\ count is_frame (log c) = 2 /\
  pending c = 0 /\ in_flight (log c) = Some true.
Proof. eexists. split; [vm_compute; reflexivity|]. repeat split. Qed.

(** with a fence that waits for the frame in flight *)
Example C47_case_fence : exists c, run (calm false none) 3 fresh
    [IRead (Some ask_all); IRead (Some fence_before); IRead (Some ask_more);
     IDamage small [(0, 0, 1, 1)]; IEncoded some_frame; IWritten] = Ok c /\
  count is_fence (log c) = 1 /\ In (Sent [248; 0; 0; 0; 0; 0; 0; 1; 0]) (log c) /\
  count is_frame (log c) = 2 /\ in_flight (log c) = Some true.
Proof. eexists. split; [vm_compute; reflexivity|]. vm_compute. repeat split. tauto. Qed.

(** With a fence the receive function is called from within the handling of a
    request (src/server.c:828-835 and 2435), and what it does is not expected there.
    First: two frames are given to the encoder at the same time.  Second: more
    updates than requests, and the number of outstanding requests is -1. *)
Theorem C47_one_frame_and_requests_counted_refuted :
  (exists (E : env) (fuel : nat) (l : list input) (c : client),
     run E fuel fresh l = Ok c /\ in_flight (log c) = None) /\
  (exists (E : env) (fuel : nat) (l : list input) (c : client),
     run E fuel fresh l = Ok c /\ count is_cu_on (log c) = 0 /\ pending c < 0 /\
     count is_request (log c) + count is_drop (log c) <
     count is_reply (log c) + count is_frame (log c)).
Proof.
  pose (after_fence := fun (d : list Z) (l : list out) =>
    match rev l with Sent [248; 0; 0; 0; 0; 0; 0; 1; 0] :: _ => Some d | _ => None end).
  pose (story := [IRead (Some (encodings [ENC_RAW; ENC_CURSOR])); IRead (Some ask_all);
    IRead (Some fence_before); IRead (Some ask_more); ICursor;
    IDamage small [(0, 0, 1, 1)]; IEncoded some_frame]).
  split.
  - exists (calm true (after_fence (ask_more ++ ask_all))), 3%nat, story.
    eexists. split; [vm_compute; reflexivity|]. vm_compute. reflexivity.
  - exists (calm true (after_fence pong)), 3%nat, story.
    eexists. split; [vm_compute; reflexivity|]. vm_compute. repeat split.
Qed.

Print Assumptions C46_damage_is_never_lost_partial.
Print Assumptions C46_pending_damage_is_kept_partial.
Print Assumptions C46_damage_is_never_lost_refuted.
Print Assumptions C85_damage_until_sent_refuted.
Print Assumptions C47_one_frame_and_requests_counted_partial.
Print Assumptions C47_one_frame_and_requests_counted_refuted.
