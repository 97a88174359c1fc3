(** C159: a client that follows the protocol is never taken to have hung up because
    what it sent does not fit the server's buffer. *)
From Verif Require Import Common CommonProofs Msg_Model Msg_Spec Msg_Proofs Msg_Props Upd_Spec Upd_Props Fence_Props
  Room_Spec Room_Proofs.

(** Missing: SetEncodings with more than 1023 encodings, and a client that has asked
    for a fence that blocks.  The bytes of messages that fit, arriving in any pieces,
    leave the connection open exactly when the messages given one by one do. *)
Theorem C159_room_for_messages_partial :
  forall (E : env) (fuel : nat) (c : client) (ms : list (list Z)) (c' : client)
         (rest : list Z) (ks : list nat),
    quiet c -> buf c = [] -> idx c = 0 ->
    Forall whole ms -> handled E c ms c' -> unfinished rest ->
    exists c2 s, feed E fuel c ks (concat ms ++ rest) = Ok (c2, s) /\
      (s = [] -> closed c2 = closed c' /\ log c2 = log c').
Proof.
  intros E fuel c ms c' rest ks Q B I W H U.
  destruct (C36_segmentation_does_not_matter E fuel c ms c' rest ks Q B I W H U) as (c2 & s & F & R).
  exists c2, s. split; [exact F|]. intros SE. rewrite (R SE). split; reflexivity.
Qed.
Print Assumptions C159_room_for_messages_partial.
Example C159_partial_case : exists c', handled (calm false none) fresh [encodings (repeat 0 1023)] c' /\
  zlen (encodings (repeat 0 1023)) = 4096 /\ whole (encodings (repeat 0 1023)) /\ closed c' = false.
Proof.
  eexists. split; [eapply h_cons; [vm_compute; reflexivity|apply h_nil]|].
  split; [reflexivity|]. split; [|reflexivity].
  exact (w_encodings 0 1023 (flat_map (be 4) (repeat 0 1023)) (ltac:(lia)) eq_refl).
Qed.

(** A client that offers 1024 encodings or more is thrown out, in whatever pieces the
    message arrives: once 4096 bytes of it are there, nothing has been done about
    them, and the next byte to arrive is taken for the end of the connection. *)
Theorem C159_long_offers_end_the_connection :
  forall (E : env) (fuel : nat) (c : client) (n : Z) (m : list Z) (ds : list (list Z)) (t : list Z),
    quiet c -> buf c = [] -> idx c = 0 -> closed c = false ->
    offers n m -> 1024 <= n ->
    m = concat ds ++ t -> zlen (concat ds) = 4096 -> Forall (fun d => d <> []) ds ->
    exists c', run E fuel c (reads ds) = Ok c' /\
      log c' = log c /\ encs c' = encs c /\ closed c' = false /\ hung_up E fuel c'.
Proof.
  intros E fuel c n m ds t Q B I CL OF N M L NE.
  destruct (long_list_hangs E fuel c n m ds t Q B I CL OF N M L NE) as (R & H).
  eexists. split; [exact R|]. split; [reflexivity|]. split; [reflexivity|]. split; [exact CL|exact H].
Qed.
Print Assumptions C159_long_offers_end_the_connection.
Example C159_long_offers_case :
  quiet fresh /\ buf fresh = [] /\ offers 1024 (encodings (repeat 0 1024)) /\
  encodings (repeat 0 1024) = concat [firstn 1000 (encodings (repeat 0 1024)); firstn 3096 (skipn 1000 (encodings (repeat 0 1024)))] ++ repeat 0 4.
Proof.
  split; [repeat split|]. split; [reflexivity|]. split; [|vm_compute; reflexivity].
  split; [lia|]. exists 0, (flat_map (be 4) (repeat 0 1024)). split; reflexivity.
Qed.

(** So is a client that sends on, as it may, while a fence of its own is waiting to be
    answered: what it sends is put by, and when 4096 bytes of it are there the
    connection ends, nothing of it having been looked at. *)
Theorem C159_waiting_for_a_fence_ends_the_connection :
  forall (E : env) (fuel : nat) (c : client) (ds : list (list Z)),
    blocked c = true -> cut c = None -> idx c = 0 -> closed c = false ->
    zlen (buf c) < 4096 -> zlen (buf c) + zlen (concat ds) = 4096 -> Forall (fun d => d <> []) ds ->
    exists c', run E fuel c (reads ds) = Ok c' /\
      log c' = log c /\ closed c' = false /\ hung_up E fuel c'.
Proof.
  intros E fuel c ds B C I CL L L2 NE.
  destruct (blocked_hangs E fuel c ds B C I CL L L2 NE) as (R & H).
  eexists. split; [exact R|]. split; [reflexivity|]. split; [exact CL|exact H].
Qed.
Print Assumptions C159_waiting_for_a_fence_ends_the_connection.

(* pointer events, 6 bytes each *)
Definition moves (n : nat) : list Z := concat (repeat [5; 0; 0; 1; 0; 1] n).

Example C159_waiting_case : exists c,
  run (calm false none) 3 fresh [IRead (Some ask_all); IRead (Some fence_both)] = Ok c /\
  blocked c = true /\ cut c = None /\ idx c = 0 /\ closed c = false /\ buf c = [].
Proof. eexists. split; [vm_compute; reflexivity|]. repeat split. Qed.

(** A client asks for an update, then for a fence that blocks, then moves the pointer
    683 times while the update is being made: it is thrown out and none of its
    pointer events arrives. *)
Theorem C159_room_for_messages_refuted :
  exists E fuel c0 ds c,
    concat ds = ask_all ++ fence_both ++ moves 683 /\
    run E fuel c0 (reads ds) = Ok c /\ closed c = true /\
    log c = [FbReq 0 0 0 10 10; Encode [(0, 0, 10, 10)] 10 10 true; FenceReq 3 [5; 6]].
Proof.
  exists (calm false none), 3%nat, fresh,
    [ask_all; fence_both; firstn 4096 (moves 683); skipn 4096 (moves 683)].
  eexists. split; [vm_compute; reflexivity|]. split; [vm_compute; reflexivity|].
  split; [reflexivity|]. vm_compute. reflexivity.
Qed.
Print Assumptions C159_room_for_messages_refuted.
