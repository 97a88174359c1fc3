(** C139, C140: compressed streams and encoders. *)
From Verif Require Import Common CommonProofs Enc_Model Enc_Spec Enc_Proofs Enc2_Proofs Enc3_Proofs Enc4_Proofs.

(** A compressor that, as zlib does, refers to what it has seen: a piece equal to the last one
    is a mark.  Its decompressor. *)
Definition toy_deflate (z p : list Z) : list Z * list Z := (p, if list_eq_dec Z.eq_dec p z then [1] else 0 :: p).
Definition toy_inflate (z b : list Z) : option (list Z * list Z) :=
  match b with 1 :: [] => Some (z, z) | 0 :: p => Some (p, p) | _ => None end.
Lemma toy_ok : codec_ok [] toy_deflate [] toy_inflate.
Proof.
  exists eq. split; [reflexivity|]. intros z i p <-. unfold toy_deflate. cbn [fst snd]. destruct (list_eq_dec Z.eq_dec p z) as [->|N]; cbn; eauto.
Qed.

(** Whatever clients and server do, a viewer with one decompressor for each compressed
    encoding reads every frame it is sent as it was drawn — however often the encoding and the
    pixel format were changed in between — provided no frame of that encoding was thrown away. *)
Theorem C139_viewer_reads_every_frame_partial :
  forall zst (z_new : zst) deflate ist (i_new : ist) inflate os s i k,
    codec_ok z_new deflate i_new inflate -> run zst z_new deflate (init zst z_new) os = Ok s -> deflates k = true ->
    of_kind k (c_lost (s_cli _ s i)) = [] ->
    watch inflate i_new (map f_bytes (of_kind k (c_out (s_cli _ s i)))) = map (fun f => Some (f_plain f)) (of_kind k (c_out (s_cli _ s i))).
Proof.
  intros zst z_new deflate ist i_new inflate os s i k (R & R0 & Law) E Dk No.
  destruct (run_inv _ _ _ os _ _ s (inv_init zst z_new deflate) E) as [own I]. destruct (i_loc _ _ _ _ _ I i) as [_ _ _ Hz Ht].
  assert (H : hist zst z_new deflate k (s_cli _ s i) (s_enc _ s)) by (destruct k; try discriminate Dk; assumption).
  destruct H as (t & S & A & B & _). rewrite No in B. rewrite A, (nothing_thrown t) by (symmetry; exact B).
  apply (watch_stream zst deflate ist i_new inflate R Law _ z_new i_new R0 S).
Qed.
Print Assumptions C139_viewer_reads_every_frame_partial.
(** Two clients; the first changes from ZRLE to Tight and back; three ZRLE frames, all read. *)
Definition calm : list op :=
  [Connect; SetEncodings 0 false; Process 0 KZrle [5; 6] true true; Done 0; Written 0; Connect; SetEncodings 0 false; Process 0 KTight [7] true true;
   Process 1 KRaw [9] true true; Done 2; Written 1; Done 1; Written 0; SetFormat 0; Process 0 KZrle [5; 6] true true; Done 0; Written 0; Process 0 KZrle [8] true true; Done 0].
Example C139_ex : exists s, run _ [] toy_deflate (init _ []) calm = Ok s /\ of_kind KZrle (c_lost (s_cli _ s 0%nat)) = [] /\
  map f_bytes (of_kind KZrle (c_out (s_cli _ s 0%nat))) = [[0; 5; 6]; [1]; [0; 8]].
Proof. eexists. split; [vm_compute; reflexivity|split; vm_compute; reflexivity]. Qed.

(** A frame is thrown away when the client changes format while it is being encoded; it has gone
    through the compressor.  Here the next one is taken for the one before it. *)
Theorem C139_viewer_reads_every_frame_refuted :
  exists zst (z_new : zst) deflate ist (i_new : ist) inflate os s i k,
    codec_ok z_new deflate i_new inflate /\ run zst z_new deflate (init zst z_new) os = Ok s /\ deflates k = true /\ c_alive (s_cli _ s i) = true /\ c_shut (s_cli _ s i) = false /\
    watch inflate i_new (map f_bytes (of_kind k (c_out (s_cli _ s i)))) <> map (fun f => Some (f_plain f)) (of_kind k (c_out (s_cli _ s i))).
Proof.
  exists (list Z), [], toy_deflate, (list Z), [], toy_inflate.
  exists [Connect; SetEncodings 0 false; Process 0 KZrle [5; 6] true true; Done 0; Written 0; Process 0 KZrle [7; 8] true true; SetFormat 0; Done 0; Process 0 KZrle [7; 8] true true; Done 0].
  eexists _, 0%nat, KZrle. split; [exact toy_ok|]. split; [vm_compute; reflexivity|]. split; [reflexivity|]. split; [reflexivity|]. split; [reflexivity|]. vm_compute. discriminate.
Qed.
Print Assumptions C139_viewer_reads_every_frame_refuted.

(** In general: the frames sent and those thrown away form one stream, in some order; each frame
    refers to all that came before it in the stream, thrown away or not. *)
Theorem C139_thrown_frames_stay_in_the_stream :
  forall zst (z_new : zst) deflate os s i k, run zst z_new deflate (init zst z_new) os = Ok s -> deflates k = true ->
    exists t : list (frame * bool), in_stream deflate z_new (map fst t) /\
      of_kind k (c_out (s_cli _ s i)) = map fst (filter snd t) /\ of_kind k (c_lost (s_cli _ s i)) = map fst (filter (fun x => negb (snd x)) t).
Proof.
  intros zst z_new deflate os s i k E Dk.
  destruct (run_inv _ _ _ os _ _ s (inv_init zst z_new deflate) E) as [own I]. destruct (i_loc _ _ _ _ _ I i) as [_ _ _ Hz Ht].
  assert (H : hist zst z_new deflate k (s_cli _ s i) (s_enc _ s)) by (destruct k; try discriminate Dk; assumption).
  destruct H as (t & S & A & B & _). exists t. auto.
Qed.
Print Assumptions C139_thrown_frames_stay_in_the_stream.
Example C139_thrown_ex : exists s, run _ [] toy_deflate (init _ [])
   [Connect; Process 0 KTight [5] true true; Done 0; Written 0; Process 0 KTight [7] true true; SetEncodings 0 false; Done 0; Process 0 KTight [7] true true; Done 0] = Ok s /\
   map f_bytes (c_out (s_cli _ s 0%nat)) = [[0; 5]; [1]] /\ map f_bytes (c_lost (s_cli _ s 0%nat)) = [[0; 7]].
Proof. eexists. split; [vm_compute; reflexivity|split; vm_compute; reflexivity]. Qed.

(** A client that names the Fence encoding loses no frame from then on, as long as it goes on
    naming it. *)
Theorem C139_fence_clients_lose_nothing :
  forall zst (z_new : zst) deflate os1 s1 os2 s2 i,
    run zst z_new deflate (init zst z_new) os1 = Ok s1 -> c_alive (s_cli _ s1 i) = true -> c_fence (s_cli _ s1 i) = true ->
    (forall fence, In (SetEncodings i fence) os2 -> fence = true) -> run zst z_new deflate s1 os2 = Ok s2 ->
    c_lost (s_cli _ s2 i) = c_lost (s_cli _ s1 i).
Proof.
  intros zst z_new deflate os1 s1 os2 s2 i E1 Al F A E2. destruct (run_inv _ _ _ os1 _ _ s1 (inv_init zst z_new deflate) E1) as [own I].
  apply (run_keeps zst z_new deflate os2 s1 s2 i); auto. apply (alive_lt _ _ _ own s1 i I Al).
Qed.
Print Assumptions C139_fence_clients_lose_nothing.
Example C139_fence_ex : exists s1 s2, run _ [] toy_deflate (init _ []) [Connect; SetEncodings 0 true] = Ok s1 /\ c_alive (s_cli _ s1 0%nat) = true /\ c_fence (s_cli _ s1 0%nat) = true /\
  run _ [] toy_deflate s1 [Process 0 KZrle [5] true true; SetFormat 0; SetEncodings 0 true; Done 0] = Ok s2 /\ length (c_out (s_cli _ s2 0%nat)) = 1%nat.
Proof. eexists _, _. split; [vm_compute; reflexivity|]. split; [reflexivity|]. split; [reflexivity|]. split; [vm_compute; reflexivity|reflexivity]. Qed.

(** Encoders outlive their use: whatever happens, with memory for the encoders that are kept, no
    encoder is touched after it was freed, none that has a frame to encode gets another, and no
    client is called back after it was freed. *)
Theorem C140_no_encoder_is_used_after_it_is_gone_partial :
  forall zst (z_new : zst) deflate os, Forall memory os -> exists s, run zst z_new deflate (init zst z_new) os = Ok s.
Proof. intros zst z_new deflate os M. apply (run_safe zst z_new deflate os _ _ (inv_init zst z_new deflate) M). Qed.
Print Assumptions C140_no_encoder_is_used_after_it_is_gone_partial.
(** The client is closed while a frame is encoded; changes of encoding; a failed start. *)
Definition rough : list op :=
  [Connect; Connect; Process 0 KZrle [1] true true; Process 1 KH264 [2] true true; Close 0; Done 0; Done 1; Process 1 KZrle [3] true false; Written 1;
   Process 1 KZrle [3] true false; Process 1 KRaw [4] false true; Process 1 KRaw [4] true true; Gone 1; Done 3; Close 1; Done 3].
Example C140_ex : Forall memory rough.
Proof. unfold rough. repeat (apply Forall_cons; [cbn; auto; discriminate|]). constructor. Qed.

(** Without memory for a first ZRLE or Tight encoder the server crashes. *)
Theorem C140_no_encoder_is_used_after_it_is_gone_refuted :
  exists zst (z_new : zst) deflate os, run zst z_new deflate (init zst z_new) os = Fault NullDeref.
Proof. exists (list Z), [], toy_deflate, [Connect; Process 0 KZrle [1] false true]. reflexivity. Qed.
Print Assumptions C140_no_encoder_is_used_after_it_is_gone_refuted.

(** The server's count is that of the connected clients whose encoder needs damage. *)
Theorem C140_damage_clients_are_counted :
  forall zst (z_new : zst) deflate os s, run zst z_new deflate (init zst z_new) os = Ok s -> s_damage _ s = damage_clients s mod 2 ^ 32.
Proof.
  intros zst z_new deflate os s E. destruct (run_inv _ _ _ os _ _ s (inv_init zst z_new deflate) E) as [own I]. apply (i_dam _ _ _ _ _ I).
Qed.
Print Assumptions C140_damage_clients_are_counted.
Example C140_count_ex : exists s, run _ [] toy_deflate (init _ []) calm = Ok s /\ s_damage _ s = 2.
Proof. eexists. split; [vm_compute; reflexivity|vm_compute; reflexivity]. Qed.

(** Once everybody has left and no work is going on, no encoder is left. *)
Theorem C140_every_encoder_is_freed :
  forall zst (z_new : zst) deflate os s, run zst z_new deflate (init zst z_new) os = Ok s -> quiet s -> forall a, e_ref _ (s_enc _ s a) = 0.
Proof.
  intros zst z_new deflate os s E [Q1 Q2] a. destruct (run_inv _ _ _ os _ _ s (inv_init zst z_new deflate) E) as [own I].
  destruct (i_loc _ _ _ _ _ I (own a)) as [L _ _ _ _]. rewrite (l_ref _ _ _ _ _ L a eq_refl).
  destruct (l_dead _ _ _ _ _ L (Q1 _)) as (P1 & P2 & P3). unfold ptrs, work. rewrite P1, P2, P3, Q2. reflexivity.
Qed.
Print Assumptions C140_every_encoder_is_freed.
Example C140_freed_ex : exists s, run _ [] toy_deflate (init _ []) rough = Ok s /\ s_m _ s = 4%nat /\ map (fun i => c_alive (s_cli _ s i)) [0; 1]%nat = [false; false] /\
  map (fun a => e_job _ (s_enc _ s a)) [0; 1; 2; 3]%nat = [None; None; None; None].
Proof. eexists. split; [vm_compute; reflexivity|repeat split; vm_compute; reflexivity]. Qed.
