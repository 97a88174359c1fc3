(** Proofs about clients that wait for a fence. *)
From Verif Require Import Common CommonProofs Pixels_Model Msg_Model Msg_Proofs Msg_Spec
  Msg2_Spec Msg3_Proofs Msg4_Proofs Upd_Spec Upd_Proofs Msg5_Proofs Msg6_Proofs Msg7_Proofs.

Lemma blocked_read E fuel c d : blocked c = true -> cut c = None -> idx c = 0 -> closed c = false ->
  zlen (buf c) + zlen d <= MSG_BUFFER_SIZE -> zlen (buf c) < MSG_BUFFER_SIZE ->
  step E fuel c (IRead (Some d)) = Ok (set_buf (buf c ++ d) c).
Proof.
  intros B C I CL L L2. unfold step. rewrite CL. cbn [receive]. unfold on_client_event. rewrite C, I. cbn [Z.eqb negb].
  rewrite (proj2 (Z.leb_gt _ _)) by lia.
  destruct d as [|x d].
  - rewrite app_nil_r. destruct c. reflexivity.
  - rewrite (proj2 (Z.ltb_ge _ _)) by lia.
    change (Z.to_nat 4098) with (S (Z.to_nat 4097)). cbn [message_loop].
    change (blocked (set_buf (buf c ++ x :: d) c)) with (blocked c). rewrite B. cbn [bind].
    change (idx (set_buf (buf c ++ x :: d) c)) with (idx c). rewrite I.
    change (buf (set_buf (buf c ++ x :: d) c)) with (buf c ++ x :: d).
    rewrite (proj2 (Z.ltb_ge _ _)) by (unfold zlen; lia). cbn [Z.to_nat skipn].
    f_equal. destruct c. cbn in I. rewrite I. reflexivity.
Qed.

Lemma blocked_reads E fuel ds : forall c, blocked c = true -> cut c = None -> idx c = 0 -> closed c = false ->
  zlen (buf c) + zlen (concat ds) < MSG_BUFFER_SIZE ->
  run E fuel c (map (fun d => IRead (Some d)) ds) = Ok (set_buf (buf c ++ concat ds) c).
Proof.
  induction ds as [|d ds IH]; intros c B C I CL L; cbn [map run concat] in *.
  - rewrite app_nil_r. destruct c. reflexivity.
  - assert (ZL : zlen (d ++ concat ds) = zlen d + zlen (concat ds)) by (unfold zlen; rewrite app_length; lia).
    assert (0 <= zlen (concat ds) /\ 0 <= zlen d) by (unfold zlen; lia).
    rewrite (blocked_read E fuel c d B C I CL) by lia. cbn [bind].
    rewrite IH; auto.
    + change (buf (set_buf (buf c ++ d) c)) with (buf c ++ d). rewrite <- app_assoc. destruct c. reflexivity.
    + change (buf (set_buf (buf c ++ d) c)) with (buf c ++ d).
      assert (zlen (buf c ++ d) = zlen (buf c) + zlen d) by (unfold zlen; rewrite app_length; lia). lia.
Qed.

(* the client right after its fence was answered *)
Lemma answered E r f c : pf_n c = 1 -> closed c = false -> fmt_changed c && negb (has_encoding c ENC_FENCE) = false ->
  (forall l, e_sync E l = false) ->
  (fst (known c) = f_w f /\ snd (known c) = f_h f \/ supports_resizing c = true) ->
  exists c1 u ping, finish_update E r f c = r c1 /\ (length ping <= 1)%nat /\
    log c1 = log c ++ [Update KFrame u] ++ ping ++ [Sent (fence_msg 0 0 0 (pf_flags c) (pf_payload c))] /\
    blocked c1 = false /\ pf_n c1 = 0 /\ buf c1 = buf c /\ idx c1 = idx c /\ cut c1 = cut c /\ block_next c1 = block_next c /\ closed c1 = false.
Proof.
  intros PF CL DR SY SZ. unfold finish_update. rewrite CL, DR. cbv zeta.
  set (resized := negb (_ && _)). replace (resized && negb (supports_resizing c)) with false
    by (symmetry; subst resized; destruct SZ as [[-> ->]| ->]; [rewrite !Z.eqb_refl; reflexivity|apply andb_false_r]).
  set (c1 := if resized then set_damage _ _ else c).
  assert (L1 : log c1 = log c /\ pf_n c1 = 1 /\ pf_flags c1 = pf_flags c /\ pf_payload c1 = pf_payload c /\
     buf c1 = buf c /\ idx c1 = idx c /\ cut c1 = cut c /\ block_next c1 = block_next c /\ closed c1 = false)
    by (subst c1; destruct resized; repeat split; assumption).
  clearbody c1. set (o := Update KFrame _). set (c2 := say o c1).
  rewrite SY. cbn [bind].
  assert (X : exists ping, (length ping <= 1)%nat /\
     let c3 := send_ping E (zlen (f_data f)) c2 in
     log c3 = log c ++ [o] ++ ping /\ pf_n c3 = 1 /\ pf_flags c3 = pf_flags c /\ pf_payload c3 = pf_payload c /\
     buf c3 = buf c /\ idx c3 = idx c /\ cut c3 = cut c /\ block_next c3 = block_next c /\ closed c3 = false).
  { unfold send_ping. destruct L1 as (L1 & L2). destruct (negb (has_encoding c2 _)).
    - exists []. split; [cbn; lia|]. cbn. rewrite L1. auto.
    - eexists [_]. split; [cbn; lia|]. cbn. rewrite L1, <- app_assoc. cbn. auto. }
  destruct X as (ping & LP & X). cbv zeta in X. destruct X as (X1 & X2 & X3 & X4 & X5 & X6 & X7 & X8 & X9).
  set (c3 := send_ping _ _ _) in *. clearbody c3. clearbody c2.
  unfold process_pending_fence. rewrite X2. cbn [Z.eqb].
  change (pf_n (set_pf_n (1 - 1) c3)) with 0. cbn [Z.eqb negb].
  eexists _, _, ping. split; [reflexivity|]. split; [exact LP|]. split; [|auto 10].
  cbn. rewrite X1, X3, X4. rewrite <- !app_assoc. reflexivity.
Qed.

(* a fence that has to wait *)
Lemma fence_blocks E r c p1 p2 p3 flags payload : 2 ^ 31 <= flags < 2 ^ 32 -> zlen payload <= 64 ->
  pending c = 0 -> updating c = true -> Z.land flags 7 = 3 ->
  exists c1, on_message E r c (fence_msg p1 p2 p3 flags payload) = Ok (c1, zlen (fence_msg p1 p2 p3 flags payload)) /\
    blocked c1 = true /\ pf_n c1 = 1 /\ pf_flags c1 = 3 /\ pf_payload c1 = payload /\ log c1 = log c ++ [FenceReq 3 payload].
Proof.
  intros F P A B C. rewrite fence_msg_eq by assumption.
  unfold on_fence_request. rewrite A. cbn [Z.ltb Z.compare].
  change (pending (say _ c)) with (pending c). change (updating (say _ c)) with (updating c).
  rewrite A, B, C. cbn [Z.b2z Z.add Z.ltb Z.compare].
  change (flag 3 1) with true. cbn [andb]. eexists. split; [reflexivity|]. repeat split.
Qed.

Lemma long_payload E r c m : all_bytes m -> nth 0 m 0 = 248 -> 9 <= zlen m -> 64 < nth 8 m 0 -> 8 + nth 8 m 0 <= zlen m ->
  on_message E r c m = Fault UseAfterFree.
Proof.
  intros A T L G L2. destruct m as [|x m]; [unfold zlen in L; cbn in L; lia|]. cbn [nth] in T. subst x.
  set (m0 := 248 :: m) in *. unfold on_message. change (on_fence E r c m0 = Fault UseAfterFree). unfold on_fence.
  rewrite !(proj2 (Z.ltb_ge _ _)) by lia. cbv zeta.
  assert (U : u8 m0 8 = nth 8 m0 0).
  { unfold u8. first [reflexivity | unfold get, slice; cbn; reflexivity]. }
  rewrite U, !(proj2 (Z.ltb_ge _ _)) by lia. rewrite (proj2 (Z.ltb_lt _ _)) by lia. reflexivity.
Qed.
