(** Proofs about running out of room in the receive buffer. *)
From Verif Require Import Common CommonProofs Msg_Model Msg_Spec Room_Spec.

Lemma still_read E fuel c d :
  cut c = None -> idx c = 0 -> closed c = false ->
  zlen (buf c) + zlen d <= MSG_BUFFER_SIZE -> zlen (buf c) < MSG_BUFFER_SIZE ->
  (d <> [] -> forall r n, message_loop E r (S n) (set_buf (buf c ++ d) c) = Ok (set_buf (buf c ++ d) c)) ->
  step E fuel c (IRead (Some d)) = Ok (set_buf (buf c ++ d) c).
Proof.
  intros C I CL L L2 M. unfold step. rewrite CL. cbn [receive]. unfold on_client_event. rewrite C, I. cbn [Z.eqb negb].
  rewrite (proj2 (Z.leb_gt _ _)) by lia.
  destruct d as [|x d].
  - rewrite app_nil_r. destruct c. reflexivity.
  - rewrite (proj2 (Z.ltb_ge _ _)) by lia.
    change (Z.to_nat 4098) with (S (Z.to_nat 4097)). rewrite M by discriminate. cbn [bind].
    change (idx (set_buf (buf c ++ x :: d) c)) with (idx c). rewrite I.
    change (buf (set_buf (buf c ++ x :: d) c)) with (buf c ++ x :: d).
    rewrite (proj2 (Z.ltb_ge _ _)) by (unfold zlen; lia). cbn [Z.to_nat skipn].
    f_equal. destruct c. cbn in I. rewrite I. reflexivity.
Qed.

Lemma still_reads E fuel ds : forall c,
  cut c = None -> idx c = 0 -> closed c = false ->
  zlen (buf c) < MSG_BUFFER_SIZE -> zlen (buf c) + zlen (concat ds) <= MSG_BUFFER_SIZE ->
  Forall (fun d => d <> []) ds ->
  (forall s t, concat ds = s ++ t -> s <> [] ->
     forall r n, message_loop E r (S n) (set_buf (buf c ++ s) c) = Ok (set_buf (buf c ++ s) c)) ->
  run E fuel c (reads ds) = Ok (set_buf (buf c ++ concat ds) c).
Proof.
  induction ds as [|d ds IH]; intros c C I CL L L2 NE M; cbn [reads map run concat] in *.
  - rewrite app_nil_r. destruct c. reflexivity.
  - inversion_clear NE as [|? ? N1 N2].
    assert (ZL : zlen (d ++ concat ds) = zlen d + zlen (concat ds)) by (unfold zlen; rewrite app_length; lia).
    assert (0 <= zlen (concat ds) /\ 0 <= zlen d) by (unfold zlen; lia).
    rewrite (still_read E fuel c d C I CL) by (try lia; intros D r n; apply (M d (concat ds) eq_refl D)).
    cbn [bind].
    assert (ZB : zlen (buf c ++ d) = zlen (buf c) + zlen d) by (unfold zlen; rewrite app_length; lia).
    destruct ds as [|d2 ds].
    + cbn [map run concat]. rewrite app_nil_r. reflexivity.
    + fold (reads (d2 :: ds)). rewrite IH; auto.
      * change (buf (set_buf (buf c ++ d) c)) with (buf c ++ d). rewrite <- app_assoc. destruct c. reflexivity.
      * change (buf (set_buf (buf c ++ d) c)) with (buf c ++ d).
        inversion_clear N2 as [|? ? N3 _].
        assert (0 < zlen d2) by (destruct d2; [congruence|unfold zlen; cbn [length]; lia]).
        assert (zlen (concat (d2 :: ds)) = zlen d2 + zlen (concat ds)) by (cbn [concat]; unfold zlen; rewrite app_length; lia).
        assert (0 <= zlen (concat ds)) by (unfold zlen; lia).
        lia.
      * change (buf (set_buf (buf c ++ d) c)) with (buf c ++ d). lia.
      * change (buf (set_buf (buf c ++ d) c)) with (buf c ++ d).
        intros s t E1 SN r n.
        replace (set_buf ((buf c ++ d) ++ s) (set_buf (buf c ++ d) c)) with (set_buf (buf c ++ d ++ s) c)
          by (rewrite <- app_assoc; destruct c; reflexivity).
        apply (M (d ++ s) t); [rewrite E1, app_assoc; reflexivity|].
        destruct d; [congruence|discriminate].
Qed.

Lemma full_hangs E fuel c : cut c = None -> idx c = 0 -> closed c = false ->
  MSG_BUFFER_SIZE <= zlen (buf c) -> hung_up E fuel c.
Proof.
  intros C I CL L d. unfold step. rewrite CL. cbn [receive]. unfold on_client_event. rewrite C, I. cbn [Z.eqb negb].
  rewrite (proj2 (Z.leb_le _ _)) by lia. reflexivity.
Qed.

Lemma list_waits E r n c k m s t : blocked c = false -> block_next c = false -> idx c = 0 ->
  offers k m -> m = s ++ t -> s <> [] -> t <> [] -> buf c = s ->
  message_loop E r (S n) c = Ok c.
Proof.
  intros B BN I (K & pad & l & M & L) ST SN TN BUF. cbn [message_loop]. rewrite B, I, BUF, BN.
  rewrite (proj2 (Z.ltb_ge _ _)) by (unfold zlen; lia).
  change (idx (set_block_next false (set_blocked false c))) with (idx c). rewrite I.
  change (buf (set_block_next false (set_blocked false c))) with (buf c). rewrite BUF.
  cbn [Z.to_nat skipn].
  assert (C2 : set_block_next false (set_blocked false c) = c) by (destruct c; cbn in B, BN; subst; reflexivity).
  rewrite C2.
  assert (ON : on_message E r c s = Ok (c, 0)).
  { destruct s as [|x s]; [congruence|].
    rewrite M in ST. cbn [app] in ST. injection ST as <- ST.
    unfold on_message. unfold on_set_encodings.
    destruct (zlen (2 :: s) <? 4) eqn:SH; [reflexivity|]. apply Z.ltb_ge in SH.
    change (be 2 k) with [k / 256 mod 256; k mod 256] in ST.
    destruct s as [|x1 s]; [cbn in SH; lia|]. destruct s as [|x2 s]; [cbn in SH; lia|].
    destruct s as [|x3 s]; [cbn in SH; lia|].
    cbn [app] in ST. injection ST as -> <- <- ST.
    assert (U : u16 (2 :: x1 :: k / 256 mod 256 :: k mod 256 :: s) 2 = k).
    { change (u16 (2 :: x1 :: k / 256 mod 256 :: k mod 256 :: s) 2) with (unbe (be 2 k)).
      apply unbe_be. change (2 ^ (8 * Z.of_nat 2)) with 65536. lia. }
    rewrite U.
    assert (LL : zlen l = zlen s + zlen t) by (rewrite ST; unfold zlen; rewrite app_length; lia).
    assert (0 < zlen t) by (destruct t; [congruence|unfold zlen; cbn [length]; lia]).
    rewrite (proj2 (Z.ltb_lt _ _)); [reflexivity|].
    unfold zlen in *. cbn [length]. lia. }
  rewrite ON. cbn [bind]. reflexivity.
Qed.

Lemma long_list_hangs E fuel c n m ds t : quiet c -> buf c = [] -> idx c = 0 -> closed c = false ->
  offers n m -> 1024 <= n -> m = concat ds ++ t -> zlen (concat ds) = 4096 -> Forall (fun d => d <> []) ds ->
  run E fuel c (reads ds) = Ok (set_buf (concat ds) c) /\
  hung_up E fuel (set_buf (concat ds) c).
Proof.
  intros (Q1 & Q2 & Q3 & Q4) BUF I CL OF N M L NE.
  assert (TN : t <> []).
  { intros ->. rewrite app_nil_r in M. destruct OF as (_ & pad & l & M2 & L2).
    rewrite M2 in M. rewrite <- M in L. unfold zlen in *. rewrite !app_length, be_length in L. cbn [length] in L. lia. }
  split.
  - rewrite (still_reads E fuel ds c Q4 I CL); rewrite ?BUF; auto; unfold MSG_BUFFER_SIZE; cbn [app]; try (unfold zlen in *; cbn [length]; lia).
    intros s t2 E1 SN r k.
    apply (list_waits E r k (set_buf s c) n m s (t2 ++ t)); auto.
    + rewrite M, E1, app_assoc. reflexivity.
    + destruct t2; [exact TN|discriminate].
  - apply full_hangs; auto. change (buf (set_buf (concat ds) c)) with (concat ds). unfold MSG_BUFFER_SIZE. lia.
Qed.

Lemma blocked_hangs E fuel c ds : blocked c = true -> cut c = None -> idx c = 0 -> closed c = false ->
  zlen (buf c) < 4096 -> zlen (buf c) + zlen (concat ds) = 4096 -> Forall (fun d => d <> []) ds ->
  run E fuel c (reads ds) = Ok (set_buf (buf c ++ concat ds) c) /\
  hung_up E fuel (set_buf (buf c ++ concat ds) c).
Proof.
  intros B C I CL L L2 NE. split.
  - apply still_reads; auto; unfold MSG_BUFFER_SIZE; try lia.
    intros s t E1 SN r k. cbn [message_loop].
    change (blocked (set_buf (buf c ++ s) c)) with (blocked c). rewrite B. reflexivity.
  - apply full_hangs; auto. change (buf (set_buf (buf c ++ concat ds) c)) with (buf c ++ concat ds).
    unfold MSG_BUFFER_SIZE, zlen in *. rewrite app_length. lia.
Qed.
