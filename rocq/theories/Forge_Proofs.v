(** Proofs for Forge_Props.v. *)
From Verif Require Import Common CommonProofs RsaAes_Model RsaAes_Spec RsaAes_Proofs.
From Verif Require Msg_Model.
From Verif Require Import Talk_Model Forge_Spec.

Section Forge.
Variable unseal mac : list Z -> list Z -> list Z -> list Z.
Notation decodes := (decodes unseal mac).

(** [got] has been read into the buffer and [ps] taken out of it. *)
Definition been (got : list Z) (ps : list (list Z)) (s : rstate) : Prop :=
  decodes 0 got ps (rbuf s) /\ rcnt s = counter_of (Z.of_nat (length ps)) /\ rclosed s = false.

Lemma read_auth s size avail got ps : all_bytes got -> all_bytes avail -> been got ps s ->
  exists s' r x kept, read unseal mac s size avail = Ok (s', r, kept) /\ avail = x ++ kept /\
    match r with
    | RErr => True
    | RGot d => (d = [] /\ rclosed s' = true) \/ exists qs, d = concat qs /\ been (got ++ x) (ps ++ qs) s'
    end.
Proof.
  intros Hg Ha (D & C & R). unfold read, read_into_buffer.
  destruct (BUFSIZE - zlen (rbuf s) =? 0) eqn:ER.
  { cbn [rclosed]. exists (mk_r (rbuf s) (rcnt s) true), (RGot []), [], avail. repeat split. left. split; reflexivity. }
  set (n := Z.to_nat (BUFSIZE - zlen (rbuf s))). cbn [rclosed]. rewrite R.
  set (s1 := mk_r (rbuf s ++ firstn n avail) (rcnt s) false).
  pose proof (decodes_more _ _ _ _ _ _ D (firstn n avail)) as D1.
  assert (Hb1 : all_bytes (got ++ firstn n avail))
    by (apply Forall_app; split; [assumption|apply Forall_firstn; assumption]).
  destruct (read_loop_auth mac unseal mac (S (length (rbuf s1))) s1 size [] (Z.of_nat (length ps)))
    as [s2 [r [E H]]]; [lia|exact C| |lia|].
  { eapply decodes_bytes; eauto. }
  rewrite E. cbn [bind fst snd]. exists s2, r, (firstn n avail), (skipn n avail).
  split; [reflexivity|]. split; [symmetry; apply firstn_skipn|]. destruct r as [d|]; [|exact I].
  right. destruct H as (qs & -> & D2 & C2 & R2). exists qs. split; [reflexivity|]. split; [|split].
  - eapply (decodes_app mac); eauto.
  - rewrite C2, app_length. f_equal. lia.
  - exact R2.
Qed.

Lemma talk_auth E fuel segs : forall s kept c got ps, all_bytes got -> all_bytes kept -> Forall all_bytes segs -> been got ps s ->
  exists ds qs rest, concat ds = concat qs /\ decodes 0 (got ++ kept ++ concat segs) (ps ++ qs) rest /\
    acted_on E fuel c ds (talk (rsa_read unseal mac) E fuel (s, kept) c segs).
Proof.
  induction segs as [|seg segs IH]; intros s kept c got ps G K F B.
  - exists [], [], (rbuf s ++ kept). split; [reflexivity|]. split.
    + cbn [concat]. rewrite !app_nil_r. apply decodes_more. apply B.
    + cbn [talk acted_on given]. exists c. auto.
  - apply Forall_cons_iff in F as [F1 F]. cbn [talk]. unfold rsa_read at 1. cbn [fst snd].
    assert (KA : all_bytes (kept ++ seg)) by (apply Forall_app; auto).
    destruct (read_auth s (asked c) (kept ++ seg) got ps G KA B) as (s' & r & x & kept' & RD & X & H).
    assert (Q : got ++ kept ++ concat (seg :: segs) = (got ++ x) ++ kept' ++ concat segs).
    { cbn [concat]. rewrite (app_assoc kept), X, <- !app_assoc. reflexivity. }
    assert (GX : all_bytes (got ++ x) /\ all_bytes kept').
    { rewrite X in KA. apply Forall_app in KA as [K1 K2]. split; [apply Forall_app; auto|exact K2]. }
    destruct GX as [GX GK].
    assert (Stop : forall q, exists rest, decodes 0 (got ++ q) (ps ++ []) rest).
    { intros q. rewrite app_nil_r. eexists. apply decodes_more. apply B. }
    rewrite RD. cbn [bind]. destruct r as [d|]; cbn [bind].
    + destruct H as [[-> RC]|(qs & -> & B2)].
      * rewrite RC. destruct (Stop (kept ++ concat (seg :: segs))) as [rest D]. exists [[]], [], rest.
        split; [reflexivity|]. split; [exact D|]. cbn [given].
        destruct (Msg_Model.receive E (S fuel) c (Some [])) as [c1|e] eqn:RE; cbn [bind acted_on given]; rewrite RE; cbn [bind]; eauto.
      * rewrite (proj2 (proj2 B2)).
        destruct (Msg_Model.receive E (S fuel) c (Some (concat qs))) as [c1|e] eqn:RE; cbn [bind].
        -- destruct (IH s' kept' c1 (got ++ x) (ps ++ qs) GX GK F B2) as (ds & qs2 & rest & D1 & D2 & A).
           exists (concat qs :: ds), (qs ++ qs2), rest. split; [cbn [concat]; rewrite concat_app, D1; reflexivity|].
           split; [rewrite Q, (app_assoc ps); exact D2|].
           unfold acted_on in *. destruct (talk _ _ _ _ _ _) as [[st c']|e]; cbn [given]; rewrite RE; cbn [bind]; exact A.
        -- destruct B2 as (B2 & _). exists [concat qs], qs, (rbuf s' ++ kept' ++ concat segs).
           split; [cbn [concat]; apply app_nil_r|]. split; [rewrite Q; apply decodes_more; exact B2|].
           cbn [acted_on given]. rewrite RE. reflexivity.
    + destruct (Stop (kept ++ concat (seg :: segs))) as [rest D]. exists [[]], [], rest.
      split; [reflexivity|]. split; [exact D|].
      destruct (Msg_Model.receive E (S fuel) c (Some [])) as [c1|e] eqn:RE; cbn [bind acted_on given]; rewrite RE; cbn [bind]; eauto.
Qed.

Lemma talk_authentic E fuel c segs : Forall all_bytes segs ->
  exists ds ms rest, concat ds = concat ms /\ decodes 0 (concat segs) ms rest /\
    acted_on E fuel c ds (talk (rsa_read unseal mac) E fuel (rstate0, []) c segs).
Proof.
  intros F. destruct (talk_auth E fuel segs rstate0 [] c [] []) as (ds & qs & rest & H); try constructor; try assumption.
  - constructor.
  - split; reflexivity.
  - exists ds, qs, rest. exact H.
Qed.

(** A message with a wrong tag ends what can be decoded. *)
Lemma decodes_stops seal : cipher_ok seal unseal mac -> forall ms k n text tag after ps rest,
  Forall (fun m => zlen m < 2 ^ 16) ms -> zlen text = n -> 0 <= n < 2 ^ 16 -> zlen tag = 16 ->
  tag <> mac (nonce_of (k + Z.of_nat (length ms))) (be 2 n) text ->
  decodes k (wire seal mac k ms ++ be 2 n ++ text ++ tag ++ after) ps rest -> exists j, ps = firstn j ms.
Proof.
  intros (Hl & Hi & Hm). induction ms as [|m ms IH]; intros k n text tag after ps rest F L B T N D.
  - exists 0%nat. cbn [firstn wire app length] in *. rewrite Z.add_0_r in N.
    remember (be 2 n ++ text ++ tag ++ after) as b eqn:Eb. destruct D as [|k n' text' bytes ps rest L' B' D]; [reflexivity|].
    exfalso. apply (app_zlen_inj mac mac mac) in Eb as [E1 Eb]; [|unfold zlen; rewrite !be_length; reflexivity].
    apply be_inj in E1; [|change (256 ^ Z.of_nat 2) with (2 ^ 16); lia ..].
    apply (app_zlen_inj mac mac mac) in Eb as [E2 Eb]; [|lia]. subst n' text'.
    apply (app_zlen_inj mac mac mac) in Eb as [E3 _]; [|rewrite Hm; lia]. congruence.
  - apply Forall_cons_iff in F as [F1 F]. cbn [wire] in D. unfold frame in D. rewrite <- !app_assoc in D.
    match type of D with RsaAes_Spec.decodes _ _ _ ?b0 _ _ => remember b0 as b eqn:Eb end.
    destruct D as [|k n' text' bytes ps rest L' B' D]; [exists 0%nat; reflexivity|].
    assert (0 <= zlen m) by (unfold zlen; lia).
    apply (app_zlen_inj mac mac mac) in Eb as [E1 Eb]; [|unfold zlen; rewrite !be_length; reflexivity].
    apply be_inj in E1; [|change (256 ^ Z.of_nat 2) with (2 ^ 16); lia ..].
    apply (app_zlen_inj mac mac mac) in Eb as [E2 Eb]; [|rewrite Hl; lia]. rewrite E1 in *. subst text'.
    apply (app_zlen_inj mac mac mac) in Eb as [_ Eb]; [|rewrite !Hm; reflexivity]. subst bytes.
    destruct (IH (k + 1) n text tag after ps rest F L B T) as [j J]; [|exact D|].
    + replace (k + 1 + Z.of_nat (length ms)) with (k + Z.of_nat (length (m :: ms))) by (cbn [length]; lia). exact N.
    + exists (S j). cbn [firstn]. rewrite Hi, J. reflexivity.
Qed.

(** The read that finds it. *)
Lemma bad_found E fuel s c k n text tag more seg segs :
  0 <= k -> rcnt s = counter_of k -> rclosed s = false -> zlen (rbuf s) < 8192 -> zlen (rbuf s ++ seg) <= 8192 ->
  rbuf s ++ seg = be 2 n ++ text ++ tag ++ more -> zlen text = n -> 0 <= n < 2 ^ 16 -> zlen tag = 16 ->
  tag <> mac (nonce_of k) (be 2 n) text -> n <= asked c ->
  Msg_Model.cut c = None -> Msg_Model.idx c = 0 -> zlen (Msg_Model.buf c) < 4096 ->
  exists st, talk (rsa_read unseal mac) E fuel (s, []) c (seg :: segs) = Ok (st, Msg_Model.set_closed true c).
Proof.
  intros K C R L1 L2 W TL B T N A Cu Ix Bu. cbn [talk]. unfold rsa_read at 1. cbn [fst snd app].
  unfold read, read_into_buffer, BUFSIZE. rewrite (proj2 (Z.eqb_neq _ _)) by lia.
  unfold zlen in L2. rewrite app_length in L2.
  rewrite firstn_all2 by (unfold zlen in *; lia). cbn [rclosed]. rewrite R.
  cbn [read_loop]. unfold read_message, parse_header. cbn [rbuf rcnt rclosed]. rewrite W.
  assert (BL : zlen (be 2 n) = 2) by (unfold zlen; rewrite be_length; reflexivity).
  assert (WL : zlen (be 2 n ++ text ++ tag ++ more) = 18 + n + zlen more)
    by (unfold zlen in *; rewrite !app_length; lia).
  assert (0 <= zlen more) by (unfold zlen; lia).
  assert (F2 : firstn 2 (be 2 n ++ text ++ tag ++ more) = be 2 n).
  { replace 2%nat with (length (be 2 n)) at 1 by apply be_length. apply firstn_app_exact. }
  rewrite WL, F2, unbe_be by (change (256 ^ Z.of_nat 2) with (2 ^ 16); lia).
  rewrite (proj2 (Z.leb_gt _ _)) by lia. rewrite (proj2 (Z.ltb_ge _ _)) by lia. rewrite (proj2 (Z.ltb_ge _ _)) by lia.
  rewrite (get_sub mac mac mac) by lia. cbn [bind]. unfold decrypt. rewrite C, update_nonce_of by lia. rewrite (get_sub mac mac mac) by lia. cbn [bind].
  assert (S1 : firstn (Z.to_nat n) (skipn (Z.to_nat 2) (be 2 n ++ text ++ tag ++ more)) = text).
  { replace (Z.to_nat 2) with (length (be 2 n)) by apply be_length. rewrite skipn_app_exact.
    replace (Z.to_nat n) with (length text) by (unfold zlen in TL; lia). apply firstn_app_exact. }
  assert (S2 : firstn (Z.to_nat 16) (skipn (Z.to_nat (2 + n)) (be 2 n ++ text ++ tag ++ more)) = tag).
  { rewrite (app_assoc (be 2 n)). replace (Z.to_nat (2 + n)) with (length (be 2 n ++ text)) by (rewrite app_length; unfold zlen in *; lia).
    rewrite skipn_app_exact. replace (Z.to_nat 16) with (length tag) by (unfold zlen in T; lia). apply firstn_app_exact. }
  rewrite S1, S2. destruct (list_eq_dec Z.eq_dec (mac (nonce_of k) (be 2 n) text) tag) as [X|X]; [congruence|]. cbn [bind fst snd].
  cbn [Msg_Model.receive]. unfold Msg_Model.on_client_event. rewrite Cu, Ix. cbn [Z.eqb negb].
  change Msg_Model.MSG_BUFFER_SIZE with 4096. rewrite (proj2 (Z.leb_gt _ _)) by lia. cbn [bind]. eexists. reflexivity.
Qed.
End Forge.
