(** Lemmas for Mix_Props. *)
From Verif Require Import Common CommonProofs Auth_Model Mix_Model.
From Verif Require WsStream_Model WsStream_Proofs Ws_Model RsaAes_Model RsaAes_Spec RsaAes_Proofs Net_Spec Net_Proofs.
From Verif Require Import Ws_Spec WsStream_Spec Mix_Spec.

(** ** The first byte decides *)
Lemma first_byte : forall f rest, valid_frame f -> exists r, frame_bytes f ++ rest =
  bit (h_fin (f_head f)) 128 + 16 * h_rsv (f_head f) + h_opcode (f_head f) :: r.
Proof. intros f rest V. eexists. unfold frame_bytes, header_bytes. cbn [app]. reflexivity. Qed.

Lemma short_unreadable : forall w, unreadable (0 :: w).
Proof.
  intros w. split; [discriminate|]. intros more f rest (V & K & R & A) E.
  destruct (first_byte f rest V) as (r & F). rewrite F in E. injection E as E _. rewrite R in E.
  unfold bit in E. destruct (h_fin (f_head f)); lia.
Qed.
Lemma record_unreadable : forall b w, 20 <= b <= 23 -> unreadable (b :: w).
Proof.
  intros b w B. split; [discriminate|]. intros more f rest (V & K & R & A) E.
  destruct (first_byte f rest V) as (r & F). rewrite F in E. injection E as E _. rewrite R in E.
  unfold bit in E. destruct (h_fin (f_head f)); lia.
Qed.

(** ** Sending *)
Lemma rsa_first : forall seal mac m ms k, 0 < zlen m < 256 -> 0 <= k ->
  exists c w, RsaAes_Model.send_all seal mac (m :: ms) (RsaAes_Proofs.counter_of k) = Ok (c, 0 :: w).
Proof.
  intros seal mac m ms k L K.
  destruct (RsaAes_Proofs.send_wire seal seal mac m k K) as (cs & E & C & F).
  destruct (RsaAes_Proofs.send_all_wire seal seal mac ms (k + Z.of_nat (length cs))) as (chunks & E' & _); [lia|].
  cbn [RsaAes_Model.send_all]. rewrite E. cbn [bind fst snd]. rewrite E'. cbn [bind fst snd].
  destruct cs as [|c0 cs]; [subst m; cbn in L; lia|]. cbn [RsaAes_Spec.wire]. unfold RsaAes_Spec.frame.
  assert (B : 0 < zlen c0 < 256).
  { apply Forall_inv in F. subst m. cbn [concat] in L. unfold zlen in *. rewrite app_length in L. lia. }
  replace (be 2 (zlen c0)) with [0; zlen c0].
  - eexists _, _. cbn [app]. reflexivity.
  - unfold be. cbn. rewrite (Z.div_small (zlen c0) 256) by lia. rewrite (Z.mod_small (zlen c0)) by lia. reflexivity.
Qed.

Lemma web_frames : forall ms st, WsStream_Model.closed st = false -> Forall (fun m => zlen m < 2 ^ 64) ms ->
  web_sends st ms = Ok (concat (WsStream_Model.sent st) ++ wire (map Net_Proofs.framed ms)).
Proof.
  induction ms as [|m ms IH]; intros st C L; cbn [web_sends].
  - unfold wire. cbn. rewrite app_nil_r. reflexivity.
  - pose proof (Forall_inv L) as Lm. apply Forall_inv_tail in L.
    rewrite (WsStream_Proofs.ws_send_frames st m C Lm). cbn [bind]. rewrite IH; [|exact C|exact L].
    unfold WsStream_Model.tcp_send. cbn [WsStream_Model.sent WsStream_Model.closed]. rewrite C.
    rewrite !concat_app. cbn [concat]. rewrite !app_nil_r. unfold wire. cbn [map concat].
    unfold frame_bytes at 2, body, Net_Proofs.framed at 2. cbn [f_head f_data h_key].
    rewrite <- !app_assoc. reflexivity.
Qed.

(** ** Reading *)
Import RsaAes_Model.
Lemma drain_stuck : forall unseal mac n fuel s size avail future,
  RsaAes_Model.BUFSIZE - 18 < n -> n < 2 ^ 16 -> RsaAes_Model.rclosed s = false ->
  firstn 2 ((RsaAes_Model.rbuf s ++ avail) ++ future) = be 2 n -> zlen (RsaAes_Model.rbuf s) <= RsaAes_Model.BUFSIZE -> (length avail < fuel)%nat ->
  exists s' ok, RsaAes_Model.drain unseal mac fuel s size avail = Ok (s', [], ok) /\
    (ok = true -> RsaAes_Model.rclosed s' = false /\ RsaAes_Model.rbuf s' = RsaAes_Model.rbuf s ++ avail /\ zlen (RsaAes_Model.rbuf s') <= RsaAes_Model.BUFSIZE).
Proof.
  intros unseal mac len. induction fuel; intros s size avail future Hm Hm2 Hc Hw Hb Hf; [lia|].
  cbn [RsaAes_Model.drain]. destruct avail as [|a avail0].
  { eexists _, _. split; [reflexivity|]. intros _. rewrite app_nil_r. auto. }
  set (avail := a :: avail0) in *.
  assert (LA : length avail = S (length avail0)) by reflexivity.
  unfold RsaAes_Model.read, read_into_buffer.
  destruct (BUFSIZE - zlen (rbuf s) =? 0) eqn:ER.
  { cbn [rclosed bind]. eexists _, _. split; [reflexivity|]. discriminate. }
  set (n := Z.to_nat (BUFSIZE - zlen (rbuf s))).
  assert (Hn : (0 < n)%nat) by (unfold n; lia).
  cbn [rclosed]. rewrite Hc.
  set (s1 := mk_r (rbuf s ++ firstn n avail) (rcnt s) false).
  assert (B1 : zlen (rbuf s1) <= BUFSIZE).
  { unfold s1. cbn [rbuf]. unfold zlen in *. rewrite app_length, firstn_length. unfold n. lia. }
  assert (W1 : rbuf s1 ++ skipn n avail ++ future = (rbuf s ++ avail) ++ future).
  { unfold s1. cbn [rbuf]. rewrite <- !app_assoc. f_equal.
    rewrite app_assoc, firstn_skipn. reflexivity. }
  assert (E : RsaAes_Model.read_message unseal mac s1 size = Ok (s1, MNone)).
  { unfold RsaAes_Model.read_message, parse_header.
    destruct (zlen (rbuf s1) <=? 2) eqn:E2; [reflexivity|].
    assert (F2 : firstn 2 (rbuf s1) = be 2 len).
    { assert (F : firstn 2 (rbuf s1 ++ skipn n avail ++ future) = be 2 len) by (rewrite W1; exact Hw).
      rewrite firstn_app in F. unfold zlen in E2.
      replace (2 - length (rbuf s1))%nat with 0%nat in F by lia.
      cbn [firstn] in F. rewrite app_nil_r in F. exact F. }
    rewrite F2, unbe_be by (change (256 ^ Z.of_nat 2) with (2 ^ 16); unfold BUFSIZE in Hm; lia).
    replace (zlen (rbuf s1) <? 2 + 16 + len) with true by lia. reflexivity. }
  cbn [RsaAes_Model.read_loop]. rewrite E. cbn [bind fst snd]. unfold s1 at 1. cbn [rclosed].
  destruct (IHfuel s1 size (skipn n avail) future) as [s2 [ok [E2 H2]]]; try assumption.
  - reflexivity.
  - rewrite <- app_assoc, W1. exact Hw.
  - rewrite skipn_length. lia.
  - rewrite E2. cbn [bind]. eexists _, _. split; [reflexivity|]. intros K.
    destruct (H2 K) as [C [D F]]. split; [exact C|]. split; [|exact F].
    rewrite D. unfold s1. cbn [rbuf]. rewrite <- app_assoc, firstn_skipn. reflexivity.
Qed.

Lemma receive_stuck : forall unseal mac n segs s size future,
  BUFSIZE - 18 < n -> n < 2 ^ 16 -> rclosed s = false ->
  firstn 2 ((rbuf s ++ concat segs) ++ future) = be 2 n -> zlen (rbuf s) <= BUFSIZE ->
  exists s' ok, receive unseal mac s size segs = Ok (s', [], ok) /\
    (ok = true -> zlen (rbuf s ++ concat segs) <= BUFSIZE).
Proof.
  intros unseal mac n. induction segs as [|seg segs IH]; intros s size future Hm Hm2 Hc Hw Hb;
    cbn [RsaAes_Model.receive].
  { eexists _, _. split; [reflexivity|]. cbn [concat]. rewrite app_nil_r. auto. }
  cbn [concat] in *.
  destruct (drain_stuck unseal mac n (S (length seg)) s size seg (concat segs ++ future)) as [s1 [ok [E H]]];
    try assumption; [|lia|].
  { rewrite <- Hw, <- !app_assoc. reflexivity. }
  rewrite E. cbn [bind]. destruct ok.
  - destruct (H eq_refl) as [C [D F]].
    destruct (IH s1 size future) as [s2 [ok [E2 H2]]]; try assumption.
    { rewrite D, <- Hw, <- !app_assoc. reflexivity. }
    rewrite E2. cbn [bind app]. eexists _, _. split; [reflexivity|]. intros K.
    rewrite app_assoc, <- D. auto.
  - eexists _, _. split; [reflexivity|]. discriminate.
Qed.

(** The first two bytes of a frame that is whole, as a length. *)
Lemma frame_start : forall f rest, valid_frame f -> h_fin (f_head f) = true ->
  exists n, 32768 <= n < 2 ^ 16 /\ firstn 2 (frame_bytes f ++ rest) = be 2 n.
Proof.
  intros f rest [(R & O1 & T & K) L] F. unfold frame_bytes, header_bytes. cbn [app firstn]. rewrite F. cbn [bit].
  set (b1 := bit (is_masked (f_head f)) 128 + len_field (h_form (f_head f)) (h_len (f_head f))).
  assert (B : 0 <= b1 < 256).
  { unfold b1, bit, len_field, fits in *. destruct (is_masked _), (h_form _); lia. }
  set (b0 := 128 + 16 * h_rsv (f_head f) + h_opcode (f_head f)).
  assert (A : 128 <= b0 < 256) by (unfold b0; lia).
  exists (256 * b0 + b1). split; [lia|]. clearbody b0 b1.
  change (be 2 (256 * b0 + b1)) with [(256 * b0 + b1) / 256 mod 256; (256 * b0 + b1) mod 256].
  rewrite Z.mul_comm, Z.div_add_l by lia. rewrite (Z.div_small b1) by lia. rewrite Z.add_0_r, (Z.mod_small b0) by lia.
  rewrite Z.add_comm, Z.mod_add by lia. rewrite (Z.mod_small b1) by lia. reflexivity.
Qed.

Lemma handed_got : forall outs, handed (map WsStream_Model.Got outs) = concat outs.
Proof. induction outs as [|o outs IH]; [reflexivity|]. cbn. rewrite IH. reflexivity. Qed.
