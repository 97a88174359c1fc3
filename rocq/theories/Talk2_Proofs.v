(** Reading through a WebSocket. *)
From Verif Require Import Common CommonProofs Ws_Spec WsStream_Model WsStream_Spec WsStream_Proofs.
From Verif Require Import Talk_Model.

Definition on_course (n : Z) (fs : list WsStream_Spec.frame) (before : list Z) (st : ws_stream) (out : list Z) (segs : list (list Z)) : Prop :=
  Forall good fs /\ Forall (fun s => s <> [] /\ zlen s + n <= 4097) segs /\
  exists key d fs1 rest, sfx None [] fs key d fs1 out /\ WsStream_Proofs.holds st [] /\ WsStream_Proofs.pending st key d /\ opc st d fs1 /\
    concat segs ++ rest = enc key d ++ WsStream_Spec.wire fs1 /\
    (forall x y, segs = x ++ y -> exists k2 d2 fs2 o2, sfx None [] fs k2 d2 fs2 o2 /\
       zlen (enc k2 d2 ++ WsStream_Spec.wire fs2) = zlen (enc key d ++ WsStream_Spec.wire fs1) - zlen (concat x)) /\
    exists k3 d3 fs3, sfx None [] fs k3 d3 fs3 before /\
       zlen (enc k3 d3 ++ WsStream_Spec.wire fs3) = zlen (enc key d ++ WsStream_Spec.wire fs1) - zlen (concat segs).

Lemma sfx_out_le : forall key d fs key' d' fs' out, sfx key d fs key' d' fs' out ->
  zlen out + zlen (enc key' d' ++ WsStream_Spec.wire fs') <= zlen (enc key d ++ WsStream_Spec.wire fs).
Proof.
  intros key d fs key' d' fs' out H. induction H as [key d1 d2 fs H|key d f fs key' d' fs' out H IH].
  - unfold zlen. rewrite !app_length, !enc_length, app_length. lia.
  - rewrite wire_cons. unfold zlen in *. rewrite !app_length, !enc_length in *. lia.
Qed.

Lemma web_next hs eagain n fs before st out s segs size : on_course n fs before st out (s :: segs) -> 1 <= n -> 4097 - n <= size ->
  exists st' d, web_read hs eagain st size s = Ok (st', d, false) /\ zlen d <= size /\ on_course n fs before st' (out ++ d) segs.
Proof.
  intros (Hg & Hs & key & d & fs1 & rest & H1 & Hh & Hp & Ho & Hw & Hcut & k3 & d3 & fs3 & H3 & Hz3) N0 SZ.
  inversion Hs as [|? ? [Hn H4] Hs']; subst.
  destruct (Hcut [s] segs eq_refl) as (k2 & d2 & fs2 & o2 & H2 & Hz2).
  cbn [concat] in Hz2. rewrite app_nil_r in Hz2.
  destruct (sfx_split _ _ _ _ _ _ _ H1 _ _ _ _ H2) as (o & -> & Hstep).
  { unfold zlen in Hz2. lia. }
  destruct (sfx_seg _ _ _ _ _ _ _ Hstep) as [seg Eseg].
  assert (seg = s).
  { cbn [concat] in Hw. rewrite Eseg, <- app_assoc in Hw.
    assert (LL : length seg = length s).
    { assert (zlen (enc key d ++ WsStream_Spec.wire fs1) = zlen seg + zlen (enc k2 d2 ++ WsStream_Spec.wire fs2))
        by (rewrite Eseg, zlen_app; reflexivity). unfold zlen in *. lia. }
    rewrite <- (firstn_app_eq _ _ seg (enc k2 d2 ++ WsStream_Spec.wire fs2) LL), <- Hw.
    apply firstn_app_exact. }
  subst seg.
  destruct (read_segment hs eagain st key d fs1 k2 d2 fs2 o s size) as (st1 & E & Hh1 & Hp1 & Ho1); try assumption; try lia.
  { eapply sfx_good; eassumption. }
  exists st1, o. unfold web_read. rewrite E. cbn [bind].
  destruct Hh1 as (A1 & A2 & A3 & A4 & A5). rewrite A4. split; [reflexivity|].
  split.
  { pose proof (sfx_out_le _ _ _ _ _ _ _ Hstep) as K. rewrite Hz2 in K. lia. }
  split; [exact Hg|]. split; [exact Hs'|]. exists k2, d2, fs2, rest.
  split; [exact H2|]. split; [repeat split; assumption|]. split; [exact Hp1|]. split; [left; exact Ho1|].
  split. { cbn [concat] in Hw. rewrite Eseg, <- app_assoc in Hw. apply app_inv_head in Hw. exact Hw. }
  split.
  - intros x y ->. destruct (Hcut (s :: x) y eq_refl) as (k4 & d4 & fs4 & o4 & H5 & Hz5).
    exists k4, d4, fs4, o4. split; [exact H5|]. rewrite Hz5, Hz2. cbn [concat]. rewrite (zlen_app s). lia.
  - exists k3, d3, fs3. split; [exact H3|]. rewrite Hz3, Hz2. cbn [concat]. rewrite (zlen_app s). lia.
Qed.

Lemma web_inside n fs before st out segs : on_course n fs before st out segs -> exists q, out ++ q = before.
Proof.
  intros (_ & _ & key & d & fs1 & rest & H1 & _ & _ & _ & _ & _ & k3 & d3 & fs3 & H3 & Hz3).
  destruct (sfx_split _ _ _ _ _ _ _ H1 _ _ _ _ H3) as (o & -> & _); [|exists o; reflexivity].
  assert (0 <= zlen (concat segs)) by (unfold zlen; lia). unfold zlen in *. lia.
Qed.

Lemma web_start n fs segs rest before : binary_stream fs ->
  Forall (fun s => s <> [] /\ zlen s + n <= 4097) segs -> concat segs ++ rest = WsStream_Spec.wire fs ->
  (forall x y, segs = x ++ y -> exists b, cut_point fs (zlen (concat x)) b) ->
  cut_point fs (zlen (concat segs)) before -> on_course n fs before ws_ready0 [] segs.
Proof.
  intros (Hv & Hop & Hf) Hs Hw Hcut Hb. destruct ready0_holds as [Hh Hp].
  assert (Hg : Forall good fs) by (rewrite Forall_forall in *; intros f X; split; [auto|apply Hop, X]).
  split; [exact Hg|]. split; [exact Hs|]. exists None, [], fs, rest.
  split. { rewrite <- (app_nil_r []) at 1. apply sfx_here. left; reflexivity. }
  split; [exact Hh|]. split; [exact Hp|]. split; [right; split; [reflexivity|exact Hf]|]. split; [exact Hw|].
  split.
  - intros x y Exy. destruct (Hcut x y Exy) as [b Hb1]. apply cut_sfx in Hb1.
    destruct Hb1 as (k & d & fs' & Hb1 & Hz). exists k, d, fs', b. split; [exact Hb1|exact Hz].
  - destruct (cut_sfx _ _ _ Hb) as (k & d & fs' & Hb1 & Hz). exists k, d, fs'. split; [exact Hb1|exact Hz].
Qed.

Lemma web_done n fs before st out : on_course n fs before st out [] -> out = before.
Proof.
  intros (_ & _ & key & d & fs1 & rest & H1 & _ & _ & _ & _ & _ & k3 & d3 & fs3 & H3 & Hz3).
  apply (sfx_unique_out _ _ _ _ _ _ _ _ _ _ _ H1 H3). unfold zlen in *. cbn [concat length] in Hz3. lia.
Qed.
