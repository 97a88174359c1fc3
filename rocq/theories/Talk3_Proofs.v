(** Reading through RSA-AES. *)
From Verif Require Import Common CommonProofs RsaAes_Model RsaAes_Spec RsaAes_Proofs.
From Verif Require Import Talk_Model.

Section Rsa.
Variable seal unseal mac : list Z -> list Z -> list Z -> list Z.
Hypothesis cipher : cipher_ok seal unseal mac.

Definition rsa_course (n k : Z) (ms : list (list Z)) (st : rstate * list Z) (out : list Z) (segs : list (list Z)) : Prop :=
  Forall (fun m => 0 < zlen m <= k) ms /\ Forall (fun s => zlen s + k + n <= 4098) segs /\
  exists dn more, ms = dn ++ more /\ out = concat dn /\ snd st = [] /\ rclosed (fst st) = false /\
    rcnt (fst st) = counter_of (Z.of_nat (length dn)) /\
    rbuf (fst st) ++ concat segs = wire seal mac (Z.of_nat (length dn)) more /\
    waiting seal mac (Z.of_nat (length dn)) (rbuf (fst st)) more.

Lemma concat_zlen (l : list (list Z)) : forall k, Forall (fun m => 0 < zlen m) l ->
  zlen (concat l) <= zlen (wire seal mac k l).
Proof.
  induction l as [|m l IH]; intros k F; [cbn; lia|]. inversion_clear F as [|? ? F1 F2].
  cbn [concat RsaAes_Spec.wire]. specialize (IH (k + 1) F2). pose proof (frame_len seal unseal mac cipher k m) as L.
  unfold zlen in *. rewrite !app_length. lia.
Qed.

Lemma rsa_next n k ms st out s segs size : rsa_course n k ms st out (s :: segs) -> 0 < k -> 1 <= n -> 4097 - n <= size ->
  exists st' d, rsa_read unseal mac st size s = Ok (st', d, false) /\ zlen d <= size /\ rsa_course n k ms st' (out ++ d) segs.
Proof.
  intros (G & SG & dn & more & M & O & K & CL & CN & W & WT) KP N SZ.
  inversion SG as [|? ? S1 S2]; subst. cbn beta in S1. destruct st as [s0 kept]. cbn [fst snd] in *. subst kept.
  assert (GM : Forall (fun m => 0 < zlen m <= k) more) by (apply Forall_app in G as [_ G]; exact G).
  assert (RB : zlen (rbuf s0) <= 17 + k).
  { destruct more as [|m more]; cbn [waiting] in WT; [rewrite WT; unfold zlen; cbn [length]; lia|].
    rewrite (frame_len seal unseal mac cipher) in WT. apply Forall_inv in GM. cbn beta in GM. lia. }
  assert (ZS : 0 <= zlen s) by (unfold zlen; lia).
  unfold rsa_read. cbn [fst snd app]. unfold RsaAes_Model.read, read_into_buffer.
  unfold BUFSIZE. rewrite (proj2 (Z.eqb_neq _ _)) by lia.
  assert (FS : firstn (Z.to_nat (8192 - zlen (rbuf s0))) s = s) by (apply firstn_all2; unfold zlen in *; lia).
  assert (SS : skipn (Z.to_nat (8192 - zlen (rbuf s0))) s = []) by (apply skipn_all2; unfold zlen in *; lia).
  rewrite FS, SS. cbn [rclosed]. rewrite CL.
  set (s1 := mk_r (rbuf s0 ++ s) (rcnt s0) false).
  assert (L1 : zlen (rbuf s1) = zlen (rbuf s0) + zlen s) by (unfold s1, zlen; cbn [rbuf]; rewrite app_length; lia).
  destruct (read_loop_progress seal unseal mac cipher more (S (length (rbuf s1))) s1 size [] (Z.of_nat (length dn)) (concat segs))
    as [s2 [d1 [r1 [E [A [B [R [C D]]]]]]]]; [lia|exact CN| | |lia| |lia|].
  - eapply Forall_impl; [|exact GM]. intros m Hm. unfold good, BUFSIZE. cbn beta in Hm. lia.
  - unfold s1. cbn [rbuf]. rewrite <- app_assoc. exact W.
  - lia.
  - rewrite E. cbn [bind fst snd]. unfold s1 in R. cbn [rclosed] in R. rewrite R.
    exists (s2, []), (concat d1). split; [reflexivity|].
    assert (Forall (fun m => 0 < zlen m) d1).
    { rewrite A in GM. apply Forall_app in GM as [GM _]. eapply Forall_impl; [|exact GM]. cbn beta. intros; lia. }
    split.
    + destruct d1 as [|m1 d1']; [cbn; lia|]. set (d1 := m1 :: d1') in *.
      assert (T : zlen (concat d1) + 18 <= zlen (wire seal mac (Z.of_nat (length dn)) d1)).
      { unfold d1. cbn [concat RsaAes_Spec.wire]. pose proof (Forall_inv_tail H) as H4.
        pose proof (concat_zlen d1' (Z.of_nat (length dn) + 1) H4).
        pose proof (frame_len seal unseal mac cipher (Z.of_nat (length dn)) m1).
        unfold zlen in *. rewrite !app_length. lia. }
      assert (zlen (rbuf s1) = zlen (wire seal mac (Z.of_nat (length dn)) d1) + zlen (rbuf s2)).
      { assert (W2 : rbuf s1 ++ concat segs = wire seal mac (Z.of_nat (length dn)) d1 ++ rbuf s2 ++ concat segs).
        { unfold s1. cbn [rbuf]. rewrite <- app_assoc. cbn [concat] in W. rewrite W, A, (wire_app seal mac), C. reflexivity. }
        rewrite app_assoc in W2. apply app_inv_tail in W2. rewrite W2. unfold zlen. rewrite app_length. lia. }
      assert (0 <= zlen (rbuf s2)) by (unfold zlen; lia). lia.
    + split; [exact G|]. split; [exact S2|]. exists (dn ++ d1), r1. cbn [fst snd].
      split; [rewrite A, app_assoc; reflexivity|]. split; [rewrite concat_app; reflexivity|]. split; [reflexivity|].
      split; [exact R|]. rewrite app_length, Nat2Z.inj_add. split; [exact B|]. split; [exact C|exact D].
Qed.

Lemma rsa_inside n k ms st out segs : rsa_course n k ms st out segs -> exists q, out ++ q = concat ms.
Proof.
  intros (_ & _ & dn & more & M & O & _). exists (concat more). rewrite M, O, concat_app. reflexivity.
Qed.

Lemma rsa_done n k ms st out : rsa_course n k ms st out [] -> out = concat ms.
Proof.
  intros (_ & _ & dn & more & M & O & _ & _ & _ & W & WT). cbn [concat] in W. rewrite app_nil_r in W.
  destruct more as [|m more]; [rewrite app_nil_r in M; congruence|]. exfalso. cbn [waiting RsaAes_Spec.wire] in *.
  rewrite W in WT. unfold zlen in WT. rewrite app_length in WT. lia.
Qed.

Lemma rsa_start n k ms segs : Forall (fun m => 0 < zlen m <= k) ms -> Forall (fun s => zlen s + k + n <= 4098) segs ->
  concat segs = wire seal mac 0 ms -> rsa_course n k ms (rstate0, []) [] segs.
Proof.
  intros G SG W. split; [exact G|]. split; [exact SG|]. exists [], ms. repeat split; [exact W|].
  destruct ms as [|m ms]; [reflexivity|]. cbn [waiting fst rbuf rstate0]. rewrite (frame_len seal unseal mac cipher).
  unfold zlen. cbn [length]. lia.
Qed.
End Rsa.
