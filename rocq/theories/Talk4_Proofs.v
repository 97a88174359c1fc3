(** Reading through each kind of stream. *)
From Verif Require Import Common CommonProofs Msg_Model Msg_Spec Talk_Model Talk_Spec Talk_Proofs.
From Verif Require WsStream_Model WsStream_Spec RsaAes_Model RsaAes_Spec Gnutls_Model Talk2_Proofs Talk3_Proofs.

Lemma begins_pos n r : begins n r -> 1 <= n.
Proof. intros B. apply begins_short in B. unfold zlen in B. lia. Qed.

(** ** TCP *)
Definition tcp_course (n : Z) (total : list Z) (st out : list Z) (segs : list (list Z)) : Prop :=
  Forall (fun s => zlen s + n <= 4097) segs /\ st = [] /\ out ++ concat segs = total.

Lemma tcp_next n total st out s segs size : 1 <= n -> n <= 4096 -> tcp_course n total st out (s :: segs) -> 4097 - n <= size ->
  exists st' d, tcp_read st size s = Ok (st', d, false) /\ zlen d <= size /\ tcp_course n total st' (out ++ d) segs.
Proof.
  intros N N2 (F & -> & T) SZ. apply Forall_cons_iff in F as [F1 F2].
  assert (Z.of_nat (length s) <= size) by (unfold zlen in F1; lia).
  unfold tcp_read. cbn [app]. rewrite skipn_all2, firstn_all2 by lia. rewrite (proj2 (Z.leb_gt _ _)) by lia.
  exists [], s. split; [reflexivity|]. split; [exact H|]. split; [exact F2|]. split; [reflexivity|].
  rewrite <- app_assoc. exact T.
Qed.

(** ** TLS *)
Definition tls_course (n : Z) (total : list Z) (st : Gnutls_Model.tls) (out : list Z) (segs : list (list Z)) : Prop :=
  Forall (fun s => zlen s + n <= 4097) segs /\ Gnutls_Model.input st = [] /\ Gnutls_Model.pending st = [] /\ out ++ concat segs = total.

Lemma tls_next n total st out s segs size : 1 <= n -> n <= 4096 -> tls_course n total st out (s :: segs) -> 4097 - n <= size ->
  exists st' d, tls_read st size s = Ok (st', d, false) /\ zlen d <= size /\ tls_course n total st' (out ++ d) segs.
Proof.
  intros N N2 (F & I & P & T) SZ. apply Forall_cons_iff in F as [F1 F2].
  assert (L : Z.of_nat (length s) <= size) by (unfold zlen in F1; lia).
  unfold tls_read, Gnutls_Model.recv. cbn [Gnutls_Model.pending Gnutls_Model.input]. rewrite P, I. cbn [app].
  destruct (Z.to_nat size) as [|k] eqn:K; [lia|].
  destruct s as [|x s].
  - eexists _, []. split; [reflexivity|]. split; [unfold zlen; cbn [length]; lia|].
    split; [exact F2|]. split; [reflexivity|]. split; [reflexivity|]. rewrite app_nil_r. exact T.
  - rewrite (firstn_all2 (n := S k) (x :: s)), (skipn_all2 (n := S k) (x :: s)) by lia.
    eexists _, (x :: s). split; [reflexivity|]. split; [exact L|]. split; [exact F2|]. split; [reflexivity|].
    split; [reflexivity|]. rewrite <- app_assoc. exact T.
Qed.

Lemma cut_end fs : exists b, WsStream_Spec.cut_point fs (zlen (WsStream_Spec.wire fs)) b /\ b = WsStream_Spec.data fs.
Proof.
  exists (WsStream_Spec.data fs). split; [|reflexivity]. apply WsStream_Spec.cut_between with (b := []). rewrite app_nil_r. reflexivity.
Qed.

Lemma way_heard seal unseal mac E n bytes go : way seal unseal mac E n bytes go -> 1 <= n <= 4096 ->
  forall fuel c ms rest c', listening c -> Forall (short n) ms -> begins n rest -> bytes = concat ms ++ rest ->
    handled E c ms c' -> go fuel c = Ok (set_buf rest c').
Proof.
  intros W N fuel c ms rest c' L SH BE B HA.
  destruct W as [segs F|hs eagain fs segs BS F WI CU|k rs segs KP CI G F WI|st segs I P F].
  - destruct (talk_all E fuel n c ms rest c' L SH BE HA tcp_read (tcp_course n (concat segs))) with (st := @nil Z) (segs := segs) as (st' & T).
    + intros. apply tcp_next; auto; lia.
    + intros st out sg (_ & _ & T). exists (concat sg). congruence.
    + intros st out (_ & _ & T). cbn [concat] in T. rewrite app_nil_r in T. congruence.
    + split; [exact F|]. split; reflexivity.
    + rewrite T. reflexivity.
  - destruct (talk_all E fuel n c ms rest c' L SH BE HA (web_read hs eagain) (Talk2_Proofs.on_course n fs (WsStream_Spec.data fs)))
      with (st := WsStream_Model.ws_ready0) (segs := segs) as (st' & T).
    + intros. apply Talk2_Proofs.web_next; auto; lia.
    + intros st out sg X. rewrite <- B. exact (Talk2_Proofs.web_inside _ _ _ _ _ _ X).
    + intros st out X. rewrite <- B. exact (Talk2_Proofs.web_done _ _ _ _ _ X).
    + apply Talk2_Proofs.web_start with (rest := []); auto; [rewrite app_nil_r; exact WI|].
      rewrite WI. destruct (cut_end fs) as (b & C & ->). exact C.
    + rewrite T. reflexivity.
  - destruct (talk_all E fuel n c ms rest c' L SH BE HA (rsa_read unseal mac) (Talk3_Proofs.rsa_course seal mac n k rs))
      with (st := (RsaAes_Model.rstate0, @nil Z)) (segs := segs) as (st' & T).
    + intros. eapply Talk3_Proofs.rsa_next; eauto; lia.
    + intros st out sg X. rewrite <- B. exact (Talk3_Proofs.rsa_inside _ _ _ _ _ _ _ _ X).
    + intros st out X. rewrite <- B. exact (Talk3_Proofs.rsa_done _ _ _ _ _ _ _ X).
    + eapply Talk3_Proofs.rsa_start; eauto.
    + rewrite T. reflexivity.
  - destruct (talk_all E fuel n c ms rest c' L SH BE HA tls_read (tls_course n (concat segs))) with (st := st) (segs := segs) as (st' & T).
    + intros. apply tls_next; auto; lia.
    + intros st0 out sg (_ & _ & _ & T). exists (concat sg). congruence.
    + intros st0 out (_ & _ & _ & T). cbn [concat] in T. rewrite app_nil_r in T. congruence.
    + split; [exact F|]. split; [exact I|]. split; [exact P|reflexivity].
    + rewrite T. reflexivity.
Qed.
