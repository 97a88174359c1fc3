(** Proofs about encoders: every step keeps the invariant. *)
From Verif Require Import Common CommonProofs Enc_Model Enc_Spec Enc_Proofs Enc2_Proofs.

Section Enc.
Variable zst : Type.
Variable z_new : zst.
Variable deflate : zst -> list Z -> zst * list Z.

Notation enc := (enc zst).
Notation srv := (srv zst).
Notation e_kind := (e_kind zst).
Notation e_ref := (e_ref zst).
Notation e_z := (e_z zst).
Notation e_for := (e_for zst).
Notation e_job := (e_job zst).
Notation s_enc := (s_enc zst).
Notation s_cli := (s_cli zst).
Notation s_m := (s_m zst).
Notation s_n := (s_n zst).
Notation s_damage := (s_damage zst).
Notation mk := (mk_enc zst).
Notation loc := (loc zst z_new deflate).
Notation loc0 := (loc0 zst).
Notation inv := (inv zst z_new deflate).
Notation hist := (hist zst z_new deflate).
Notation wants := (wants zst).
Notation with_ref := (with_ref zst).
Notation with_for := (with_for zst).

Ltac at_a b a := destruct (Nat.eq_dec b a) as [->|?]; [rewrite ?upd_eq in *|rewrite ?upd_ne in * by assumption].


Notation still := (still zst).
Notation idle := (idle zst).
Notation mid := (mid zst z_new deflate).

Lemma loc0_flags : forall own i c c' E, loc0 own i c E -> c_alive c' = c_alive c -> c_enc c' = c_enc c -> c_zrle c' = c_zrle c -> c_tight c' = c_tight c -> loc0 own i c' E.
Proof.
  intros own i c c' E [Lr Le Lz Lt Lf Lj Ld] Ca Ce Cz Ct. split; unfold ptrs; rewrite ?Ca, ?Ce, ?Cz, ?Ct; auto.
Qed.
Lemma ptrs_flags : forall c c' a, c_enc c' = c_enc c -> c_zrle c' = c_zrle c -> c_tight c' = c_tight c -> ptrs c' a = ptrs c a.
Proof. intros c c' a Ce Cz Ct. unfold ptrs. rewrite Ce, Cz, Ct. reflexivity. Qed.
Lemma alive_lt : forall own s i, inv own s -> c_alive (s_cli s i) = true -> (i < s_n s)%nat.
Proof. intros own s i I Al. destruct (Nat.lt_ge_cases i (s_n s)) as [L|L]; [exact L|]. rewrite (i_cli _ _ _ _ _ I i L) in Al. discriminate. Qed.

(** Only flags of a client change. *)
Lemma flags_ok : forall own s i c', inv own s -> c_alive (s_cli s i) = true ->
  let c := s_cli s i in
  c_alive c' = true -> c_enc c' = c_enc c -> c_zrle c' = c_zrle c -> c_tight c' = c_tight c -> c_out c' = c_out c -> c_lost c' = c_lost c ->
  (c_shut c' = false -> c_shut c = false) -> (c_writing c' = true -> c_busy c' = true) ->
  (c_busy c = true -> c_writing c = false -> c_busy c' = true /\ c_writing c' = false) ->
  inv own (set_cli zst s i c').
Proof.
  intros own s i c' I Al c Al' Ce Cz Ct Co Cl Sh Wr Bz. pose proof (damage_range _ _ _ own s I) as D.
  pose proof (i_loc _ _ _ _ _ I i) as [L0 Lb Lw Hz Ht]. fold c in L0, Lb, Lw, Hz, Ht.
  assert (Hk : forall k, hist k c (s_enc s) -> hist k c' (s_enc s)).
  { intros k (t & A1 & A2 & A3 & A4). exists t. rewrite Co, Cl. do 3 (split; [assumption|]). intros _ Q. specialize (A4 Al (Sh Q)).
    replace (ptr k c') with (ptr k c); [exact A4|]. destruct k; cbn; congruence. }
  apply (one_client _ _ _ own own s _ i I); cbn [set_cli Enc_Model.s_cli Enc_Model.s_enc Enc_Model.s_m Enc_Model.s_n Enc_Model.s_damage]; rewrite ?upd_eq; auto.
  - intros j N. apply upd_ne, N.
  - apply (i_enc _ _ _ _ _ I).
  - left. apply (alive_lt own); assumption.
  - split; auto.
    + apply (loc0_flags own i c); auto. unfold c; congruence.
    + intros a P J. rewrite (ptrs_flags c) in P by assumption. destruct (Lb a P J) as (F & B & W). split; [exact F|]. auto.
  - unfold Enc_Proofs.wants. rewrite Ce. fold c. rewrite Z.add_simpl_r, Z.mod_small by lia. reflexivity.
Qed.

Lemma process_ok : forall own s i k p alloc start, inv own s ->
  (deflates k = true /\ alloc = false /\ process zst z_new s i k p alloc start = Fault NullDeref) \/
  exists own' s', process zst z_new s i k p alloc start = Ok s' /\ inv own' s'.
Proof.
  intros own s i k p alloc start I. unfold process. cbv zeta.
  destruct (negb (c_alive (s_cli s i)) || c_shut (s_cli s i) || c_busy (s_cli s i)) eqn:G; [right; eauto|].
  apply orb_false_iff in G as [G Bz]. apply orb_false_iff in G as [Al Sh]. apply negb_false_iff in Al.
  pose proof (alive_lt own s i I Al) as Li. pose proof (i_loc _ _ _ _ _ I i) as [_ _ Lw _ _].
  destruct (ensure_ok zst z_new deflate own s i k alloc I Al Bz) as [(? & ? & ->)|(own1 & s1 & ok & -> & M & Ok1)]; [left; auto|right].
  cbn [bind]. destruct M as [Mc Mo Me Mm Mf Mn Mfl M0 Mi Mz Mt Md].
  assert (Wr : c_writing (s_cli s1 i) = false). { rewrite Mfl. cbn. destruct (c_writing (s_cli s i)); [rewrite Lw in Bz by reflexivity; discriminate|reflexivity]. }
  assert (Al1 : c_alive (s_cli s1 i) = true) by (rewrite Mfl; exact Al).
  destruct ok; cbn [negb].
  - destruct Ok1 as [a Ca]. destruct (ptr_pos zst own1 i _ _ a M0) as [O R]; [apply ptrs_pos; auto|].
    set (c1 := s_cli s1 i) in *. cbn [set_cli Enc_Model.s_cli]. rewrite upd_eq. cbn [set_busy c_enc]. rewrite Ca.
    set (s2 := set_cli zst s1 i (set_busy c1 true false (c_writing c1))).
    assert (E2 : s_enc s2 = s_enc s1) by reflexivity.
    rewrite load_ok by (rewrite E2; lia). cbn [bind]. rewrite E2.
    change (mk (e_kind (s_enc s1 a)) (e_ref (s_enc s1 a)) (e_z (s_enc s1 a)) (Some i) (e_job (s_enc s1 a))) with (with_for (s_enc s1 a) (Some i)).
    set (s3 := set_enc zst s2 a (with_for (s_enc s1 a) (Some i))).
    assert (E3 : s_enc s3 = upd (s_enc s1) a (with_for (s_enc s1 a) (Some i))) by reflexivity.
    assert (E3a : s_enc s3 a = with_for (s_enc s1 a) (Some i)) by (rewrite E3, upd_eq; reflexivity).
    assert (Ja : e_job (s_enc s1 a) = None) by (apply Mi, ptrs_pos; auto).
    assert (L3 : loc0 own1 i c1 (s_enc s3)) by (rewrite E3; apply attach_loc; assumption).
    assert (C3 : s_cli s3 i = set_busy c1 true false (c_writing c1)) by (cbn; apply upd_eq).
    assert (Z3 : forall b, e_z (s_enc s3 b) = e_z (s_enc s1 b) /\ e_kind (s_enc s3 b) = e_kind (s_enc s1 b)) by (intros b; rewrite E3; at_a b a; auto).
    assert (Hs : forall c' E', ptr KZrle c' = c_zrle c1 -> ptr KTight c' = c_tight c1 -> c_out c' = c_out c1 -> c_lost c' = c_lost c1 -> c_alive c' = c_alive c1 -> c_shut c' = c_shut c1 ->
      (forall b, e_z (E' b) = e_z (s_enc s1 b)) -> hist KZrle c' E' /\ hist KTight c' E').
    { intros c' E' Pz Pt Co Cl Cal Cs Ze. split; [apply (hist_ptr _ _ _ KZrle c1 c' (s_enc s1))|apply (hist_ptr _ _ _ KTight c1 c' (s_enc s1))]; auto. }
    unfold encode. rewrite load_ok by (rewrite E3a; cbn; lia). cbn [bind]. rewrite E3a. cbn [Enc_Proofs.with_for Enc_Model.e_job]. rewrite Ja.
    destruct start.
    + eexists own1, _. split; [reflexivity|].
      change (mk (e_kind (with_for (s_enc s1 a) (Some i))) (e_ref (with_for (s_enc s1 a) (Some i)) + (if work_holds (e_kind (with_for (s_enc s1 a) (Some i))) then 1 else 0))
               (e_z (with_for (s_enc s1 a) (Some i))) (e_for (with_for (s_enc s1 a) (Some i))) (Some p))
        with (with_ref (with_for (s_enc s1 a) (Some i)) (e_ref (with_for (s_enc s1 a) (Some i)) + (if work_holds (e_kind (with_for (s_enc s1 a) (Some i))) then 1 else 0)) (Some p)).
      rewrite <- E3a.
      set (e4 := with_ref (s_enc s3 a) (e_ref (s_enc s3 a) + (if work_holds (e_kind (s_enc s3 a)) then 1 else 0)) (Some p)).
      assert (L4 : loc0 own1 i c1 (upd (s_enc s3) a e4)).
      { apply start_loc; auto; [apply ptrs_pos; auto|]. rewrite E3a. exact Ja. }
      destruct (Hs (set_busy c1 true false (c_writing c1)) (upd (s_enc s3) a e4)) as [Hz Ht]; auto.
      { intros b. destruct (Z3 b) as [Q _]. at_a b a; [|exact Q]. exact Q. }
      apply (one_client _ _ _ own own1 s _ i I); cbn [set_enc Enc_Model.s_cli Enc_Model.s_enc Enc_Model.s_m Enc_Model.s_n Enc_Model.s_damage].
      * intros j N. cbn. rewrite upd_ne by assumption. auto.
      * exact Mo.
      * intros b N. assert (b <> a) by congruence. rewrite upd_ne, E3, upd_ne by assumption. auto.
      * exact Mm.
      * intros b Lb. change (s_m s3) with (s_m s1) in Lb. assert (b <> a) by (intros ->; destruct (Mf a Lb); lia). rewrite upd_ne, E3, upd_ne by assumption. auto.
      * exact Mn.
      * auto.
      * rewrite C3. split; auto.
        -- apply (loc0_flags own1 i c1); auto.
        -- intros b P J. rewrite (ptrs_flags c1) in P by reflexivity. cbn. at_a b a; [split; [unfold e4; cbn; rewrite ?upd_eq; reflexivity|auto]|].
           rewrite E3, upd_ne in J by assumption. exfalso. apply J, Mi, P.
      * change (s_damage s3) with (s_damage s1). rewrite C3. replace (wants (set_busy c1 true false (c_writing c1)) (upd (s_enc s3) a e4)) with (wants c1 (s_enc s1)); [exact Md|].
        unfold Enc_Proofs.wants. cbn [set_busy c_enc]. rewrite Ca, upd_eq. unfold e4; cbn; rewrite ?upd_eq; reflexivity.
    + eexists own1, _. split; [reflexivity|]. rewrite C3. cbn [set_busy c_writing].
      destruct (Hs (set_busy (set_busy c1 true false (c_writing c1)) false false (c_writing c1)) (s_enc s3)) as [Hz Ht]; auto.
      { intros b. apply Z3. }
      apply (one_client _ _ _ own own1 s _ i I); cbn [set_cli Enc_Model.s_cli Enc_Model.s_enc Enc_Model.s_m Enc_Model.s_n Enc_Model.s_damage]; rewrite ?upd_eq.
      * intros j N. cbn. rewrite !upd_ne by assumption. auto.
      * exact Mo.
      * intros b N. assert (b <> a) by congruence. rewrite E3, upd_ne by assumption. auto.
      * exact Mm.
      * intros b Lb. change (s_m s3) with (s_m s1) in Lb. assert (b <> a) by (intros ->; destruct (Mf a Lb); lia). rewrite E3, upd_ne by assumption. auto.
      * exact Mn.
      * auto.
      * split; auto.
        -- apply (loc0_flags own1 i c1); auto.
        -- intros b P J. rewrite (ptrs_flags c1) in P by reflexivity. exfalso. apply J. rewrite E3. at_a b a; [exact Ja|apply Mi, P].
        -- cbn. congruence.
      * change (s_damage s3) with (s_damage s1). replace (wants (set_busy (set_busy c1 true false (c_writing c1)) false false (c_writing c1)) (s_enc s3)) with (wants c1 (s_enc s1)); [exact Md|].
        unfold Enc_Proofs.wants. cbn [set_busy c_enc]. rewrite Ca. destruct (Z3 a) as [_ Q]. rewrite Q. reflexivity.
  - exists own1, s1. split; [reflexivity|]. apply (one_client _ _ _ own own1 s _ i I); auto.
    split; auto.
    + intros b P J. exfalso. apply J, Mi, P.
    + rewrite Wr. discriminate.
Qed.

Lemma close_ok : forall own s i, inv own s -> exists s', client_close zst s i = Ok s' /\ inv own s'.
Proof.
  intros own s i I. unfold client_close. cbv zeta. destruct (c_alive (s_cli s i)) eqn:Al; cbn [negb]; [|eauto].
  pose proof (damage_range _ _ _ own s I) as D. pose proof (alive_lt own s i I Al) as Li. pose proof (i_loc _ _ _ _ _ I i) as [L0 _ _ Hz Ht]. set (c := s_cli s i) in *.
  destruct (give_up zst own i c s L0 D) as (s1 & s2 & -> & Eu & Ci & Em & En & Ed & L2 & Fo & Fz & St & Nf). cbn [bind]. rewrite Eu. cbn [bind].
  destruct (drop_kept zst own i (none_enc c) (set_ptrs c None None (c_tight c)) (c_zrle c) s2 L2) as (s3 & -> & Ci3 & Em3 & En3 & Ed3 & L3 & Fo3 & Fz3 & St3); auto.
  cbn [bind]. destruct (drop_kept zst own i (set_ptrs c None None (c_tight c)) (set_ptrs c None None None) (c_tight c) s3 L3) as (s4 & -> & Ci4 & Em4 & En4 & Ed4 & L4 & Fo4 & Fz4 & St4); auto.
  cbn [bind]. eexists. split; [reflexivity|]. set (c5 := mk_cli false true (c_fence c) (c_changed c) false false None None None (c_out c) (c_lost c)).
  assert (Hk : forall k E, hist k c (s_enc s) -> hist k c5 E).
  { intros k E (t & A1 & A2 & A3 & _). exists t. do 3 (split; [assumption|]). discriminate. }
  apply (one_client _ _ _ own own s _ i I); cbn [set_cli Enc_Model.s_cli Enc_Model.s_enc Enc_Model.s_m Enc_Model.s_n Enc_Model.s_damage]; rewrite ?upd_eq; auto.
  - intros j N. rewrite upd_ne by assumption. congruence.
  - intros a N. rewrite Fo4, Fo3, Fo by assumption. reflexivity.
  - lia.
  - intros a La. destruct (i_enc _ _ _ _ _ I a) as (R & J & F); [lia|]. assert (Q2 : s_enc s2 a = s_enc s a) by auto.
    assert (Q3 : s_enc s3 a = s_enc s2 a) by (apply Fz3; rewrite Q2; exact R). assert (Q4 : s_enc s4 a = s_enc s3 a) by (apply Fz4; rewrite Q3, Q2; exact R).
    rewrite Q4, Q3, Q2. auto.
  - congruence.
  - split; auto.
    + destruct L4 as [Lr Le Lz Lt Lf Lj Ld]. split; auto; try discriminate.
      intros a j O Q. destruct (Lf a j O Q) as (_ & _ & X). discriminate.
    + intros a P. exfalso. unfold ptrs in P. cbn in P. lia.
  - rewrite Ed4, Ed3, Ed. cbn. fold c. f_equal. lia.
Qed.

End Enc.
