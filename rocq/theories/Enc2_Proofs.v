(** Proofs about encoders: choosing, encoding, finishing, closing. *)
From Verif Require Import Common CommonProofs Enc_Model Enc_Spec Enc_Proofs.

Section Enc.
Variable zst : Type.

Notation enc := (enc zst).
Notation srv := (srv zst).
Notation e_kind := (e_kind zst).
Notation e_ref := (e_ref zst).
Notation e_z := (e_z zst).
Notation e_for := (e_for zst).
Notation e_job := (e_job zst).
Notation s_enc := (s_enc zst).
Notation s_cli := (s_cli zst).
Notation s_m := (s_m zst).
Notation s_n := (s_n zst).
Notation s_damage := (s_damage zst).
Notation mk := (mk_enc zst).
Notation loc0 := (loc0 zst).
Notation wants := (wants zst).
Notation with_ref := (with_ref zst).
Notation with_for := (with_for zst).

Ltac at_a b a := destruct (Nat.eq_dec b a) as [->|?]; [rewrite ?upd_eq in *|rewrite ?upd_ne in * by assumption].

Lemma load_ok : forall s a, e_ref (s_enc s a) <> 0 -> load zst s a = Ok (s_enc s a).
Proof. intros s a N. unfold load. destruct (Z.eqb_spec (e_ref (s_enc s a)) 0); [contradiction|reflexivity]. Qed.

Lemma loc0_pt : forall own i c E E', loc0 own i c E -> (forall a, E' a = E a) -> loc0 own i c E'.
Proof.
  intros own i c E E' [Lr Le Lz Lt Lf Lj Ld] Q.
  split; intros; rewrite ?Q in *; eauto.
Qed.

Definition none_enc (c : cli) : cli := set_ptrs c None (c_zrle c) (c_tight c).
Definition still (e e' : enc) : Prop := e_z e' = e_z e /\ e_kind e' = e_kind e /\ (e_job e' = e_job e \/ e_job e' = None).

Lemma still_refl : forall e : enc, still e e.
Proof. intros e. repeat split; auto. Qed.
Lemma still_trans : forall e1 e2 e3 : enc, still e1 e2 -> still e2 e3 -> still e1 e3.
Proof. intros e1 e2 e3 (A & B & C) (A' & B' & C'). repeat split; try congruence. destruct C as [C|C], C' as [C'|C']; rewrite ?C, ?C'; auto. Qed.

Lemma unref_ok : forall s a, e_ref (s_enc s a) <> 0 ->
  encoder_unref zst s (Some a) = Ok (set_enc zst s a (with_ref (s_enc s a) (e_ref (s_enc s a) - 1) (if e_ref (s_enc s a) - 1 =? 0 then None else e_job (s_enc s a)))).
Proof. intros s a N. unfold encoder_unref. rewrite load_ok by assumption. reflexivity. Qed.

Lemma ptr_pos : forall own i c E a, loc0 own i c E -> 0 < ptrs c a -> own a = i /\ 0 < e_ref (E a).
Proof.
  intros own i c E a L P. assert (O : own a = i).
  { apply ptrs_pos in P as [P|[P|P]]; [apply (l_enc _ _ _ _ _ L a P)|apply (l_zrle _ _ _ _ _ L a P)|apply (l_tight _ _ _ _ _ L a P)]. }
  split; [exact O|]. rewrite (l_ref _ _ _ _ _ L a O). pose proof (work_cases zst (E a)). lia.
Qed.

(** The current encoder is given up. *)
Lemma give_up : forall own i c s, loc0 own i c (s_enc s) -> 0 <= s_damage s < 2 ^ 32 ->
  exists s1 s2, detach zst s (c_enc c) = Ok s1 /\ encoder_unref zst s1 (c_enc c) = Ok s2 /\
    s_cli s2 = s_cli s /\ s_m s2 = s_m s /\ s_n s2 = s_n s /\
    s_damage s2 = (s_damage s - (if wants c (s_enc s) then 1 else 0)) mod 2 ^ 32 /\
    loc0 own i (none_enc c) (s_enc s2) /\
    (forall a, own a <> i -> s_enc s2 a = s_enc s a) /\ (forall a, e_ref (s_enc s a) = 0 -> s_enc s2 a = s_enc s a) /\
    (forall a, still (s_enc s a) (s_enc s2 a)) /\
    (forall a, own a = i -> e_for (s_enc s2 a) = None).
Proof.
  intros own i c s L D. unfold wants. destruct (c_enc c) as [a|] eqn:Ce; cycle 1.
  - exists s, s. do 2 (split; [reflexivity|]). do 3 (split; [reflexivity|]). split; [rewrite Z.sub_0_r, Z.mod_small by lia; reflexivity|].
    split; [|split; [reflexivity|split; [reflexivity|split; [intros; apply still_refl|]]]].
    + replace (none_enc c) with c; [exact L|]. destruct c; cbn in *; subst; reflexivity.
    + intros a O. destruct (e_for (s_enc s a)) as [j|] eqn:F; [|reflexivity]. destruct (l_for _ _ _ _ _ L a j O F) as (_ & _ & X). congruence.
  - destruct (ptr_pos own i c (s_enc s) a L) as [O R]; [apply ptrs_pos; auto|].
    assert (F : forget zst (add_damage zst s (-1) (e_kind (s_enc s a))) a =
                Ok (set_enc zst (add_damage zst s (-1) (e_kind (s_enc s a))) a (with_for (s_enc s a) None))).
    { unfold forget. rewrite load_ok by (cbn; lia). reflexivity. }
    set (s1 := set_enc zst (add_damage zst s (-1) (e_kind (s_enc s a))) a (with_for (s_enc s a) None)) in *.
    assert (E1 : s_enc s1 = upd (s_enc s) a (with_for (s_enc s a) None)) by reflexivity.
    assert (R1 : s_enc s1 a = with_for (s_enc s a) None) by (rewrite E1, upd_eq; reflexivity).
    pose proof (forget_loc zst own i c (s_enc s) a L) as L1. rewrite <- E1 in L1.
    destruct (drop_loc zst own i c (none_enc c) (s_enc s1) a L1 O) as [L2 R2]; try reflexivity; auto.
    { intros b. unfold ptrs. cbn. rewrite Ce. cbn. lia. }
    { intros b Ob. rewrite E1. at_a b a; [reflexivity|]. destruct (e_for (s_enc s b)) as [j|] eqn:Q; [|reflexivity]. destruct (l_for _ _ _ _ _ L b j Ob Q) as (_ & _ & X). congruence. }
    eexists s1, _. split; [unfold detach; rewrite load_ok by lia; exact F|]. split; [apply unref_ok; lia|]. do 3 (split; [reflexivity|]).
    split. { cbn [set_enc Enc_Model.s_damage]. unfold s1. cbn [set_enc add_damage Enc_Model.s_damage]. f_equal. destruct (ignores_damage (e_kind (s_enc s a))); cbn; lia. }
    split; [exact L2|]. cbn [set_enc Enc_Model.s_enc]. rewrite E1. split; [|split; [|split]].
    + intros b N. assert (b <> a) by congruence. rewrite !upd_ne by assumption. reflexivity.
    + intros b N. assert (b <> a) by (intros ->; lia). rewrite !upd_ne by assumption. reflexivity.
    + intros b. at_a b a; [|apply still_refl]. unfold still. cbn. repeat split. destruct (e_ref (s_enc s a) - 1 =? 0); auto.
    + intros b Ob. at_a b a; [reflexivity|]. destruct (e_for (s_enc s b)) as [j|] eqn:Q; [|reflexivity]. destruct (l_for _ _ _ _ _ L b j Ob Q) as (_ & _ & X). congruence.
Qed.

(** Another pointer is given up, the current encoder being gone already. *)
Lemma drop_kept : forall own i c c' p s, loc0 own i c (s_enc s) -> c_enc c = None -> c_enc c' = None -> c_alive c' = c_alive c ->
  (p = c_zrle c /\ c_zrle c' = None /\ c_tight c' = c_tight c \/ p = c_tight c /\ c_tight c' = None /\ c_zrle c' = c_zrle c) ->
  exists s2, encoder_unref zst s p = Ok s2 /\ s_cli s2 = s_cli s /\ s_m s2 = s_m s /\ s_n s2 = s_n s /\ s_damage s2 = s_damage s /\
    loc0 own i c' (s_enc s2) /\
    (forall a, own a <> i -> s_enc s2 a = s_enc s a) /\ (forall a, e_ref (s_enc s a) = 0 -> s_enc s2 a = s_enc s a) /\
    (forall a, still (s_enc s a) (s_enc s2 a)).
Proof.
  intros own i c c' p s L Ce Ce' Al Cp.
  assert (No : forall b, own b = i -> e_for (s_enc s b) = None).
  { intros b Ob. destruct (e_for (s_enc s b)) as [j|] eqn:Q; [|reflexivity]. destruct (l_for _ _ _ _ _ L b j Ob Q) as (_ & _ & X). congruence. }
  destruct p as [a|].
  - assert (P : 0 < ptrs c a) by (apply ptrs_pos; destruct Cp as [(<- & _)|(<- & _)]; auto).
    destruct (ptr_pos own i c (s_enc s) a L P) as [O R].
    destruct (drop_loc zst own i c c' (s_enc s) a L O) as [L2 R2]; auto.
    { intros b. unfold ptrs. rewrite Ce, Ce'. destruct Cp as [(<- & -> & ->)|(<- & -> & ->)]; cbn; lia. }
    { destruct Cp as [(_ & -> & _)|(_ & _ & ->)]; auto. }
    { destruct Cp as [(_ & _ & ->)|(_ & -> & _)]; auto. }
    eexists. split; [apply unref_ok; lia|]. do 4 (split; [reflexivity|]). split; [exact L2|]. cbn [set_enc Enc_Model.s_enc]. split; [|split].
    + intros b N. assert (b <> a) by congruence. rewrite !upd_ne by assumption. reflexivity.
    + intros b N. assert (b <> a) by (intros ->; lia). rewrite !upd_ne by assumption. reflexivity.
    + intros b. at_a b a; [|apply still_refl]. unfold still. cbn. repeat split. destruct (e_ref (s_enc s a) - 1 =? 0); auto.
  - exists s. do 5 (split; [reflexivity|]). split; [|split; [reflexivity|split; [reflexivity|intros; apply still_refl]]].
    assert (Pe : forall b, ptrs c' b = ptrs c b).
    { intros b. unfold ptrs. rewrite Ce, Ce'. destruct Cp as [(E & -> & ->)|(E & -> & ->)]; rewrite <- E; cbn; lia. }
    assert (Cz : c_zrle c' = c_zrle c) by (destruct Cp as [(E & -> & _)|(_ & _ & ->)]; auto).
    assert (Ct : c_tight c' = c_tight c) by (destruct Cp as [(_ & _ & ->)|(E & -> & _)]; auto).
    destruct L as [Lr Le Lz Lt Lf Lj Ld]. split; auto.
    + intros a O. rewrite Pe. auto.
    + congruence.
    + intros a. rewrite Cz. auto.
    + intros a. rewrite Ct. auto.
    + intros a j O Q. rewrite No in Q by assumption. discriminate.
    + rewrite Al, Ce', Cz, Ct. intros Q. destruct (Ld Q) as (_ & ? & ?). auto.
Qed.

Definition idle (c : cli) (E : nat -> enc) : Prop := forall a, 0 < ptrs c a -> e_job (E a) = None.

Variable z_new : zst.
Variable deflate : zst -> list Z -> zst * list Z.

Notation loc := (loc zst z_new deflate).
Notation inv := (inv zst z_new deflate).
Notation hist := (hist zst z_new deflate).


(** Between choosing the encoder and using it. *)
Record mid (own own1 : nat -> nat) (s s1 : srv) (i : nat) : Prop := {
  m_cli : forall j, j <> i -> s_cli s1 j = s_cli s j;
  m_own : forall a, own1 a = own a \/ ((s_m s <= a)%nat /\ own1 a = i);
  m_en : forall a, own1 a <> i -> s_enc s1 a = s_enc s a;
  m_m : (s_m s <= s_m s1)%nat;
  m_fresh : forall a, (s_m s1 <= a)%nat -> e_ref (s_enc s1 a) = 0 /\ e_job (s_enc s1 a) = None /\ e_for (s_enc s1 a) = None;
  m_n : s_n s1 = s_n s;
  m_flags : s_cli s1 i = set_ptrs (s_cli s i) (c_enc (s_cli s1 i)) (c_zrle (s_cli s1 i)) (c_tight (s_cli s1 i));
  m_loc0 : loc0 own1 i (s_cli s1 i) (s_enc s1);
  m_idle : idle (s_cli s1 i) (s_enc s1);
  m_hz : hist KZrle (s_cli s1 i) (s_enc s1);
  m_ht : hist KTight (s_cli s1 i) (s_enc s1);
  m_dam : s_damage s1 = (s_damage s + (if wants (s_cli s1 i) (s_enc s1) then 1 else 0) - (if wants (s_cli s i) (s_enc s) then 1 else 0)) mod 2 ^ 32;
}.

Lemma set_ptrs_id : forall c, set_ptrs c (c_enc c) (c_zrle c) (c_tight c) = c.
Proof. destruct c; reflexivity. Qed.

Lemma hist_ptr : forall k c c' E E', hist k c E -> c_out c' = c_out c -> c_lost c' = c_lost c -> c_alive c' = c_alive c -> c_shut c' = c_shut c ->
  (ptr k c' = ptr k c /\ (forall a, ptr k c = Some a -> e_z (E' a) = e_z (E a)) \/ ptr k c = None /\ exists a, ptr k c' = Some a /\ e_z (E' a) = z_new) -> hist k c' E'.
Proof.
  intros k c c' E E' (t & A1 & A2 & A3 & A4) Co Cl Ca Cs P. exists t. rewrite Co, Cl, Ca, Cs. do 3 (split; [assumption|]).
  intros Q1 Q2. specialize (A4 Q1 Q2). destruct P as [[-> P]|(P & a & -> & Q)].
  - destruct (ptr k c) as [a|] eqn:Ep; [|exact A4]. rewrite P; auto.
  - rewrite P in A4. subst t. exact Q.
Qed.

Lemma damage_range : forall own s, inv own s -> 0 <= s_damage s < 2 ^ 32.
Proof. intros own s I. rewrite (i_dam _ _ _ _ _ I). apply Z.mod_pos_bound. lia. Qed.

Lemma not_busy_idle : forall own s i, inv own s -> c_busy (s_cli s i) = false -> idle (s_cli s i) (s_enc s).
Proof.
  intros own s i I B a P. destruct (e_job (s_enc s a)) eqn:J; [|reflexivity].
  destruct (l_busy _ _ _ _ _ _ _ (i_loc _ _ _ _ _ I i) a P) as (_ & Q & _); congruence.
Qed.

Lemma ensure_ok : forall own s i k alloc, inv own s -> c_alive (s_cli s i) = true -> c_busy (s_cli s i) = false ->
  (deflates k = true /\ alloc = false /\ ensure_encoder zst z_new s i k alloc = Fault NullDeref) \/
  exists own1 s1 ok, ensure_encoder zst z_new s i k alloc = Ok (s1, ok) /\ mid own own1 s s1 i /\
    (if ok then exists a, c_enc (s_cli s1 i) = Some a else c_enc (s_cli s1 i) = None).
Proof.
  intros own s i k alloc I Al Bz. pose proof (damage_range own s I) as D. pose proof (not_busy_idle own s i I Bz) as Id.
  destruct I as [IL IE IC ID]. destruct (IL i) as [L0 Lb Lw Hz Ht]. set (c := s_cli s i) in *.
  unfold ensure_encoder. cbv zeta. fold c.
  assert (Same : forall a, c_enc c = Some a -> load zst s a = Ok (s_enc s a)).
  { intros a Ce. apply load_ok. destruct (ptr_pos own i c (s_enc s) a L0) as [_ R]; [apply ptrs_pos; auto|lia]. }
  assert (NotSame : forall r : res (srv * bool), r = (let* s := detach zst s (c_enc c) in let* s := encoder_unref zst s (c_enc c) in let* s := choose zst z_new s i k alloc in
      match c_enc (s_cli s i) with None => Ok (s, false) | Some a => let* e := load zst s a in Ok (add_damage zst s 1 (e_kind e), true) end) ->
    (deflates k = true /\ alloc = false /\ r = Fault NullDeref) \/
    exists own1 s1 ok, r = Ok (s1, ok) /\ mid own own1 s s1 i /\ (if ok then exists a, c_enc (s_cli s1 i) = Some a else c_enc (s_cli s1 i) = None)).
  { intros r ->. destruct (give_up own i c s L0 D) as (s1 & s2 & -> & Eu & Ci & Em & En & Ed & L2 & Fo & Fz & St & Nf). cbn [bind]. rewrite Eu. cbn [bind].
    assert (Cs : s_cli s2 i = c) by (rewrite Ci; reflexivity).
    assert (Al2 : c_alive (none_enc c) = true) by exact Al.
    assert (Fresh2 : forall a, (s_m s <= a)%nat -> e_ref (s_enc s2 a) = 0 /\ e_job (s_enc s2 a) = None /\ e_for (s_enc s2 a) = None).
    { intros a La. destruct (IE a La) as (Q & _). rewrite (Fz a Q). auto. }
    assert (Id2 : idle (none_enc c) (s_enc s2)).
    { intros a P. assert (P' : 0 < ptrs c a) by (revert P; unfold ptrs, none_enc; cbn; pose proof (here_cases (c_enc c) a); intuition lia).
      destruct (St a) as (_ & _ & [Q|Q]); [rewrite Q; auto|exact Q]. }
    assert (NoM : forall b, 0 < ptrs (none_enc c) b -> b <> s_m s2).
    { intros b P ->. destruct (ptr_pos own i _ _ _ L2 P) as [_ R]. destruct (Fresh2 (s_m s2)) as (Q & _); [lia|lia]. }
    (* a kept encoder is taken up again *)
    assert (Kept : forall a c', c_enc c' = Some a -> 0 < ptrs (none_enc c) a -> c' = set_ptrs c (Some a) (c_zrle c) (c_tight c) ->
      e_kind (s_enc s2 a) = k -> deflates k = true ->
      exists s3, encoder_ref zst (set_cli zst s2 i c') (Some a) = Ok s3 /\ c_enc (s_cli s3 i) = Some a /\ load zst s3 a = Ok (s_enc s3 a) /\
        mid own own s (add_damage zst s3 1 (e_kind (s_enc s3 a))) i).
    { intros a c' Ca P -> Ka Dk. destruct (ptr_pos own i _ _ a L2 P) as [O R].
      assert (R' : e_ref (s_enc (set_cli zst s2 i (set_ptrs c (Some a) (c_zrle c) (c_tight c))) a) = e_ref (s_enc s2 a)) by reflexivity.
      unfold encoder_ref. rewrite load_ok by lia. cbn [bind]. destruct (Z.ltb_spec 0 (e_ref (s_enc (set_cli zst s2 i (set_ptrs c (Some a) (c_zrle c) (c_tight c))) a))); [|lia].
      eexists. split; [reflexivity|]. split; [cbn; rewrite upd_eq; reflexivity|]. split; [apply load_ok; cbn; rewrite upd_eq; cbn; lia|].
      split; cbn [add_damage set_enc set_cli Enc_Model.s_cli Enc_Model.s_enc Enc_Model.s_m Enc_Model.s_n Enc_Model.s_damage]; rewrite ?upd_eq.
      - intros j N. rewrite upd_ne by assumption. rewrite Ci. reflexivity.
      - auto.
      - intros b N. assert (b <> a) by congruence. rewrite upd_ne by assumption. apply Fo. exact N.
      - lia.
      - intros b Lb'. rewrite Em in Lb'. assert (b <> a) by (intros ->; destruct (Fresh2 a Lb'); lia). rewrite upd_ne by assumption. auto.
      - exact En.
      - reflexivity.
      - apply (ref_loc zst own i (none_enc c)); auto.
        + intros Q. cbn. apply ptrs_pos in P as [P|[P|P]]; [discriminate|exact P|]. destruct (l_tight _ _ _ _ _ L2 a P) as [_ ?]. congruence.
        + intros Q. cbn. apply ptrs_pos in P as [P|[P|P]]; [discriminate| |exact P]. destruct (l_zrle _ _ _ _ _ L2 a P) as [_ ?]. congruence.
      - intros b Pb. assert (Pb' : 0 < ptrs (none_enc c) b).
        { destruct (Nat.eq_dec b a) as [->|N]; [exact P|]. revert Pb. unfold ptrs. cbn. destruct (Nat.eqb_spec b a); [contradiction|]. lia. }
        at_a b a; apply Id2; assumption.
      - apply (hist_ptr KZrle c _ (s_enc s)); auto. left. split; [reflexivity|]. intros b _. destruct (St b) as (Q & _). at_a b a; auto.
      - apply (hist_ptr KTight c _ (s_enc s)); auto. left. split; [reflexivity|]. intros b _. destruct (St b) as (Q & _). at_a b a; auto.
      - rewrite Ed. rewrite Zplus_mod_idemp_l. f_equal. unfold Enc_Proofs.wants. cbn [set_ptrs c_enc]. rewrite upd_eq. cbn [Enc_Model.e_kind]. fold c. 
        destruct (ignores_damage (e_kind (s_enc s2 a))); cbn [negb]; lia. }
    (* a new one *)
    assert (New : forall c' s3, c_enc c' = Some (s_m s2) ->
      c' = set_ptrs c (Some (s_m s2)) (if kind_eqb k KZrle then Some (s_m s2) else c_zrle c) (if kind_eqb k KTight then Some (s_m s2) else c_tight c) ->
      (k = KZrle -> c_zrle c = None) -> (k = KTight -> c_tight c = None) ->
      (forall b, s_enc s3 b = upd (s_enc s2) (s_m s2) (mk k (if deflates k then 2 else 1) z_new None None) b) -> s_m s3 = S (s_m s2) ->
      s_cli s3 = upd (s_cli s2) i c' -> s_n s3 = s_n s2 -> s_damage s3 = s_damage s2 ->
      mid own (upd own (s_m s2) i) s (add_damage zst s3 1 (e_kind (s_enc s3 (s_m s2)))) i).
    { intros c' s3 Ca Cc Kz Kt E3 M3 C3 N3 D3. destruct (Fresh2 (s_m s2)) as (R0 & J0 & F0); [lia|].
      split; cbn [add_damage set_enc set_cli Enc_Model.s_cli Enc_Model.s_enc Enc_Model.s_m Enc_Model.s_n Enc_Model.s_damage]; rewrite ?C3, ?N3, ?M3, ?D3, ?upd_eq.
      - intros j N. rewrite upd_ne by assumption. rewrite Ci. reflexivity.
      - intros b. destruct (Nat.eq_dec b (s_m s2)) as [->|N]; [right; rewrite upd_eq; split; [lia|reflexivity]|left; rewrite upd_ne by assumption; reflexivity].
      - intros b N. destruct (Nat.eq_dec b (s_m s2)) as [->|Nb]; [rewrite upd_eq in N; congruence|]. rewrite upd_ne in N by assumption. rewrite E3, upd_ne by assumption. auto.
      - lia.
      - intros b Lb'. rewrite E3, upd_ne by lia. apply Fresh2. lia.
      - exact En.
      - rewrite Cc. reflexivity.
      - eapply loc0_pt; [|exact E3]. apply (new_loc zst own i (none_enc c)); auto; subst c'; auto.
      - intros b Pb. destruct (Nat.eq_dec b (s_m s2)) as [->|Nb]; [rewrite E3, upd_eq; reflexivity|]. rewrite E3, upd_ne by assumption. apply Id2. revert Pb. subst c'. unfold ptrs. cbn -[Z.add].
        destruct (kind_eqb k KZrle), (kind_eqb k KTight); cbn -[Z.add]; destruct (Nat.eqb_spec b (s_m s2)); try contradiction;
        pose proof (here_cases (c_zrle c) b); pose proof (here_cases (c_tight c) b); intuition lia.
      - apply (hist_ptr KZrle c _ (s_enc s)); auto; try (subst c'; reflexivity). destruct (kind_eqb k KZrle) eqn:Ek.
        + right. apply kind_eqb_eq in Ek. split; [apply Kz, Ek|]. exists (s_m s2). subst c'. split; [reflexivity|]. rewrite E3, upd_eq. reflexivity.
        + left. subst c'. split; [reflexivity|]. intros b Pb. rewrite E3, upd_ne; [destruct (St b) as (Q & _); exact Q|]. apply NoM, ptrs_pos. right. left. exact Pb.
      - apply (hist_ptr KTight c _ (s_enc s)); auto; try (subst c'; reflexivity). destruct (kind_eqb k KTight) eqn:Ek.
        + right. apply kind_eqb_eq in Ek. split; [apply Kt, Ek|]. exists (s_m s2). subst c'. split; [reflexivity|]. rewrite E3, upd_eq. reflexivity.
        + left. subst c'. split; [reflexivity|]. intros b Pb. rewrite E3, upd_ne; [destruct (St b) as (Q & _); exact Q|]. apply NoM, ptrs_pos. right. right. exact Pb.
      - rewrite Ed. rewrite Zplus_mod_idemp_l. f_equal. unfold Enc_Proofs.wants. rewrite Ca, E3, upd_eq. cbn [Enc_Model.e_kind]. fold c. destruct (ignores_damage k); cbn [negb]; lia. }
    (* nothing *)
    assert (Nothing : forall s3, s3 = set_cli zst s2 i (set_ptrs c None (c_zrle c) (c_tight c)) -> mid own own s s3 i).
    { intros s3 ->. split; cbn [add_damage set_enc set_cli Enc_Model.s_cli Enc_Model.s_enc Enc_Model.s_m Enc_Model.s_n Enc_Model.s_damage]; rewrite ?upd_eq; auto.
      - intros j N. rewrite upd_ne by assumption. rewrite Ci. reflexivity.
      - lia.
      - intros b Lb'. apply Fresh2. lia.
      - apply (hist_ptr KZrle c _ (s_enc s)); auto. left. split; [reflexivity|]. intros b _. destruct (St b) as (Q & _). exact Q.
      - apply (hist_ptr KTight c _ (s_enc s)); auto. left. split; [reflexivity|]. intros b _. destruct (St b) as (Q & _). exact Q.
      - rewrite Ed. f_equal. cbn. fold c. lia. }
    unfold choose. cbv zeta. rewrite Cs. unfold encoder_new. destruct k.
    - (* Raw *) right. destruct alloc.
      + set (s3 := mk_srv zst (upd (s_enc s2) (s_m s2) (mk KRaw 1 z_new None None)) (S (s_m s2)) (upd (s_cli s2) i (set_ptrs c (Some (s_m s2)) (c_zrle c) (c_tight c))) (s_n s2) (s_damage s2)).
        eexists _, (add_damage zst s3 1 (e_kind (s_enc s3 (s_m s2)))), true. split; [|split].
        * cbn [bind set_cli Enc_Model.s_cli]. rewrite upd_eq. cbn [set_ptrs c_enc]. rewrite load_ok by (cbn; rewrite upd_eq; cbn; lia). cbn [bind]. reflexivity.
        * refine (New (set_ptrs c (Some (s_m s2)) (c_zrle c) (c_tight c)) s3 eq_refl eq_refl _ _ _ eq_refl eq_refl eq_refl eq_refl); [discriminate|discriminate|reflexivity].
        * eexists. cbn. rewrite upd_eq. reflexivity.
      + eexists _, _, false. split; [|split; [apply (Nothing _ eq_refl)|]].
        * cbn [bind set_cli Enc_Model.s_cli]. rewrite upd_eq. reflexivity.
        * cbn. rewrite upd_eq. reflexivity.
    - (* ZRLE *) destruct (c_zrle c) as [a|] eqn:Cz.
      + right. destruct (l_zrle _ _ _ _ _ L2 a) as [O Ka]; [exact Cz|].
        destruct (Kept a (set_ptrs c (Some a) (Some a) (c_tight c))) as (s3 & -> & C3 & Ld & M); auto.
        { apply ptrs_pos. right. left. exact Cz. }

        exists own, (add_damage zst s3 1 (e_kind (s_enc s3 a))), true. split; [cbn [bind]; rewrite C3, Ld; reflexivity|]. split; [exact M|]. exists a. exact C3.
      + destruct alloc.
        * right. set (e2 := mk KZrle 2 z_new None None).
          set (s3 := mk_srv zst (upd (upd (s_enc s2) (s_m s2) (mk KZrle 1 z_new None None)) (s_m s2) e2) (S (s_m s2)) (upd (s_cli s2) i (set_ptrs c (Some (s_m s2)) (Some (s_m s2)) (c_tight c))) (s_n s2) (s_damage s2)).
          assert (Er : encoder_ref zst (set_cli zst (mk_srv zst (upd (s_enc s2) (s_m s2) (mk KZrle 1 z_new None None)) (S (s_m s2)) (s_cli s2) (s_n s2) (s_damage s2)) i
                        (set_ptrs c (Some (s_m s2)) (Some (s_m s2)) (c_tight c))) (Some (s_m s2)) = Ok s3).
          { unfold encoder_ref. rewrite load_ok by (cbn; rewrite upd_eq; cbn; lia). cbn [bind set_cli Enc_Model.s_enc]. rewrite upd_eq. reflexivity. }
          eexists _, (add_damage zst s3 1 (e_kind (s_enc s3 (s_m s2)))), true. split; [|split].
          -- rewrite Er. cbn [bind]. unfold s3 at 1. cbn [Enc_Model.s_cli]. rewrite upd_eq. cbn [set_ptrs c_enc]. rewrite load_ok by (cbn; rewrite upd_eq; cbn; lia). reflexivity.
          -- refine (New (set_ptrs c (Some (s_m s2)) (Some (s_m s2)) (c_tight c)) s3 eq_refl eq_refl _ _ _ eq_refl eq_refl eq_refl eq_refl); [auto; discriminate|auto; discriminate|].
             intros b. unfold s3. cbn [Enc_Model.s_enc]. at_a b (s_m s2); reflexivity.
          -- eexists. cbn. rewrite upd_eq. reflexivity.
        * left. repeat split.
    - (* Tight *) destruct (c_tight c) as [a|] eqn:Cz.
      + right. destruct (l_tight _ _ _ _ _ L2 a) as [O Ka]; [exact Cz|].
        destruct (Kept a (set_ptrs c (Some a) (c_zrle c) (Some a))) as (s3 & -> & C3 & Ld & M); auto.
        { apply ptrs_pos. right. right. exact Cz. }

        exists own, (add_damage zst s3 1 (e_kind (s_enc s3 a))), true. split; [cbn [bind]; rewrite C3, Ld; reflexivity|]. split; [exact M|]. exists a. exact C3.
      + destruct alloc.
        * right. set (e2 := mk KTight 2 z_new None None).
          set (s3 := mk_srv zst (upd (upd (s_enc s2) (s_m s2) (mk KTight 1 z_new None None)) (s_m s2) e2) (S (s_m s2)) (upd (s_cli s2) i (set_ptrs c (Some (s_m s2)) (c_zrle c) (Some (s_m s2)))) (s_n s2) (s_damage s2)).
          assert (Er : encoder_ref zst (set_cli zst (mk_srv zst (upd (s_enc s2) (s_m s2) (mk KTight 1 z_new None None)) (S (s_m s2)) (s_cli s2) (s_n s2) (s_damage s2)) i
                        (set_ptrs c (Some (s_m s2)) (c_zrle c) (Some (s_m s2)))) (Some (s_m s2)) = Ok s3).
          { unfold encoder_ref. rewrite load_ok by (cbn; rewrite upd_eq; cbn; lia). cbn [bind set_cli Enc_Model.s_enc]. rewrite upd_eq. reflexivity. }
          eexists _, (add_damage zst s3 1 (e_kind (s_enc s3 (s_m s2)))), true. split; [|split].
          -- rewrite Er. cbn [bind]. unfold s3 at 1. cbn [Enc_Model.s_cli]. rewrite upd_eq. cbn [set_ptrs c_enc]. rewrite load_ok by (cbn; rewrite upd_eq; cbn; lia). reflexivity.
          -- refine (New (set_ptrs c (Some (s_m s2)) (c_zrle c) (Some (s_m s2))) s3 eq_refl eq_refl _ _ _ eq_refl eq_refl eq_refl eq_refl); [auto; discriminate|auto; discriminate|].
             intros b. unfold s3. cbn [Enc_Model.s_enc]. at_a b (s_m s2); reflexivity.
          -- eexists. cbn. rewrite upd_eq. reflexivity.
        * left. repeat split.
    - (* H264 *) right. destruct alloc.
      + set (s3 := mk_srv zst (upd (s_enc s2) (s_m s2) (mk KH264 1 z_new None None)) (S (s_m s2)) (upd (s_cli s2) i (set_ptrs c (Some (s_m s2)) (c_zrle c) (c_tight c))) (s_n s2) (s_damage s2)).
        eexists _, (add_damage zst s3 1 (e_kind (s_enc s3 (s_m s2)))), true. split; [|split].
        * cbn [bind set_cli Enc_Model.s_cli]. rewrite upd_eq. cbn [set_ptrs c_enc]. rewrite load_ok by (cbn; rewrite upd_eq; cbn; lia). cbn [bind]. reflexivity.
        * refine (New (set_ptrs c (Some (s_m s2)) (c_zrle c) (c_tight c)) s3 eq_refl eq_refl _ _ _ eq_refl eq_refl eq_refl eq_refl); [discriminate|discriminate|reflexivity].
        * eexists. cbn. rewrite upd_eq. reflexivity.
      + eexists _, _, false. split; [|split; [apply (Nothing _ eq_refl)|]].
        * cbn [bind set_cli Enc_Model.s_cli]. rewrite upd_eq. reflexivity.
        * cbn. rewrite upd_eq. reflexivity. }
  destruct (c_enc c) as [a|] eqn:Ce; [|cbn [bind]; apply NotSame; reflexivity].
  rewrite (Same a eq_refl). cbn [bind]. destruct (kind_eqb k (e_kind (s_enc s a))) eqn:Ek; [|apply NotSame; reflexivity].
  right. exists own, s, true. split; [reflexivity|]. split; [|exists a; exact Ce].
  split; auto; try lia.
  - symmetry. apply set_ptrs_id.
Qed.

End Enc.
