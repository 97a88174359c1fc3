(** Proofs about encoders: finished frames, all steps, what follows. *)
From Verif Require Import Common CommonProofs Enc_Model Enc_Spec Enc_Proofs Enc2_Proofs Enc3_Proofs.

Section Enc.
Variable zst : Type.
Variable z_new : zst.
Variable deflate : zst -> list Z -> zst * list Z.

Notation enc := (enc zst).
Notation srv := (srv zst).
Notation e_kind := (e_kind zst).
Notation e_ref := (e_ref zst).
Notation e_z := (e_z zst).
Notation e_for := (e_for zst).
Notation e_job := (e_job zst).
Notation s_enc := (s_enc zst).
Notation s_cli := (s_cli zst).
Notation s_m := (s_m zst).
Notation s_n := (s_n zst).
Notation s_damage := (s_damage zst).
Notation mk := (mk_enc zst).
Notation loc := (loc zst z_new deflate).
Notation loc0 := (loc0 zst).
Notation inv := (inv zst z_new deflate).
Notation hist := (hist zst z_new deflate).
Notation wants := (wants zst).
Notation with_ref := (with_ref zst).
Notation with_for := (with_for zst).

Ltac at_a b a := destruct (Nat.eq_dec b a) as [->|?]; [rewrite ?upd_eq in *|rewrite ?upd_ne in * by assumption].


Notation still := (still zst).
Notation idle := (idle zst).
Notation mid := (mid zst z_new deflate).


Lemma in_stream_app : forall l z f, in_stream deflate z l -> f_bytes f = snd (deflate (feed zst deflate z l) (f_plain f)) -> in_stream deflate z (l ++ [f]).
Proof. induction l as [|g l IH]; cbn; intros z f A B; [auto|]. destruct A as [A1 A2]. split; [exact A1|]. apply IH; assumption. Qed.
Lemma feed_app : forall l z f, feed zst deflate z (l ++ [f]) = fst (deflate (feed zst deflate z l) (f_plain f)).
Proof. intros l z f. unfold feed. rewrite fold_left_app. reflexivity. Qed.
Lemma of_kind_app : forall k l f, of_kind k (l ++ [f]) = of_kind k l ++ (if kind_eqb k (f_kind f) then [f] else []).
Proof. intros k l f. unfold of_kind. rewrite filter_app. cbn. destruct (kind_eqb k (f_kind f)); reflexivity. Qed.

Lemma finish_same : forall c f, let c' := finish_fb_update c f in
  c_alive c' = c_alive c /\ c_enc c' = c_enc c /\ c_zrle c' = c_zrle c /\ c_tight c' = c_tight c /\ c_shut c' = c_shut c.
Proof. intros c f. unfold finish_fb_update. cbv zeta. destruct (c_shut c) eqn:Q; [cbn; auto|]. destruct (c_changed c && negb (c_fence c)); cbn; auto. Qed.

(** The history grows by the frame, sent or thrown away. *)
Lemma finish_hist : forall k c E E' a plain, (k = KZrle \/ k = KTight) -> hist k c E -> c_alive c = true -> c_enc c = Some a ->
  (forall b, ptr k c = Some b -> e_kind (E b) = k) -> (e_kind (E a) = k -> ptr k c = Some a) ->
  (forall b, b <> a -> e_z (E' b) = e_z (E b)) ->
  let r := if deflates (e_kind (E a)) then deflate (e_z (E a)) plain else (e_z (E a), plain) in
  e_z (E' a) = fst r -> hist k (finish_fb_update c (mk_frame (e_kind (E a)) plain (snd r))) E'.
Proof.
  intros k c E E' a plain Kk (t & A1 & A2 & A3 & A4) Al Ce Kp Ka Zb r Za.
  destruct (finish_same c (mk_frame (e_kind (E a)) plain (snd r))) as (Fa & Fe & Fz & Ft & Fs).
  assert (Fp : ptr k (finish_fb_update c (mk_frame (e_kind (E a)) plain (snd r))) = ptr k c) by (destruct k; cbn; auto).
  destruct (c_shut c) eqn:Sh.
  - exists t. split; [exact A1|]. unfold finish_fb_update at 1 2. rewrite Sh. cbn [set_busy c_out c_lost]. do 2 (split; [assumption|]). intros _ Q. congruence.
  - specialize (A4 Al eq_refl). destruct (kind_eqb k (e_kind (E a))) eqn:Ek.
    + (* a frame of this kind *)
      apply kind_eqb_eq in Ek. assert (P : ptr k c = Some a) by (apply Ka; auto). rewrite P in A4.
      assert (Df : deflates (e_kind (E a)) = true) by (rewrite <- Ek; destruct Kk as [->| ->]; reflexivity).
      assert (Er : r = deflate (e_z (E a)) plain) by (unfold r; rewrite Df; reflexivity).
      set (f := mk_frame (e_kind (E a)) plain (snd r)) in *.
      assert (S1 : in_stream deflate z_new (map fst t ++ [f])) by (apply in_stream_app; [exact A1|]; cbn; rewrite <- A4, Er; reflexivity).
      assert (S2 : e_z (E' a) = feed zst deflate z_new (map fst t ++ [f])) by (rewrite feed_app; cbn; rewrite <- A4, Za, Er; reflexivity).
      assert (Ekf : kind_eqb k (f_kind f) = true) by (cbn; rewrite <- Ek; apply kind_eqb_refl).
      unfold hist, Enc_Proofs.hist. rewrite Fp, P.
      destruct (c_changed c && negb (c_fence c)) eqn:Ch.
      * exists (t ++ [(f, false)]). rewrite map_app. cbn [map fst]. split; [exact S1|]. unfold finish_fb_update at 1 2. rewrite Sh, Ch. cbn [c_out c_lost].
        unfold kept, thrown in *. rewrite !filter_app, !map_app. cbn. rewrite app_nil_r, of_kind_app, Ekf. split; [exact A2|]. split; [congruence|]. auto.
      * exists (t ++ [(f, true)]). rewrite map_app. cbn [map fst]. split; [exact S1|]. unfold finish_fb_update at 1 2. rewrite Sh, Ch. cbn [c_out c_lost].
        unfold kept, thrown in *. rewrite !filter_app, !map_app. cbn. rewrite app_nil_r, of_kind_app, Ekf. split; [congruence|]. auto.
    + (* of another *)
      set (f := mk_frame (e_kind (E a)) plain (snd r)) in *. assert (Ekf : kind_eqb k (f_kind f) = false) by exact Ek.
      exists t. split; [exact A1|]. rewrite Fp. unfold finish_fb_update at 1 2. rewrite Sh.
      destruct (c_changed c && negb (c_fence c)); cbn [c_out c_lost]; rewrite of_kind_app, Ekf, app_nil_r; (split; [assumption|split; [assumption|]]); intros _ _;
      (destruct (ptr k c) as [b|] eqn:P; [|exact A4]; rewrite Zb; [exact A4|]; intros ->; rewrite (Kp a eq_refl) in Ek; rewrite kind_eqb_refl in Ek; discriminate).
Qed.

Lemma done_ok : forall own s a, inv own s -> exists s', done zst deflate s a = Ok s' /\ inv own s'.
Proof.
  intros own s a I. unfold done. cbv zeta. destruct (e_job (s_enc s a)) as [plain|] eqn:J; [|eauto].
  pose proof (damage_range _ _ _ own s I) as D.
  set (i := own a). pose proof (i_loc _ _ _ _ _ I i) as [L0 Lb Lw Hz Ht]. set (c := s_cli s i) in *.
  assert (R : 0 < e_ref (s_enc s a)) by (apply (l_job _ _ _ _ _ L0 a eq_refl); congruence).
  assert (Lm : (a < s_m s)%nat) by (destruct (Nat.lt_ge_cases a (s_m s)) as [Q|Q]; [exact Q|]; destruct (i_enc _ _ _ _ _ I a Q); lia).
  rewrite load_ok by lia. cbn [bind]. set (e := s_enc s a) in *.
  set (r := if deflates (e_kind e) then deflate (e_z e) plain else (e_z e, plain)).
  rewrite (surjective_pairing r).
  cbv iota beta.
  set (w := if work_holds (e_kind e) then 1 else 0).
  set (E' := upd (s_enc s) a (mk (e_kind e) (e_ref e - w) (fst r) None None)).
  (* what is left to show of the encoder *)
  assert (LE : loc0 own i c E') by (apply (end_loc zst own i c (s_enc s) a (fst r) L0 eq_refl); fold e; congruence).
  assert (Fin : forall s' c', (forall b, s_enc s' b = E' b) -> s_cli s' = s_cli s \/ s_cli s' = upd (s_cli s) i c' -> s_cli s' i = c' -> s_m s' = s_m s -> s_n s' = s_n s -> s_damage s' = s_damage s ->
     ((i < s_n s)%nat \/ (c_alive c' = false /\ c_enc c' = None)) -> loc own i c' E' -> c_enc c' = c_enc c -> inv own s').
  { intros s' c' Es Cs Ci Ms Ns Ds Li L Ce. apply (one_client _ _ _ own own s _ i I); rewrite ?Ms, ?Ns, ?Ds, ?Ci; auto.
    - intros j N. destruct Cs as [->| ->]; [reflexivity|apply upd_ne, N].
    - intros b N. rewrite Es. apply upd_ne. intros ->. apply N. reflexivity.
    - intros b Q. rewrite Es. unfold E'. rewrite upd_ne by (intros ->; lia). apply (i_enc _ _ _ _ _ I b Q).
    - apply (loc_ext _ _ _ own own i c' E'); auto. intros b P. apply (ptr_pos zst own i c' E' b); [apply L|exact P].
    - unfold Enc_Proofs.wants. rewrite Ce. fold c. replace (match c_enc c with Some a0 => negb (ignores_damage (e_kind (s_enc s' a0))) | None => false end)
        with (match c_enc c with Some a0 => negb (ignores_damage (e_kind (s_enc s a0))) | None => false end);
      [rewrite Z.add_simpl_r, Z.mod_small by lia; reflexivity|]. destruct (c_enc c) as [b|]; [|reflexivity]. rewrite Es. unfold E'. at_a b a; reflexivity. }
  (* dropping the reference of the work *)
  assert (Un : forall s1 f, s_enc s1 a = mk (e_kind e) (e_ref e) (fst r) f None ->
     exists s2, (if work_holds (e_kind e) then encoder_unref zst s1 (Some a) else Ok s1) = Ok s2 /\ s_cli s2 = s_cli s1 /\ s_m s2 = s_m s1 /\ s_n s2 = s_n s1 /\ s_damage s2 = s_damage s1 /\
       s_enc s2 a = mk (e_kind e) (e_ref e - w) (fst r) f None /\ forall b, b <> a -> s_enc s2 b = s_enc s1 b).
  { intros s1 f Ea. unfold w. destruct (work_holds (e_kind e)).
    - rewrite unref_ok by (rewrite Ea; cbn; lia). eexists. split; [reflexivity|]. do 4 (split; [reflexivity|]). cbn. rewrite upd_eq. rewrite Ea. split; [|intros b N; apply upd_ne, N].
      cbn. unfold Enc_Proofs.with_ref. cbn. destruct (e_ref e - 1 =? 0); reflexivity.
    - exists s1. do 5 (split; [reflexivity|]). rewrite Z.sub_0_r. auto. }
  destruct (e_for e) as [j|] eqn:F.
  - (* somebody waits *)
    destruct (l_for _ _ _ _ _ L0 a j eq_refl F) as (-> & Al & Ce).
    assert (Pa : 0 < ptrs c a) by (apply ptrs_pos; auto).
    destruct (Lb a Pa) as (_ & Bz & Wr); [fold e; congruence|].
    unfold on_encode_frame_done. cbv zeta. cbn [set_enc Enc_Model.s_cli]. fold c. rewrite Al. cbn [negb]. rewrite Ce.
    unfold forget. rewrite load_ok by (cbn; rewrite upd_eq; cbn; lia). cbn [bind set_enc Enc_Model.s_enc Enc_Model.s_cli Enc_Model.s_m Enc_Model.s_n Enc_Model.s_damage].
    fold c. rewrite upd_eq. cbn [Enc_Model.e_kind Enc_Model.e_ref Enc_Model.e_z Enc_Model.e_job].
    set (c' := finish_fb_update c (mk_frame (e_kind e) plain (snd r))).
    match goal with |- context [encoder_unref zst ?X] => set (s1 := X) end.
    destruct (finish_same c (mk_frame (e_kind e) plain (snd r))) as (Fa & Fe & Fz & Ft & Fs). fold c' in Fa, Fe, Fz, Ft, Fs.
    destruct (Un s1 None) as (s2 & -> & C2 & M2 & N2 & D2 & Ea2 & Eb2); [unfold s1; cbn; rewrite upd_eq; reflexivity|].
    exists s2. split; [reflexivity|]. apply (Fin s2 c').
    + intros b. unfold E'. at_a b a; [exact Ea2|]. rewrite Eb2 by assumption. unfold s1. cbn. rewrite !upd_ne by assumption. reflexivity.
    + right. rewrite C2. reflexivity.
    + rewrite C2. unfold s1. cbn. apply upd_eq.
    + rewrite M2. reflexivity.
    + rewrite N2. reflexivity.
    + rewrite D2. reflexivity.
    + left. apply (alive_lt zst z_new deflate own s i I Al).
    + split.
      * apply (loc0_flags zst own i c); auto.
      * intros b P Jb. rewrite (ptrs_flags c) in P by assumption. exfalso. unfold E' in Jb. at_a b a; [apply Jb; reflexivity|].
        destruct (Lb b P Jb) as (Fb & _). destruct (ptr_pos zst own i c _ b L0 P) as [Ob _]. destruct (l_for _ _ _ _ _ L0 b _ Ob Fb) as (_ & _ & X). congruence.
      * unfold c', finish_fb_update. destruct (c_shut c); [cbn; congruence|]. destruct (c_changed c && negb (c_fence c)); cbn; congruence.
      * apply (finish_hist KZrle c (s_enc s) E' a plain); auto.
        -- intros b Pb. apply (l_zrle _ _ _ _ _ L0 b Pb).
        -- intros Ka. apply (l_enc _ _ _ _ _ L0 a Ce). exact Ka.
        -- intros b N. unfold E'. rewrite upd_ne by assumption. reflexivity.
        -- unfold E'. rewrite upd_eq. reflexivity.
      * apply (finish_hist KTight c (s_enc s) E' a plain); auto.
        -- intros b Pb. apply (l_tight _ _ _ _ _ L0 b Pb).
        -- intros Ka. apply (l_enc _ _ _ _ _ L0 a Ce). exact Ka.
        -- intros b N. unfold E'. rewrite upd_ne by assumption. reflexivity.
        -- unfold E'. rewrite upd_eq. reflexivity.
    + exact Fe.
  - (* nobody does *)
    cbn [bind]. match goal with |- context [encoder_unref zst ?X] => set (s1 := X) end.
    destruct (Un s1 None) as (s2 & -> & C2 & M2 & N2 & D2 & Ea2 & Eb2); [unfold s1; cbn; rewrite upd_eq; reflexivity|].
    assert (Np : ~ 0 < ptrs c a). { intros P. destruct (Lb a P) as (Q & _); [fold e; congruence|]. fold e in Q. congruence. }
    assert (Hk : forall k, hist k c (s_enc s) -> hist k c E').
    { intros k Hk. apply (hist_ptr _ _ _ k c c (s_enc s)); auto. left. split; [reflexivity|]. intros b Pb. unfold E'. rewrite upd_ne; [reflexivity|].
      intros ->. apply Np, ptrs_pos. destruct k; cbn in Pb; try discriminate; auto. }
    exists s2. split; [reflexivity|]. apply (Fin s2 c); auto.
    + intros b. unfold E'. at_a b a; [exact Ea2|]. rewrite Eb2 by assumption. unfold s1. cbn. rewrite !upd_ne by assumption. reflexivity.
    + rewrite C2. reflexivity.
    + destruct (Nat.lt_ge_cases i (s_n s)) as [Q|Q]; [auto|right]. pose proof (i_cli _ _ _ _ _ I i Q) as Dd. split; [exact Dd|]. apply (l_dead _ _ _ _ _ L0 Dd).
    + split; auto. intros b P Jb. unfold E' in Jb. at_a b a; [destruct (Np P)|]. unfold E'. rewrite upd_ne by assumption. apply (Lb b P Jb).
Qed.

Lemma connect_ok : forall own s, inv own s -> exists s', step zst z_new deflate s Connect = Ok s' /\ inv own s'.
Proof.
  intros own s I. eexists. split; [reflexivity|]. destruct I as [IL IE IC ID]. set (n := s_n s) in *.
  destruct (IL n) as [[Lr Le Lz Lt Lf Lj Ld] Lb Lw Hz Ht]. pose proof (IC n (Nat.le_refl n)) as Dd. destruct (Ld Dd) as (Q1 & Q2 & Q3).
  assert (Fr : loc own n fresh (s_enc s)).
  { split.
    - split; try discriminate.
      + intros a O. rewrite (Lr a O). f_equal. unfold ptrs. rewrite Q1, Q2, Q3. reflexivity.
      + intros a j O F. destruct (Lf a j O F) as (_ & X & _). congruence.
      + exact Lj.
    - intros a P. unfold ptrs in P. cbn in P. lia.
    - discriminate.
    - exists []. cbn. auto.
    - exists []. cbn. auto. }
  split; cbn [Enc_Model.s_cli Enc_Model.s_enc Enc_Model.s_m Enc_Model.s_n Enc_Model.s_damage]; auto.
  - intros j. destruct (Nat.eq_dec j n) as [->|N]; [rewrite upd_eq; exact Fr|]. rewrite upd_ne by assumption. apply IL.
  - intros j L. rewrite upd_ne by lia. apply IC. lia.
  - rewrite ID. f_equal. unfold damage_clients. cbn [Enc_Model.s_n]. rewrite seq_S, filter_app, app_length. cbn [plus filter]. fold n.
    match goal with |- context [if wants_damage ?X n then _ else _] => assert (W : wants_damage X n = false) end.
    { unfold wants_damage. cbn [Enc_Model.s_cli]. rewrite upd_eq. reflexivity. }
    rewrite W. cbn [length]. rewrite Nat.add_0_r. f_equal. apply count_ext.
    intros j L. unfold wants_damage. cbn. rewrite upd_ne by lia. reflexivity.
Qed.

Lemma step_ok : forall own s o, inv own s ->
  (~ memory o /\ step zst z_new deflate s o = Fault NullDeref) \/ exists own' s', step zst z_new deflate s o = Ok s' /\ inv own' s'.
Proof.
  intros own s o I. destruct o as [|i|i fence|i k p alloc start|a|i|i|i]; cbn [step].
  - right. exists own. apply connect_ok, I.
  - right. destruct (c_alive (s_cli s i)) eqn:Al; [|eauto]. eexists own, _. split; [reflexivity|]. apply flags_ok; auto; cbn; auto. apply (l_wr _ _ _ _ _ _ _ (i_loc _ _ _ _ _ I i)).
  - right. destruct (c_alive (s_cli s i)) eqn:Al; [|eauto]. eexists own, _. split; [reflexivity|]. apply flags_ok; auto; cbn; auto. apply (l_wr _ _ _ _ _ _ _ (i_loc _ _ _ _ _ I i)).
  - destruct (process_ok zst z_new deflate own s i k p alloc start I) as [(Q1 & Q2 & ->)|X]; [|auto]. left. split; [|reflexivity]. cbn. intros Q. specialize (Q Q1). congruence.
  - right. exists own. apply done_ok, I.
  - right. unfold written. cbv zeta. destruct (c_alive (s_cli s i)) eqn:Al; cbn [andb]; [|eauto]. destruct (c_writing (s_cli s i)) eqn:Wr; [|eauto].
    eexists own, _. split; [reflexivity|]. apply flags_ok; auto; cbn; auto. congruence.
  - right. destruct (c_alive (s_cli s i)) eqn:Al; [|eauto]. eexists own, _. split; [reflexivity|]. apply flags_ok; auto; cbn; auto; try discriminate.
    intros -> ->. auto.
  - right. exists own. apply close_ok, I.
Qed.

Lemma inv_init : inv (fun _ => 0%nat) (init zst z_new).
Proof.
  split; [|cbn; auto|cbn; auto|reflexivity]. intros i. split.
  - split; cbn; try (intros; discriminate); auto. intros a _ Q. congruence.
  - intros a P. unfold ptrs in P. cbn in P. lia.
  - discriminate.
  - exists []. cbn. auto.
  - exists []. cbn. auto.
Qed.

Lemma run_inv : forall os own s s', inv own s -> run zst z_new deflate s os = Ok s' -> exists own', inv own' s'.
Proof.
  induction os as [|o os IH]; cbn [run]; intros own s s' I E; [injection E as <-; eauto|].
  destruct (step_ok own s o I) as [[_ Q]|(own' & s1 & Q & I1)]; rewrite Q in E; cbn [bind] in E; [discriminate|]. eauto.
Qed.

Lemma run_safe : forall os own s, inv own s -> Forall memory os -> exists s', run zst z_new deflate s os = Ok s'.
Proof.
  induction os as [|o os IH]; cbn [run]; intros own s I M; [eauto|]. inversion M as [|? ? Mo Ms]; subst.
  destruct (step_ok own s o I) as [[Q _]|(own' & s1 & Q & I1)]; [contradiction|]. rewrite Q. cbn [bind]. eauto.
Qed.

(** The viewer follows the stream. *)
Lemma watch_stream : forall ist (i_new : ist) inflate (R : zst -> ist -> Prop),
  (forall z i p, R z i -> exists i', inflate i (snd (deflate z p)) = Some (i', p) /\ R (fst (deflate z p)) i') ->
  forall l z i, R z i -> in_stream deflate z l -> watch inflate i (map f_bytes l) = map (fun f => Some (f_plain f)) l.
Proof.
  intros ist i_new inflate R Law. induction l as [|f l IH]; intros z i Rz S; [reflexivity|]. destruct S as [Sb Sl]. cbn [map watch]. rewrite Sb.
  destruct (Law z i (f_plain f) Rz) as (i' & -> & R'). f_equal. eapply IH; eauto.
Qed.

Lemma nothing_thrown : forall t, thrown t = [] -> kept t = map fst t.
Proof. induction t as [|[f b] t IH]; [reflexivity|]. unfold kept, thrown in *. cbn. destruct b; cbn; intros Q; [f_equal; auto|discriminate]. Qed.

(** *** A client with Fence loses nothing. *)
Lemma bind_ok : forall A B (r : res A) (f : A -> res B) b, (let* x := r in f x) = Ok b -> exists a, r = Ok a /\ f a = Ok b.
Proof. intros A B [a|e] f b E; cbn in E; [eauto|discriminate]. Qed.
Ltac unb E := apply bind_ok in E; destruct E as (? & ? & E).

Definition same (s s' : srv) : Prop := s_cli s' = s_cli s /\ s_n s' = s_n s.
Lemma unref_cli : forall s p s', encoder_unref zst s p = Ok s' -> same s s'.
Proof. intros s [a|] s' E; cbn in E; [unb E|]; injection E as <-; split; reflexivity. Qed.
Lemma ref_cli : forall s p s', encoder_ref zst s p = Ok s' -> same s s'.
Proof. intros s [a|] s' E; cbn in E; [|discriminate]. unb E. destruct (0 <? _); [injection E as <-; split; reflexivity|discriminate]. Qed.
Lemma forget_cli : forall s a s', forget zst s a = Ok s' -> same s s'.
Proof. intros s a s' E. unfold forget in E. unb E. injection E as <-. split; reflexivity. Qed.
Lemma detach_cli : forall s p s', detach zst s p = Ok s' -> same s s'.
Proof. intros s [a|] s' E; cbn in E; [|injection E as <-; split; reflexivity]. unb E. apply forget_cli in E. exact E. Qed.

Definition keeps (c c' : cli) : Prop := c_fence c' = c_fence c /\ c_lost c' = c_lost c.
Definition keep (j : nat) (s s' : srv) : Prop := keeps (s_cli s j) (s_cli s' j) /\ s_n s' = s_n s.
Lemma keeps_refl : forall c, keeps c c.
Proof. split; reflexivity. Qed.
Lemma keep_refl : forall j s, keep j s s.
Proof. split; [apply keeps_refl|reflexivity]. Qed.
Lemma keep_trans : forall j a b c, keep j a b -> keep j b c -> keep j a c.
Proof. intros j a b c [[] ?] [[] ?]. split; [split|]; congruence. Qed.
Lemma same_keep : forall j s s', same s s' -> keep j s s'.
Proof. intros j s s' [A B]. split; [rewrite A; apply keeps_refl|exact B]. Qed.
Lemma keeps_upd : forall (f : nat -> cli) i c j, keeps (f i) c -> keeps (f j) (upd f i c j).
Proof. intros f i c j K. unfold upd. destruct (Nat.eqb_spec j i) as [->|N]; [exact K|apply keeps_refl]. Qed.
Lemma set_keep : forall j s i c, keeps (s_cli s i) c -> keep j s (set_cli zst s i c).
Proof. intros j s i c K. split; [apply keeps_upd, K|reflexivity]. Qed.

Lemma choose_keeps : forall s i k alloc s' j, choose zst z_new s i k alloc = Ok s' -> keep j s s'.
Proof.
  intros s i k alloc s' j E. unfold choose in E. cbv zeta in E.
  assert (N : forall q, same s (fst (encoder_new zst z_new s q alloc))) by (intros q; unfold encoder_new; destruct alloc; split; reflexivity).
  assert (P : forall s1 z t u, same s s1 -> keep j s (set_cli zst s1 i (set_ptrs (s_cli s i) z t u))).
  { intros s1 z t u S1. eapply keep_trans; [apply same_keep, S1|]. apply set_keep. destruct S1 as [-> _]. split; reflexivity. }
  destruct k.
  - specialize (N KRaw). destruct (encoder_new zst z_new s KRaw alloc) as [s1 e]. injection E as <-. apply P, N.
  - specialize (N KZrle). destruct (c_zrle (s_cli s i)) as [a|] eqn:Z; [|destruct (encoder_new zst z_new s KZrle alloc) as [s1 e]]; apply ref_cli in E;
    (eapply keep_trans; [|apply same_keep, E]); apply P; [split; reflexivity|exact N].
  - specialize (N KTight). destruct (c_tight (s_cli s i)) as [a|] eqn:Z; [|destruct (encoder_new zst z_new s KTight alloc) as [s1 e]]; apply ref_cli in E;
    (eapply keep_trans; [|apply same_keep, E]); apply P; [split; reflexivity|exact N].
  - specialize (N KH264). destruct (encoder_new zst z_new s KH264 alloc) as [s1 e]. injection E as <-. apply P, N.
Qed.

Lemma ensure_keeps : forall s i k alloc s' ok j, ensure_encoder zst z_new s i k alloc = Ok (s', ok) -> keep j s s'.
Proof.
  intros s i k alloc s' ok j E. unfold ensure_encoder in E. cbv zeta in E. apply bind_ok in E. destruct E as (sm & _ & E). destruct sm; [injection E as <- _; apply keep_refl|].
  apply bind_ok in E. destruct E as (s1 & E1 & E). apply bind_ok in E. destruct E as (s2 & E2 & E). apply bind_ok in E. destruct E as (s3 & E3 & E).
  apply detach_cli in E1. apply unref_cli in E2. apply (choose_keeps _ _ _ _ _ j) in E3.
  eapply keep_trans; [apply same_keep, E1|]. eapply keep_trans; [apply same_keep, E2|]. eapply keep_trans; [exact E3|].
  destruct (c_enc (s_cli s3 i)); [unb E|]; injection E as <- _; apply same_keep; split; reflexivity.
Qed.

Lemma process_keeps : forall s i k p alloc start s' j, process zst z_new s i k p alloc start = Ok s' -> keep j s s'.
Proof.
  intros s i k p alloc start s' j E. unfold process in E. cbv zeta in E. destruct (negb (c_alive (s_cli s i)) || c_shut (s_cli s i) || c_busy (s_cli s i)); [injection E as <-; apply keep_refl|].
  apply bind_ok in E. destruct E as ([s1 ok] & E1 & E). apply (ensure_keeps _ _ _ _ _ _ j) in E1. destruct ok; cbn [negb] in E; [|injection E as <-; exact E1].
  eapply keep_trans; [exact E1|]. clear E1.
  set (s2 := set_cli zst s1 i (set_busy (s_cli s1 i) true false (c_writing (s_cli s1 i)))) in E.
  assert (K2 : keep j s1 s2) by (apply set_keep; split; reflexivity). eapply keep_trans; [exact K2|].
  destruct (c_enc (s_cli s2 i)) as [a|]; [|discriminate].
  apply bind_ok in E. destruct E as (e & _ & E). apply bind_ok in E. destruct E as ([s4 ok] & E4 & E).
  assert (C4 : same s2 s4).
  { unfold encode in E4. apply bind_ok in E4. destruct E4 as (e1 & _ & E4). destruct (e_job e1); [discriminate|]. destruct start; injection E4 as <- _; split; reflexivity. }
  eapply keep_trans; [apply same_keep, C4|]. destruct ok; injection E as <-; [apply keep_refl|]. apply set_keep. split; reflexivity.
Qed.

Lemma finish_keeps : forall c f, c_fence c = true -> keeps c (finish_fb_update c f).
Proof. intros c f F. unfold finish_fb_update. destruct (c_shut c); [split; reflexivity|]. rewrite F. rewrite andb_false_r. split; cbn; auto. Qed.

Lemma done_keeps : forall s a s' j, done zst deflate s a = Ok s' -> c_fence (s_cli s j) = true -> keep j s s'.
Proof.
  intros s a s' j E F. unfold done in E. cbv zeta in E. destruct (e_job (s_enc s a)) as [plain|]; [|injection E as <-; apply keep_refl].
  apply bind_ok in E. destruct E as (e & _ & E). destruct (if deflates (e_kind e) then deflate (e_z e) plain else (e_z e, plain)) as [z bytes].
  apply bind_ok in E. destruct E as (s1 & E1 & E).
  assert (C : same s1 s') by (destruct (work_holds (e_kind e)); [exact (unref_cli _ _ _ E)|injection E as <-; split; reflexivity]).
  eapply keep_trans; [|apply same_keep, C]. destruct (e_for e) as [i|]; [|injection E1 as <-; apply same_keep; split; reflexivity].
  unfold on_encode_frame_done in E1. cbn [set_enc Enc_Model.s_cli] in E1. cbv zeta in E1. destruct (negb (c_alive (s_cli s i))); [discriminate|].
  destruct (c_enc (s_cli s i)) as [b|]; [|discriminate]. apply bind_ok in E1. destruct E1 as (s2 & E2 & E1). apply forget_cli in E2. destruct E2 as [E2 N2]. cbn in E2, N2.
  injection E1 as <-. split; [|exact N2]. cbn [set_cli Enc_Model.s_cli]. rewrite E2. unfold upd. destruct (Nat.eqb_spec j i) as [->|N]; [apply finish_keeps, F|apply keeps_refl].
Qed.

Lemma close_keeps : forall s i s' j, client_close zst s i = Ok s' -> keep j s s'.
Proof.
  intros s i s' j E. unfold client_close in E. cbv zeta in E. destruct (negb (c_alive (s_cli s i))); [injection E as <-; apply keep_refl|].
  apply bind_ok in E. destruct E as (s1 & E1 & E). apply bind_ok in E. destruct E as (s2 & E2 & E). apply bind_ok in E. destruct E as (s3 & E3 & E). apply bind_ok in E. destruct E as (s4 & E4 & E).
  apply detach_cli in E1. apply unref_cli in E2, E3, E4. injection E as <-. destruct E1 as [C1 N1], E2 as [C2 N2], E3 as [C3 N3], E4 as [C4 N4].
  split; cbn; [|congruence]. rewrite C4, C3, C2, C1. apply keeps_upd. split; reflexivity.
Qed.

Lemma step_keeps : forall s o s' i, (i < s_n s)%nat -> c_fence (s_cli s i) = true ->
  (forall f, o = SetEncodings i f -> f = true) -> step zst z_new deflate s o = Ok s' -> keeps (s_cli s i) (s_cli s' i) /\ (s_n s <= s_n s')%nat.
Proof.
  intros s o s' i L F Ok1 E.
  assert (K : keep i s s' -> keeps (s_cli s i) (s_cli s' i) /\ (s_n s <= s_n s')%nat) by (intros [? ->]; auto).
  destruct o as [|j|j fence|j k p alloc start|a|j|j|j]; cbn [step] in E.
  - injection E as <-. cbn. rewrite upd_ne by lia. split; [apply keeps_refl|lia].
  - apply K. injection E as <-. destruct (c_alive (s_cli s j)); [|apply keep_refl]. apply set_keep. split; reflexivity.
  - apply K. injection E as <-. destruct (c_alive (s_cli s j)); [|apply keep_refl].
    destruct (Nat.eq_dec i j) as [->|N]; [|split; [cbn; rewrite upd_ne by assumption; apply keeps_refl|reflexivity]]. apply set_keep. rewrite (Ok1 fence eq_refl). split; [cbn; congruence|reflexivity].
  - apply K, (process_keeps _ _ _ _ _ _ _ i E).
  - apply K, (done_keeps _ _ _ i E F).
  - apply K. injection E as <-. unfold written. cbv zeta. destruct (c_alive (s_cli s j) && c_writing (s_cli s j)); [|apply keep_refl]. apply set_keep. split; reflexivity.
  - apply K. injection E as <-. destruct (c_alive (s_cli s j)); [|apply keep_refl]. apply set_keep. split; reflexivity.
  - apply K, (close_keeps _ _ _ i E).
Qed.

Lemma run_keeps : forall os s s' i, (i < s_n s)%nat -> c_fence (s_cli s i) = true -> (forall f, In (SetEncodings i f) os -> f = true) ->
  run zst z_new deflate s os = Ok s' -> c_lost (s_cli s' i) = c_lost (s_cli s i).
Proof.
  induction os as [|o os IH]; cbn [run]; intros s s' i L F A E; [injection E as <-; reflexivity|].
  apply bind_ok in E. destruct E as (s1 & E1 & E). destruct (step_keeps s o s1 i L F) as [[K1 K2] N]; [intros f ->; apply A; left; reflexivity|exact E1|].
  rewrite <- K2. apply IH; [lia|congruence|intros f Q; apply A; right; exact Q|exact E].
Qed.

End Enc.
