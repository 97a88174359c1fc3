(** Proofs about encoders: the invariant, client by client. *)
From Verif Require Import Common CommonProofs Enc_Model Enc_Spec.

Lemma kind_eqb_eq : forall a b, kind_eqb a b = true <-> a = b.
Proof. destruct a, b; cbn; split; congruence. Qed.
Lemma kind_eqb_refl : forall a, kind_eqb a a = true.
Proof. destruct a; reflexivity. Qed.

Definition here (p : option nat) (a : nat) : Z := match p with Some b => if Nat.eqb a b then 1 else 0 | None => 0 end.
Definition ptrs (c : cli) (a : nat) : Z := here (c_enc c) a + here (c_zrle c) a + here (c_tight c) a.
Lemma here_cases : forall p a, (p = Some a /\ here p a = 1) \/ (p <> Some a /\ here p a = 0).
Proof. intros [b|] a; cbn; [|right; split; congruence]. destruct (Nat.eqb_spec a b); [left; subst; auto|right; split; [congruence|auto]]. Qed.

Lemma ptrs_pos : forall c a, 0 < ptrs c a <-> c_enc c = Some a \/ c_zrle c = Some a \/ c_tight c = Some a.
Proof.
  intros c a. unfold ptrs. pose proof (here_cases (c_enc c) a). pose proof (here_cases (c_zrle c) a). pose proof (here_cases (c_tight c) a).
  intuition lia.
Qed.
Lemma ptrs_nonneg : forall c a, 0 <= ptrs c a.
Proof. intros c a. unfold ptrs. pose proof (here_cases (c_enc c) a). pose proof (here_cases (c_zrle c) a). pose proof (here_cases (c_tight c) a). intuition lia. Qed.
(** *** The count of clients that want damage. *)
Lemma count_ext : forall (f g : nat -> bool) n, (forall i, (i < n)%nat -> f i = g i) -> length (filter f (seq 0 n)) = length (filter g (seq 0 n)).
Proof.
  induction n; intros Ext; [reflexivity|]. rewrite seq_S, !filter_app, !app_length. cbn [plus]. rewrite IHn by (intros; apply Ext; lia).
  cbn [filter]. rewrite (Ext n) by lia. reflexivity.
Qed.
Lemma count_upd : forall (f g : nat -> bool) n i, (i < n)%nat -> (forall j, j <> i -> f j = g j) ->
  Z.of_nat (length (filter g (seq 0 n))) = Z.of_nat (length (filter f (seq 0 n))) + (if g i then 1 else 0) - (if f i then 1 else 0).
Proof.
  induction n; intros i L Ext; [lia|]. rewrite seq_S, !filter_app, !app_length, !Nat2Z.inj_add. cbn [plus filter].
  destruct (Nat.eq_dec i n) as [->|N].
  - rewrite (count_ext f g n) by (intros; apply Ext; lia). destruct (g n), (f n); cbn [length]; lia.
  - rewrite (IHn i) by (auto; lia). rewrite (Ext n) by auto. lia.
Qed.


Lemma upd_eq : forall {A} (f : nat -> A) i v, upd f i v i = v.
Proof. intros. unfold upd. rewrite Nat.eqb_refl. reflexivity. Qed.
Lemma upd_ne : forall {A} (f : nat -> A) i v j, j <> i -> upd f i v j = f j.
Proof. intros. unfold upd. destruct (Nat.eqb_spec j i); [contradiction|reflexivity]. Qed.


Section Enc.
Variable zst : Type.
Notation enc := (enc zst).
Notation srv := (srv zst).
Notation e_kind := (e_kind zst).
Notation e_ref := (e_ref zst).
Notation e_z := (e_z zst).
Notation e_for := (e_for zst).
Notation e_job := (e_job zst).
Notation s_enc := (s_enc zst).
Notation s_cli := (s_cli zst).
Notation s_m := (s_m zst).
Notation s_n := (s_n zst).
Notation s_damage := (s_damage zst).

Definition work (e : enc) : Z := match e_job e with Some _ => if work_holds (e_kind e) then 1 else 0 | None => 0 end.

Lemma work_cases : forall e : enc, (work e = 0 \/ work e = 1).
Proof. intros e. unfold work. destruct (e_job e); [destruct (work_holds (e_kind e))|]; auto. Qed.

Record loc0 (own : nat -> nat) (i : nat) (c : cli) (E : nat -> enc) : Prop := {
  l_ref : forall a, own a = i -> e_ref (E a) = ptrs c a + work (E a);
  l_enc : forall a, c_enc c = Some a -> own a = i /\ (e_kind (E a) = KZrle -> c_zrle c = Some a) /\ (e_kind (E a) = KTight -> c_tight c = Some a);
  l_zrle : forall a, c_zrle c = Some a -> own a = i /\ e_kind (E a) = KZrle;
  l_tight : forall a, c_tight c = Some a -> own a = i /\ e_kind (E a) = KTight;
  l_for : forall a j, own a = i -> e_for (E a) = Some j -> j = i /\ c_alive c = true /\ c_enc c = Some a;
  l_job : forall a, own a = i -> e_job (E a) <> None -> 0 < e_ref (E a);
  l_dead : c_alive c = false -> c_enc c = None /\ c_zrle c = None /\ c_tight c = None;
}.

Notation mk := (mk_enc zst).
Definition with_ref (e : enc) (r : Z) (j : option (list Z)) : enc := mk (e_kind e) r (e_z e) (e_for e) j.
Definition with_for (e : enc) (f : option nat) : enc := mk (e_kind e) (e_ref e) (e_z e) f (e_job e).

Ltac at_a b a := destruct (Nat.eq_dec b a) as [->|?]; [rewrite ?upd_eq in *|rewrite ?upd_ne in * by assumption].

(** Clearing on_done. *)
Lemma forget_loc : forall own i c E a, loc0 own i c E -> loc0 own i c (upd E a (with_for (E a) None)).
Proof.
  intros own i c E a [Lr Le Lz Lt Lf Lj Ld]. split; auto.
  - intros b O. at_a b a; [|auto]. apply (Lr a O).
  - intros b Q. at_a b a; [|auto]. apply (Le a Q).
  - intros b Q. at_a b a; [|auto]. apply (Lz a Q).
  - intros b Q. at_a b a; [|auto]. apply (Lt a Q).
  - intros b j O Q. at_a b a; [discriminate|eauto].
  - intros b O Q. at_a b a; [apply (Lj a O Q)|auto].
Qed.

(** Giving up one pointer. *)
Lemma drop_loc : forall own i c c' E a, loc0 own i c E -> own a = i -> c_alive c' = c_alive c ->
  (forall b, ptrs c' b = ptrs c b - (if Nat.eqb b a then 1 else 0)) ->
  c_enc c' = None -> (c_zrle c' = c_zrle c \/ c_zrle c' = None) -> (c_tight c' = c_tight c \/ c_tight c' = None) ->
  (forall b, own b = i -> e_for (E b) = None) ->
  loc0 own i c' (upd E a (with_ref (E a) (e_ref (E a) - 1) (if e_ref (E a) - 1 =? 0 then None else e_job (E a)))) /\ 0 < e_ref (E a).
Proof.
  intros own i c c' E a [Lr Le Lz Lt Lf Lj Ld] O Al P Ce Cz Ct Fo.
  assert (Pa : 1 <= ptrs c a). { specialize (P a). rewrite Nat.eqb_refl in P. pose proof (ptrs_nonneg c' a). lia. }
  pose proof (work_cases (E a)) as Wk. pose proof (Lr a O) as Ra. split; [|lia]. split.
  - intros b Ob. specialize (P b). at_a b a.
    + rewrite Nat.eqb_refl in P. cbn [with_ref Enc_Model.e_ref]. destruct (Z.eqb_spec (e_ref (E a) - 1) 0); unfold work, with_ref in *; cbn [Enc_Model.e_job Enc_Model.e_kind];
      pose proof (ptrs_nonneg c' a); destruct (e_job (E a)); try destruct (work_holds (e_kind (E a))); lia.
    + destruct (Nat.eqb_spec b a); [contradiction|]. rewrite Lr by assumption. lia.
  - intros b Q. congruence.
  - intros b Q. destruct Cz as [Cz|Cz]; [|congruence]. rewrite Cz in Q. destruct (Lz b Q). at_a b a; auto.
  - intros b Q. destruct Ct as [Ct|Ct]; [|congruence]. rewrite Ct in Q. destruct (Lt b Q). at_a b a; auto.
  - intros b j Ob Q. at_a b a; [cbn in Q|]; rewrite Fo in Q by assumption; discriminate.
  - intros b Ob Q. at_a b a; [|auto]. cbn [with_ref Enc_Model.e_job Enc_Model.e_ref] in *. destruct (Z.eqb_spec (e_ref (E a) - 1) 0); [congruence|lia].
  - intros Q. rewrite Al in Q. destruct (Ld Q) as (_ & D2 & D3). split; [exact Ce|]. split; [destruct Cz; congruence|destruct Ct; congruence].
Qed.

(** Taking up a kept encoder. *)
Lemma ref_loc : forall own i c c' E a, loc0 own i c E -> own a = i -> c_alive c = true -> c_alive c' = true -> c_enc c = None ->
  c_enc c' = Some a -> c_zrle c' = c_zrle c -> c_tight c' = c_tight c ->
  (e_kind (E a) = KZrle -> c_zrle c = Some a) -> (e_kind (E a) = KTight -> c_tight c = Some a) ->
  loc0 own i c' (upd E a (with_ref (E a) (e_ref (E a) + 1) (e_job (E a)))).
Proof.
  intros own i c c' E a [Lr Le Lz Lt Lf Lj Ld] O Al Al' Ce Ce' Cz Ct Kz Kt.
  assert (P : forall b, ptrs c' b = ptrs c b + (if Nat.eqb b a then 1 else 0)) by (intros b; unfold ptrs; rewrite Ce, Ce', Cz, Ct; cbn; lia).
  split.
  - intros b Ob. specialize (P b). specialize (Lr b Ob). at_a b a; destruct (Nat.eqb_spec b a) as [?|?] || rewrite Nat.eqb_refl in P; try contradiction; [|lia].
    unfold work, with_ref in *. cbn [Enc_Model.e_ref Enc_Model.e_job Enc_Model.e_kind]. lia.
  - intros b Q. rewrite Ce' in Q. injection Q as <-. rewrite upd_eq. split; [exact O|]. cbn. rewrite Cz, Ct. auto.
  - intros b Q. rewrite Cz in Q. destruct (Lz b Q). at_a b a; auto.
  - intros b Q. rewrite Ct in Q. destruct (Lt b Q). at_a b a; auto.
  - intros b j Ob Q. exfalso. at_a b a; [cbn in Q|]; destruct (Lf _ j Ob Q) as (_ & _ & X); congruence.
  - intros b Ob Q. specialize (Lj b Ob). at_a b a; [|auto]. cbn in *. specialize (Lj Q). lia.
  - congruence.
Qed.

(** A new encoder. *)
Lemma new_loc : forall own i c c' E m k z_new, loc0 own i c E -> (forall b, 0 < ptrs c b -> b <> m) -> e_ref (E m) = 0 -> e_job (E m) = None -> c_alive c = true -> c_alive c' = true -> c_enc c = None ->
  c_enc c' = Some m ->
  (c_zrle c' = if kind_eqb k KZrle then Some m else c_zrle c) -> (c_tight c' = if kind_eqb k KTight then Some m else c_tight c) ->
  (k = KZrle -> c_zrle c = None) -> (k = KTight -> c_tight c = None) ->
  loc0 (upd own m i) i c' (upd E m (mk k (if deflates k then 2 else 1) z_new None None)).
Proof.
  intros own i c c' E m k z_new [Lr Le Lz Lt Lf Lj Ld] Fr Rm Jm Al Al' Ce Ce' Cz Ct Kz Kt.
  assert (Hz : forall b, c_zrle c = Some b -> b <> m) by (intros b Q; apply Fr, ptrs_pos; auto).
  assert (Ht : forall b, c_tight c = Some b -> b <> m) by (intros b Q; apply Fr, ptrs_pos; auto).
  split.
  - intros b Ob. destruct (Nat.eq_dec b m) as [->|N].
    + rewrite upd_eq. unfold ptrs, work. cbn [Enc_Model.e_ref Enc_Model.e_job]. rewrite Ce', Cz, Ct.
      destruct (here_cases (c_tight c) m) as [[Q _]|[_ Q2]]; [destruct (Ht _ Q); reflexivity|].
      destruct k; cbn -[Z.add]; rewrite ?Nat.eqb_refl, ?Q2; try lia; destruct (here_cases (c_zrle c) m) as [[Q _]|[_ Q3]]; try (destruct (Hz _ Q); reflexivity); rewrite ?Q3; lia.
    + rewrite ?(upd_ne own) in Ob by assumption; rewrite ?upd_ne in * by assumption. specialize (Lr b Ob). rewrite Lr. f_equal. unfold ptrs. rewrite Ce, Ce', Cz, Ct.
      destruct k; cbn -[Z.add]; try (rewrite Kz by reflexivity); try (rewrite Kt by reflexivity); cbn -[Z.add]; destruct (Nat.eqb_spec b m); try contradiction; lia.
  - intros b Q. rewrite Ce' in Q. injection Q as <-. rewrite !upd_eq. split; [reflexivity|]. cbn. split; intros ->; [exact Cz|exact Ct].
  - intros b Q. rewrite Cz in Q. destruct (kind_eqb k KZrle) eqn:Ek.
    + injection Q as <-. rewrite !upd_eq. split; [reflexivity|]. apply kind_eqb_eq in Ek. exact Ek.
    + pose proof (Hz b Q). rewrite !upd_ne by assumption. apply Lz, Q.
  - intros b Q. rewrite Ct in Q. destruct (kind_eqb k KTight) eqn:Ek.
    + injection Q as <-. rewrite !upd_eq. split; [reflexivity|]. apply kind_eqb_eq in Ek. exact Ek.
    + pose proof (Ht b Q). rewrite !upd_ne by assumption. apply Lt, Q.
  - intros b j Ob Q. destruct (Nat.eq_dec b m) as [->|N]; [rewrite upd_eq in Q; discriminate|]. rewrite ?(upd_ne own) in Ob by assumption; rewrite ?upd_ne in * by assumption. destruct (Lf _ j Ob Q) as (_ & _ & X). congruence.
  - intros b Ob Q. destruct (Nat.eq_dec b m) as [->|N]; [rewrite upd_eq in Q; cbn in Q; congruence|]. rewrite ?(upd_ne own) in Ob by assumption; rewrite ?upd_ne in * by assumption. auto.
  - congruence.
Qed.

(** Setting on_done. *)
Lemma attach_loc : forall own i c E a, loc0 own i c E -> c_alive c = true -> c_enc c = Some a -> loc0 own i c (upd E a (with_for (E a) (Some i))).
Proof.
  intros own i c E a [Lr Le Lz Lt Lf Lj Ld] Al Ce. split; auto.
  - intros b O. at_a b a; [|auto]. apply (Lr a O).
  - intros b Q. at_a b a; [|auto]. apply (Le a Q).
  - intros b Q. at_a b a; [|auto]. apply (Lz a Q).
  - intros b Q. at_a b a; [|auto]. apply (Lt a Q).
  - intros b j O Q. at_a b a; [cbn in Q; injection Q as <-; auto|eauto].
  - intros b O Q. at_a b a; [apply (Lj a O Q)|auto].
Qed.

(** Starting a frame. *)
Lemma start_loc : forall own i c E a p, loc0 own i c E -> own a = i -> 0 < ptrs c a -> e_job (E a) = None ->
  loc0 own i c (upd E a (with_ref (E a) (e_ref (E a) + (if work_holds (e_kind (E a)) then 1 else 0)) (Some p))).
Proof.
  intros own i c E a p [Lr Le Lz Lt Lf Lj Ld] Oa Pa Ja. pose proof (Lr a Oa) as Ra. split; auto.
  - intros b O. at_a b a; [|auto]. unfold work, with_ref in *. cbn [Enc_Model.e_ref Enc_Model.e_job Enc_Model.e_kind]. rewrite Ja in Ra. lia.
  - intros b Q. at_a b a; [|auto]. apply (Le a Q).
  - intros b Q. at_a b a; [|auto]. apply (Lz a Q).
  - intros b Q. at_a b a; [|auto]. apply (Lt a Q).
  - intros b j O Q. at_a b a; [apply (Lf a j O Q)|eauto].
  - intros b O Q. at_a b a; [|auto]. cbn [with_ref Enc_Model.e_ref]. pose proof (work_cases (E a)). destruct (work_holds (e_kind (E a))); lia.
Qed.

(** A frame ends. *)
Lemma end_loc : forall own i c E a z, loc0 own i c E -> own a = i -> e_job (E a) <> None ->
  loc0 own i c (upd E a (mk (e_kind (E a)) (e_ref (E a) - (if work_holds (e_kind (E a)) then 1 else 0)) z None None)).
Proof.
  intros own i c E a z [Lr Le Lz Lt Lf Lj Ld] Oa Ja. pose proof (Lr a Oa) as Ra. split; auto.
  - intros b O. at_a b a; [|auto]. unfold work in *. cbn [Enc_Model.e_ref Enc_Model.e_job Enc_Model.e_kind]. destruct (e_job (E a)); [|congruence]. lia.
  - intros b Q. at_a b a; [|auto]. apply (Le a Q).
  - intros b Q. at_a b a; [|auto]. apply (Lz a Q).
  - intros b Q. at_a b a; [|auto]. apply (Lt a Q).
  - intros b j O Q. at_a b a; [discriminate|eauto].
  - intros b O Q. at_a b a; [cbn in Q; congruence|auto].
Qed.
Definition wants (c : cli) (E : nat -> enc) : bool :=
  match c_enc c with Some a => negb (ignores_damage (e_kind (E a))) | None => false end.
Lemma wants_is : forall s i, wants_damage s i = wants (s_cli s i) (s_enc s).
Proof. reflexivity. Qed.

Variable z_new : zst.
Variable deflate : zst -> list Z -> zst * list Z.

(** The taken frames, with a mark for those that were sent. *)
Definition kept (t : list (frame * bool)) : list frame := map fst (filter snd t).
Definition thrown (t : list (frame * bool)) : list frame := map fst (filter (fun x => negb (snd x)) t).
Definition feed (z : zst) (l : list frame) : zst := fold_left (fun z f => fst (deflate z (f_plain f))) l z.

Definition ptr (k : kind) (c : cli) : option nat := match k with KZrle => c_zrle c | KTight => c_tight c | _ => None end.

Definition hist (k : kind) (c : cli) (E : nat -> enc) : Prop :=
  exists t, in_stream deflate z_new (map fst t) /\ of_kind k (c_out c) = kept t /\ of_kind k (c_lost c) = thrown t /\
    (c_alive c = true -> c_shut c = false -> match ptr k c with None => t = [] | Some a => e_z (E a) = feed z_new (map fst t) end).

Definition busy_ok (i : nat) (c : cli) (E : nat -> enc) : Prop :=
  forall a, 0 < ptrs c a -> e_job (E a) <> None -> e_for (E a) = Some i /\ c_busy c = true /\ c_writing c = false.

Record loc (own : nat -> nat) (i : nat) (c : cli) (E : nat -> enc) : Prop := {
  l_0 : loc0 own i c E;
  l_busy : busy_ok i c E;
  l_wr : c_writing c = true -> c_busy c = true;
  l_hz : hist KZrle c E;
  l_ht : hist KTight c E;
}.

Record inv (own : nat -> nat) (s : srv) : Prop := {
  i_loc : forall i, loc own i (s_cli s i) (s_enc s);
  i_enc : forall a, (s_m s <= a)%nat -> e_ref (s_enc s a) = 0 /\ e_job (s_enc s a) = None /\ e_for (s_enc s a) = None;
  i_cli : forall i, (s_n s <= i)%nat -> c_alive (s_cli s i) = false;
  i_dam : s_damage s = damage_clients s mod 2 ^ 32;
}.

(** Only what the client owns matters. *)
Lemma loc_ext : forall own own' i c E E', loc own i c E -> (forall a, own' a = i -> own a = i) ->
  (forall a, 0 < ptrs c a -> own' a = i) -> (forall a, own' a = i -> E' a = E a) -> loc own' i c E'.
Proof.
  intros own own' i c E E' [[Lr Le Lz Lt Lf Lj Ld] B W Hz Ht] Sub P Ext.
  assert (PE : forall a, 0 < ptrs c a -> E' a = E a) by (intros a Q; apply Ext, P, Q).
  assert (Hk : forall k, hist k c E -> hist k c E').
  { intros k (t & A1 & A2 & A3 & A4). exists t. do 3 (split; [assumption|]). intros Q1 Q2. specialize (A4 Q1 Q2).
    destruct (ptr k c) as [a|] eqn:Q; [|exact A4]. rewrite PE; [exact A4|]. apply ptrs_pos. destruct k; cbn in Q; try discriminate; auto. }
  split; auto.
  - split; auto.
    + intros a O. rewrite (Ext a O). auto.
    + intros a Q. assert (Z : 0 < ptrs c a) by (apply ptrs_pos; auto). rewrite (PE a Z). split; [auto|]. apply Le, Q.
    + intros a Q. assert (Z : 0 < ptrs c a) by (apply ptrs_pos; auto). rewrite (PE a Z). split; [auto|]. apply Lz, Q.
    + intros a Q. assert (Z : 0 < ptrs c a) by (apply ptrs_pos; auto). rewrite (PE a Z). split; [auto|]. apply Lt, Q.
    + intros a j O. rewrite (Ext a O). auto.
    + intros a O. rewrite (Ext a O). auto.
  - intros a Q. rewrite (PE a Q). apply B, Q.
Qed.

(** A step that touches one client and what it owns. *)
Lemma one_client : forall own own' s s' i, inv own s ->
  (forall j, j <> i -> s_cli s' j = s_cli s j) ->
  (forall a, own' a = own a \/ ((s_m s <= a)%nat /\ own' a = i)) ->
  (forall a, own' a <> i -> s_enc s' a = s_enc s a) ->
  (s_m s <= s_m s')%nat -> (forall a, (s_m s' <= a)%nat -> e_ref (s_enc s' a) = 0 /\ e_job (s_enc s' a) = None /\ e_for (s_enc s' a) = None) ->
  s_n s' = s_n s -> ((i < s_n s)%nat \/ (c_alive (s_cli s' i) = false /\ c_enc (s_cli s' i) = None)) ->
  loc own' i (s_cli s' i) (s_enc s') ->
  s_damage s' = (s_damage s + (if wants (s_cli s' i) (s_enc s') then 1 else 0) - (if wants (s_cli s i) (s_enc s) then 1 else 0)) mod 2 ^ 32 ->
  inv own' s'.
Proof.
  intros own own' s s' i [IL IE IC ID] Cj Ow En Mm IE' Nn Li L Da.
  assert (Old : forall j a, 0 < ptrs (s_cli s j) a -> own a = j /\ own' a = own a).
  { intros j a P. pose proof (l_0 _ _ _ _ (IL j)) as L0. assert (O : own a = j).
    { apply ptrs_pos in P as [P|[P|P]]; [eapply l_enc in P|eapply l_zrle in P|eapply l_tight in P]; eauto; tauto. }
    split; [exact O|]. destruct (Ow a) as [Q|[Q _]]; [exact Q|]. exfalso. pose proof (l_ref _ _ _ _ L0 a O). destruct (IE a Q) as (R & _).
    pose proof (work_cases (s_enc s a)). lia. }
  split.
  - intros j. destruct (Nat.eq_dec j i) as [->|N]; [exact L|]. rewrite (Cj j N). apply (loc_ext own own' j _ (s_enc s) _ (IL j)).
    + intros a Q. destruct (Ow a) as [R|[_ R]]; congruence.
    + intros a P. destruct (Old j a P). congruence.
    + intros a Q. apply En. congruence.
  - exact IE'.
  - intros j Lj. destruct (Nat.eq_dec j i) as [->|N]; [destruct Li as [Li|[Li _]]; [lia|exact Li]|]. rewrite (Cj j N). apply IC. lia.
  - assert (Ext : forall j, j <> i -> wants_damage s j = wants_damage s' j).
    { intros j N. rewrite !wants_is. unfold wants. rewrite (Cj j N). destruct (c_enc (s_cli s j)) as [a|] eqn:Q; [|reflexivity].
      destruct (Old j a) as [O1 O2]; [apply ptrs_pos; auto|]. rewrite En; [reflexivity|congruence]. }
    unfold damage_clients. rewrite Nn. destruct (Nat.lt_ge_cases i (s_n s)) as [Lt|Ge].
    + rewrite (count_upd (wants_damage s) (wants_damage s') (s_n s) i Lt Ext).
      rewrite Da, ID. unfold damage_clients. change (wants_damage s' i) with (wants (s_cli s' i) (s_enc s')). change (wants_damage s i) with (wants (s_cli s i) (s_enc s)).
      rewrite Zminus_mod, Zplus_mod, Zmod_mod, <- Zplus_mod, <- Zminus_mod. reflexivity.
    + destruct Li as [Li|[_ Ce]]; [lia|]. assert (W1 : wants (s_cli s' i) (s_enc s') = false) by (unfold wants; rewrite Ce; reflexivity).
      assert (W2 : wants (s_cli s i) (s_enc s) = false).
      { unfold wants. destruct (l_dead _ _ _ _ (l_0 _ _ _ _ (IL i)) (IC i Ge)) as (Q & _). rewrite Q. reflexivity. }
      rewrite W1, W2 in Da. rewrite Da, ID. unfold damage_clients. rewrite <- (count_ext (wants_damage s) (wants_damage s')) by (intros j Lj; apply Ext; lia).
      rewrite Z.sub_0_r, Z.add_0_r, Zmod_mod. reflexivity.
Qed.


End Enc.
