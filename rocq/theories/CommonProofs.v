From Verif Require Import Common.

Lemma be_length : forall n v, length (be n v) = n.
Proof.
  induction n as [|n IH]; intros v; cbn [be]; [reflexivity|].
  rewrite app_length, IH; cbn; lia.
Qed.

Lemma be_bytes : forall n v, all_bytes (be n v).
Proof.
  induction n as [|n IH]; intros v; cbn [be]; [constructor|].
  apply Forall_app; split; [apply IH|].
  constructor; [|constructor]. unfold is_byte.
  apply Z.mod_pos_bound; lia.
Qed.

Lemma unbe_app1 : forall l b, unbe (l ++ [b]) = unbe l * 256 + b.
Proof. intros l b; unfold unbe; rewrite fold_left_app; reflexivity. Qed.

Lemma unbe_be : forall n v, 0 <= v < 256 ^ Z.of_nat n -> unbe (be n v) = v.
Proof.
  induction n as [|n IH]; intros v Hv; cbn [be].
  - cbn in Hv. unfold unbe; cbn. lia.
  - rewrite unbe_app1, IH.
    + pose proof (Z.div_mod v 256 ltac:(lia)). lia.
    + replace (Z.of_nat (S n)) with (Z.of_nat n + 1) in Hv by lia.
      rewrite Z.pow_add_r, Z.pow_1_r in Hv by lia.
      split; [apply Z.div_pos; lia|].
      apply Z.div_lt_upper_bound; lia.
Qed.

Lemma unbe_bound : forall l, all_bytes l -> 0 <= unbe l < 256 ^ Z.of_nat (length l).
Proof.
  intros l; induction l as [|b l IH] using rev_ind; intros H.
  - unfold unbe; cbn; lia.
  - apply Forall_app in H; destruct H as [Hl Hb].
    inversion Hb as [|? ? Hb' _]; subst. specialize (IH Hl).
    unfold is_byte in Hb'. rewrite unbe_app1, app_length. cbn [length].
    replace (Z.of_nat (length l + 1)) with (Z.of_nat (length l) + 1) by lia.
    rewrite Z.pow_add_r, Z.pow_1_r by lia. nia.
Qed.

Lemma be_unbe : forall l, all_bytes l -> be (length l) (unbe l) = l.
Proof.
  intros l; induction l as [|b l IH] using rev_ind; intros H; [reflexivity|].
  apply Forall_app in H; destruct H as [Hl Hb].
  inversion Hb as [|? ? Hb' _]; subst. unfold is_byte in Hb'.
  rewrite app_length. cbn [length]. rewrite Nat.add_1_r. cbn [be].
  rewrite unbe_app1.
  replace ((unbe l * 256 + b) / 256) with (unbe l).
  2:{ rewrite Z.div_add_l by lia. rewrite Z.div_small by lia. lia. }
  replace ((unbe l * 256 + b) mod 256) with b.
  2:{ rewrite Z.add_comm, Z.mod_add by lia. rewrite Z.mod_small; lia. }
  rewrite IH by assumption. reflexivity.
Qed.

Lemma be_inj : forall n v w,
  0 <= v < 256 ^ Z.of_nat n -> 0 <= w < 256 ^ Z.of_nat n ->
  be n v = be n w -> v = w.
Proof.
  intros n v w Hv Hw H.
  rewrite <- (unbe_be n v Hv), <- (unbe_be n w Hw), H. reflexivity.
Qed.

Lemma firstn_app_exact : forall A (l r : list A), firstn (length l) (l ++ r) = l.
Proof.
  intros A l r. rewrite firstn_app, Nat.sub_diag, firstn_all. cbn.
  apply app_nil_r.
Qed.

Lemma skipn_app_exact : forall A (l r : list A), skipn (length l) (l ++ r) = r.
Proof.
  intros A l r. rewrite skipn_app, Nat.sub_diag, skipn_all. reflexivity.
Qed.

Lemma Forall_firstn : forall A (P : A -> Prop) n l, Forall P l -> Forall P (firstn n l).
Proof.
  intros A P n; induction n as [|n IH]; intros l H; cbn; [constructor|].
  destruct l as [|x l]; [constructor|].
  inversion H; subst; constructor; auto.
Qed.

Lemma Forall_skipn : forall A (P : A -> Prop) n l, Forall P l -> Forall P (skipn n l).
Proof.
  intros A P n; induction n as [|n IH]; intros l H; cbn; [assumption|].
  destruct l as [|x l]; [constructor|].
  inversion H; subst; auto.
Qed.

Lemma testbit_small : forall b n k, 0 <= b < 2 ^ k -> 0 <= k <= n -> Z.testbit b n = false.
Proof.
  intros b n k Hb Hk. destruct (Z.eq_dec b 0) as [->|Hne]; [apply Z.testbit_0_l|].
  apply Z.bits_above_log2; [lia|].
  apply Z.log2_lt_pow2; [lia|].
  pose proof (Z.pow_le_mono_r 2 k n ltac:(lia) ltac:(lia)). lia.
Qed.

(** Finite sweep over [0, n). *)
Definition zrange (n : Z) : list Z := map Z.of_nat (seq 0 (Z.to_nat n)).

Lemma zrange_in : forall n x, In x (zrange n) <-> 0 <= x < n.
Proof.
  intros n x. unfold zrange. rewrite in_map_iff. split.
  - intros [k [Hk Hin]]. apply in_seq in Hin. lia.
  - intros Hx. exists (Z.to_nat x). split; [lia|]. apply in_seq. lia.
Qed.

Lemma sweep : forall (f : Z -> bool) n,
  forallb f (zrange n) = true -> forall x, 0 <= x < n -> f x = true.
Proof.
  intros f n H x Hx. rewrite forallb_forall in H. apply H, zrange_in, Hx.
Qed.

Lemma firstn_app_eq : forall A n (l r : list A), length l = n -> firstn n (l ++ r) = l.
Proof. intros A n l r <-. apply firstn_app_exact. Qed.

Lemma skipn_app_eq : forall A n (l r : list A), length l = n -> skipn n (l ++ r) = r.
Proof. intros A n l r <-. apply skipn_app_exact. Qed.

Lemma skipn_skipn : forall A a b (l : list A), skipn a (skipn b l) = skipn (a + b) l.
Proof.
  intros A a b. revert a. induction b; intros a l.
  - rewrite Nat.add_0_r. reflexivity.
  - rewrite Nat.add_succ_r. destruct l; cbn [skipn]; [apply skipn_nil|apply IHb].
Qed.
