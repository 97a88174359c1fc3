From Verif Require Import Common CommonProofs Pixels_Model Msg_Model Msg_Proofs
  Upd_Spec Upd_Proofs Upd2_Proofs Upd3_Proofs Mirror_Spec Mirror_Proofs Due_Spec.

Definition all (b : bool) : picture bool := fun _ _ => b.
Definition plainly (b : bool) (l : list input) : scene bool := map (fun i => (i, all b)) l.

Lemma covers_app r s x y : covers r x y \/ covers s x y -> covers (r ++ s) x y.
Proof. unfold covers. rewrite Exists_app. auto. Qed.

(* a frame begun since is on its way or has been sent *)
Definition like x y (v : sight bool) (s : option region * region) : Prop :=
  (forall r P, coming bool v = Some (r, P) -> P x y = true -> fst s = Some r) /\
  (screen bool v x y = Some true -> covers (snd s) x y).

Lemma see_like x y l : forall v s, like x y v s -> like x y (fold_left (see bool no_more (all true)) l v) (fold_left fly l s).
Proof.
  induction l as [|o l IH]; intros v s L; [exact L|]. cbn [fold_left]. apply IH. destruct L as [C S1].
  destruct o; try (split; assumption); cbn [see fly].
  - destruct k; try (split; assumption). split; cbn [coming screen fst snd]; [discriminate|].
    destruct (coming bool v) as [[r P]|].
    + unfold paint. cbn [fst snd no_more]. rewrite orb_false_r. destruct (in_region r x y) eqn:R.
      * intros X. injection X as X. rewrite (C r P eq_refl X). apply covers_app. left. apply in_region_covers, R.
      * intros X. specialize (S1 X). destruct (fst s); [apply covers_app; right|]; exact S1.
    + intros X. specialize (S1 X). destruct (fst s); [apply covers_app; right|]; exact S1.
  - destruct ok; (split; cbn [coming screen fst snd]; [|exact S1]); [|exact C]. intros ? ? X _. injection X as <- _. reflexivity.
  - split; cbn [coming screen fst snd]; [discriminate|exact S1].
Qed.

Lemma see_way b l : forall v w q, (coming bool v = None <-> w = None) ->
  (coming bool (fold_left (see bool no_more (all b)) l v) = None <-> fst (fold_left fly l (w, q)) = None).
Proof.
  induction l as [|o l IH]; intros v w q L; [exact L|]. cbn [fold_left].
  destruct o; try (apply IH; exact L); cbn [see fly fst snd].
  - destruct k; apply IH; try exact L. cbn. tauto.
  - destruct ok; apply IH; [|exact L]. cbn. split; discriminate.
  - apply IH. cbn. tauto.
Qed.

Lemma way_only new : forall w q q', fst (fold_left fly new (w, q)) = fst (fold_left fly new (w, q')).
Proof.
  induction new as [|o new IH]; intros w q q'; [reflexivity|]. cbn [fold_left].
  destruct o; try apply IH; cbn [fly fst snd]; match goal with |- context [match ?b with _ => _ end] => destruct b end; apply IH.
Qed.

Lemma on_way_app l new : on_its_way (l ++ new) = fst (fold_left fly new (on_its_way l, [])).
Proof.
  unfold on_its_way. rewrite fold_left_app. generalize (fold_left fly l (None, [])) as s. intros [w q]. apply way_only.
Qed.

Lemma watch_run E fuel b : forall l c v c', run E fuel c l = Ok c' -> attended E fuel l c ->
  (coming bool v = None <-> on_its_way (log c) = None) ->
  exists v' new, watch bool no_more E fuel (plainly b l) c v = Ok (c', v') /\ orderly bool no_more E fuel (plainly b l) c v = true /\
    log c' = log c ++ new /\ v' = fold_left (see bool no_more (all b)) new v /\ (coming bool v' = None <-> on_its_way (log c') = None).
Proof.
  induction l as [|i l IH]; intros c v c' R A L; cbn [run attended plainly map watch orderly] in *.
  - injection R as <-. exists v, []. rewrite app_nil_r. auto.
  - apply bind_ok in R as (c1 & R & R2). rewrite R in *. destruct A as (O & W & A). cbn [bind].
    destruct (watch_log bool no_more E fuel [(i, all b)] c v c1 (fold_left (see bool no_more (all b)) (since c c1) v)) as [n1 L1].
    { cbn [watch]. rewrite R. reflexivity. }
    assert (SN : since c c1 = n1) by (apply since_new; exact L1). rewrite SN.
    destruct (IH c1 (fold_left (see bool no_more (all b)) n1 v) c' R2 A) as (v' & n2 & W2 & O2 & L2 & V2 & K2).
    { rewrite L1, on_way_app. apply see_way. exact L. }
    exists v', (n1 ++ n2). split; [exact W2|]. split.
    { rewrite O. cbn [negb andb]. unfold plainly in O2. rewrite O2, andb_true_r.
      destruct i; try reflexivity; destruct (coming bool v) eqn:CV; try reflexivity; exfalso.
      - apply W, L. reflexivity.
      - apply L in W. discriminate W. }
    split; [rewrite L2, L1, app_assoc; reflexivity|]. rewrite fold_left_app. auto.
Qed.

Lemma steady_all b l : steady bool (plainly b l) (all b).
Proof. induction l as [|i l IH]; cbn; auto. Qed.

Lemma last_all b l x y : last_picture bool (all b) (plainly b l) x y = b.
Proof.
  unfold last_picture, plainly. rewrite map_map. cbn [snd].
  replace (last (map (fun _ : input => all b) l) (all b)) with (all b); [reflexivity|].
  induction l as [|i [|j l] IH]; [reflexivity|reflexivity|exact IH].
Qed.
