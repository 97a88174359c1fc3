From Verif Require Import Common CommonProofs Vec_Model Vec_Spec.

Definition wf (v : vec) : Prop :=
  0 <= len v <= cap v /\ Z.of_nat (length (data v)) = cap v.

Definition holds (v : vec) (l : list Z) : Prop :=
  wf v /\ vec_contents v = map Some l.

Lemma realloc_length : forall b n, 0 <= n -> Z.of_nat (length (realloc b n)) = n.
Proof.
  intros b n Hn. unfold realloc. rewrite app_length, firstn_length, repeat_length. lia.
Qed.

Lemma realloc_firstn : forall b n k, (k <= length b)%nat -> Z.of_nat (length b) <= n ->
  firstn k (realloc b n) = firstn k b.
Proof.
  intros b n k Hk Hn. unfold realloc.
  rewrite (firstn_all2 (n := Z.to_nat n) b) by lia.
  rewrite firstn_app. replace (k - length b)%nat with 0%nat by lia.
  cbn [firstn]. apply app_nil_r.
Qed.

Lemma reserve_holds : forall a v n l v' rc,
  holds v l -> vec_reserve a v n = (v', rc) ->
  holds v' l /\ len v' = len v /\ cap v <= cap v' /\
  (rc = 0 \/ rc = -1) /\ (rc = 0 -> n <= cap v') /\ (a = true -> rc = 0) /\
  (rc = -1 -> v' = v) /\ cap v' <= Z.max (cap v) n.
Proof.
  intros a v n l v' rc [[Hlen Hcap] Hc] H. unfold vec_reserve in H.
  destruct (n <=? cap v) eqn:E.
  - inversion H; subst. repeat split; auto; lia.
  - destruct a; inversion H; subst; cbn [len cap data].
    + repeat split; cbn [len cap data]; try lia.
      * apply realloc_length; lia.
      * unfold vec_contents in *. cbn [len data].
        rewrite realloc_firstn by lia. exact Hc.
    + repeat split; auto; lia.
Qed.

Lemma store_ok : forall b off new,
  0 <= off -> off + Z.of_nat (length new) <= Z.of_nat (length b) ->
  exists d, store b off new = Ok d /\ length d = length b /\
    firstn (Z.to_nat off + length new) d = firstn (Z.to_nat off) b ++ map Some new.
Proof.
  intros b off new H0 H1. unfold store.
  replace ((0 <=? off) && (off + Z.of_nat (length new) <=? Z.of_nat (length b))) with true by lia.
  eexists. split; [reflexivity|]. split.
  - rewrite !app_length, firstn_length, map_length, skipn_length. lia.
  - rewrite app_assoc.
    assert (Hl : length (firstn (Z.to_nat off) b ++ map Some new) = (Z.to_nat off + length new)%nat).
    { rewrite app_length, firstn_length, map_length. lia. }
    rewrite <- Hl at 1. apply firstn_app_exact.
Qed.

Lemma grow_holds : forall a v n l v' rc,
  holds v l -> 0 <= n -> 2 * (len v + n) < SIZE_T ->
  vec_grow a v n = (v', rc) ->
  holds v' l /\ len v' = len v /\ (rc = 0 \/ rc = -1) /\
  (rc = 0 -> len v + n <= cap v') /\ (a = true -> rc = 0) /\ (rc = -1 -> v' = v).
Proof.
  intros a v n l v' rc Hh Hn Hb H. unfold vec_grow in H.
  pose proof Hh as [[Hlen Hcap] _].
  rewrite (Z.mod_small (len v + n)) in H by (unfold SIZE_T in *; lia).
  destruct (len v + n <? cap v) eqn:E.
  - inversion H; subst. repeat split; auto; try apply Hh; lia.
  - rewrite Z.mod_small in H by lia.
    destruct (reserve_holds _ _ _ _ _ _ Hh H) as (H1 & H2 & H3 & H4 & H5 & H6 & H7 & H8).
    repeat split; auto; try apply H1. intros Hrc. specialize (H5 Hrc). lia.
Qed.

Lemma holds_len : forall v l, holds v l -> len v = Z.of_nat (length l).
Proof.
  intros v l [[Hlen Hcap] Hc]. unfold vec_contents in Hc.
  assert (H : length (firstn (Z.to_nat (len v)) (data v)) = length (map Some l)) by (rewrite Hc; reflexivity).
  rewrite firstn_length, map_length in H. lia.
Qed.

Lemma append_core : forall v l src, holds v l ->
  len v + Z.of_nat (length src) <= cap v ->
  exists d, store (data v) (len v) src = Ok d /\
    holds (mk_vec d (len v + Z.of_nat (length src)) (cap v)) (l ++ src).
Proof.
  intros v l src [[Hlen Hcap] Hc] Hroom.
  destruct (store_ok (data v) (len v) src) as (d & Hd & Hl & Hf); [lia..|].
  exists d. split; [exact Hd|]. split; [split; cbn [len cap data]; [lia|rewrite Hl; exact Hcap]|].
  unfold vec_contents. cbn [len data].
  replace (Z.to_nat (len v + Z.of_nat (length src))) with (Z.to_nat (len v) + length src)%nat by lia.
  rewrite Hf. unfold vec_contents in Hc. rewrite Hc, map_app. reflexivity.
Qed.

Lemma step_refines : forall v l op, holds v l ->
  2 * (len v + op_size op) < SIZE_T ->
  exists v' rc, vec_step v op = Ok (v', rc) /\ holds v' (spec_step l op rc) /\
    (rc = 0 \/ rc = -1) /\ (alloc_ok op = true -> rc = 0) /\
    len v' <= len v + op_size op.
Proof.
  intros v l op Hh Hb. pose proof (holds_len _ _ Hh) as HL.
  destruct op as [a s|a n|a s|a n|]; cbn [vec_step spec_step alloc_ok op_size] in *.
  - unfold vec_append. destruct (vec_grow a v (Z.of_nat (length s))) as [v1 rc] eqn:Eg.
    destruct (grow_holds _ _ _ _ _ _ Hh (Nat2Z.is_nonneg _) Hb Eg) as (H1 & H2 & H3 & H4 & H5 & H6).
    destruct H3 as [->| ->].
    + change (0 <? 0) with false. cbn iota.
      destruct (append_core v1 l s H1) as (d & Hd & Hh'); [rewrite H2; auto|].
      rewrite Hd. cbn [bind]. eexists _, 0. split; [reflexivity|].
      rewrite Z.eqb_refl. split; [exact Hh'|].
      split; [auto|]. split; [auto|]. cbn [len]. lia.
    + change (-1 <? 0) with true. cbn iota. rewrite (H6 eq_refl).
      eexists _, (-1). split; [reflexivity|]. cbn [Z.eqb]. split; [exact Hh|].
      split; [auto|]. split; [intros Ha; specialize (H5 Ha); lia|]. lia.
  - unfold vec_append_zero. destruct (vec_grow a v (Z.of_nat n)) as [v1 rc] eqn:Eg.
    destruct (grow_holds _ _ _ _ _ _ Hh (Nat2Z.is_nonneg _) Hb Eg) as (H1 & H2 & H3 & H4 & H5 & H6).
    destruct H3 as [->| ->].
    + change (0 <? 0) with false. cbn iota.
      destruct (append_core v1 l (repeat 0 n) H1) as (d & Hd & Hh');
        [rewrite H2, repeat_length; auto|].
      rewrite repeat_length in Hh'.
      rewrite Hd. cbn [bind]. eexists _, 0. split; [reflexivity|].
      rewrite Z.eqb_refl. split; [exact Hh'|].
      split; [auto|]. split; [auto|]. cbn [len]. lia.
    + change (-1 <? 0) with true. cbn iota. rewrite (H6 eq_refl).
      eexists _, (-1). split; [reflexivity|]. cbn [Z.eqb]. split; [exact Hh|].
      split; [auto|]. split; [intros Ha; specialize (H5 Ha); lia|]. lia.
  - unfold vec_assign.
    assert (Hz : holds (mk_vec (data v) 0 (cap v)) []).
    { destruct Hh as [[Hlen Hcap] Hc]. split; [split; cbn [len cap data]; lia|reflexivity]. }
    destruct (vec_reserve a (mk_vec (data v) 0 (cap v)) (Z.of_nat (length s))) as [v1 rc] eqn:Er.
    destruct (reserve_holds _ _ _ _ _ _ Hz Er) as (H1 & H2 & H3 & H4 & H5 & H6 & H7 & H8).
    cbn [len cap] in *.
    destruct H4 as [->| ->].
    + change (0 <? 0) with false. cbn iota.
      destruct (append_core v1 [] s H1) as (d & Hd & Hh'); [rewrite H2; cbn; auto|].
      rewrite H2 in *. rewrite Hd. cbn [bind]. eexists _, 0. split; [reflexivity|].
      rewrite Z.eqb_refl. split; [exact Hh'|].
      split; [auto|]. split; [auto|]. cbn [len]. lia.
    + change (-1 <? 0) with true. cbn iota. rewrite (H7 eq_refl).
      eexists _, (-1). split; [reflexivity|]. cbn [Z.eqb]. split; [exact Hz|].
      split; [auto|]. split; [intros Ha; specialize (H6 Ha); lia|]. cbn [len]. lia.
  - destruct (vec_reserve a v n) as [v1 rc] eqn:Er.
    destruct (reserve_holds _ _ _ _ _ _ Hh Er) as (H1 & H2 & H3 & H4 & H5 & H6 & H7 & H8).
    exists v1, rc. repeat split; auto; try apply H1. lia.
  - exists (vec_clear v), 0. destruct Hh as [[Hlen Hcap] Hc].
    split; [reflexivity|]. split; [split; [split; cbn; lia|reflexivity]|].
    split; [auto|]. split; [auto|]. cbn. lia.
Qed.

Lemma op_size_nonneg : forall op, 0 <= op_size op.
Proof. intros [a s|a n|a s|a n|]; cbn [op_size]; lia. Qed.

Lemma total_nonneg : forall ops, 0 <= total_size ops.
Proof.
  induction ops as [|op ops IH]; cbn [total_size fold_right]; [lia|].
  pose proof (op_size_nonneg op). unfold total_size in IH. lia.
Qed.

Lemma run_refines : forall ops v l, holds v l ->
  2 * (len v + total_size ops) < SIZE_T ->
  exists v' rcs, vec_run v ops = Ok (v', rcs) /\ holds v' (spec_run l ops rcs) /\
    length rcs = length ops /\ Forall (fun rc => rc = 0 \/ rc = -1) rcs /\
    (forallb alloc_ok ops = true -> Forall (fun rc => rc = 0) rcs).
Proof.
  induction ops as [|op ops IH]; intros v l Hh Hb.
  - exists v, []. cbn. repeat split; auto; apply Hh.
  - cbn [total_size fold_right] in Hb. fold (total_size ops) in Hb.
    pose proof (total_nonneg ops) as Ht. pose proof (op_size_nonneg op) as Ho.
    destruct (step_refines v l op Hh) as (v1 & rc & Hs & Hh1 & Hrc & Hok & Hle); [lia|].
    destruct (IH v1 (spec_step l op rc) Hh1) as (v2 & rcs & Hr & Hh2 & Hlen & Hrcs & Hall); [lia|].
    exists v2, (rc :: rcs). cbn [vec_run]. rewrite Hs. cbn [bind]. rewrite Hr. cbn [bind].
    cbn [spec_run length forallb]. repeat split; auto; try apply Hh2.
    intros Ha. apply andb_true_iff in Ha. constructor; [apply Hok|apply Hall]; apply Ha.
Qed.

Lemma init_holds : forall a c v rc, 0 <= c -> vec_init a c = (v, rc) -> holds v [].
Proof.
  intros a c v rc Hc H. unfold vec_init in H.
  assert (H0 : holds (mk_vec [] 0 0) []) by (split; [split; cbn; lia|reflexivity]).
  apply (reserve_holds _ _ _ _ _ _ H0 H).
Qed.

Lemma fast_append_room : forall bs v l, holds v l ->
  len v + Z.of_nat (length bs) <= cap v ->
  exists v', fold_left (fun r b => let* w := r in vec_fast_append_8 w b) bs (Ok v) = Ok v' /\
    holds v' (l ++ bs) /\ cap v' = cap v.
Proof.
  induction bs as [|b bs IH]; intros v l Hh Hroom.
  - exists v. cbn. rewrite app_nil_r. auto.
  - cbn [fold_left bind]. unfold vec_fast_append_8 at 2. cbn [length] in Hroom.
    replace (len v <? cap v) with true by lia.
    destruct (append_core v l [b] Hh) as (d & Hd & Hh'); [cbn; lia|].
    rewrite Hd. cbn [bind].
    destruct (IH _ _ Hh') as (v' & Hr & Hv' & Hcv); [cbn [len cap length]; lia|].
    exists v'. split; [exact Hr|]. split; [|exact Hcv].
    rewrite <- app_assoc in Hv'. exact Hv'.
Qed.
