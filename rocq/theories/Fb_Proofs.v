(** Proofs about framebuffers and pools. *)
From Verif Require Import Common Fb_Model Fb_Spec.

(** ** Counts *)

Lemma refs_snoc ops o : refs (ops ++ [o]) = refs ops + match o with Ref => 1 | Unref => -1 | _ => 0 end.
Proof.
  unfold refs. rewrite fold_right_app. cbn [fold_right].
  assert (E : forall l a, fold_right (fun o n => (match o with Ref => 1 | Unref => -1 | _ => 0 end) + n) a l =
                   fold_right (fun o n => (match o with Ref => 1 | Unref => -1 | _ => 0 end) + n) 0 l + a)
    by (induction l as [|x l IH]; intros a; cbn [fold_right]; [lia|rewrite IH; lia]).
  rewrite E. lia.
Qed.

Lemma holds_snoc ops o : holds (ops ++ [o]) = holds ops + match o with Hold => 1 | Release => -1 | _ => 0 end.
Proof.
  unfold holds. rewrite fold_right_app. cbn [fold_right].
  assert (E : forall l a, fold_right (fun o n => (match o with Hold => 1 | Release => -1 | _ => 0 end) + n) a l =
                   fold_right (fun o n => (match o with Hold => 1 | Release => -1 | _ => 0 end) + n) 0 l + a)
    by (induction l as [|x l IH]; intros a; cbn [fold_right]; [lia|rewrite IH; lia]).
  rewrite E. lia.
Qed.

Lemma last_releases_snoc ops : forall h o,
  last_releases h (ops ++ [o]) =
  last_releases h ops + match o with Release => if h + holds ops =? 1 then 1 else 0 | _ => 0 end.
Proof.
  induction ops as [|x ops IH]; intros h o.
  - cbn [app last_releases]. change (holds []) with 0. replace (h + 0) with h by lia. destruct o; lia.
  - assert (E : holds (x :: ops) = match x with Hold => 1 | Release => -1 | _ => 0 end + holds ops) by reflexivity.
    rewrite E. cbn [app]. destruct x; cbn [last_releases]; rewrite IH; destruct o; try lia;
      rewrite ?Z.add_assoc, ?Z.add_0_r; change (h + -1) with (h - 1); lia.
Qed.

Lemma fb_run_app f a b : fb_run f (a ++ b) = let* f := fb_run f a in fb_run f b.
Proof.
  revert f. induction a as [|o a IH]; intros f; cbn [app fb_run bind]; [reflexivity|].
  destruct (fb_step f o); cbn [bind]; [apply IH|reflexivity].
Qed.

Lemma used_right_app a b : used_right (a ++ b) -> used_right a.
Proof. intros H pre o post ->. apply (H pre o (post ++ b)). rewrite <- app_assoc. reflexivity. Qed.

Lemma fb_run_ok g ops : used_right ops ->
  fb_run (fb_fresh g) ops = Ok (mk_fb (refs ops) (holds ops) (refs ops =? 0) (last_releases 0 ops) g).
Proof.
  induction ops as [|o ops IH] using rev_ind; intros U; [reflexivity|].
  destruct (U ops o [] eq_refl) as [R L]. rewrite fb_run_app, (IH (used_right_app _ _ U)).
  rewrite refs_snoc, holds_snoc, last_releases_snoc. cbn [bind fb_run].
  destruct (refs ops =? 0) eqn:E; [lia|].
  destruct o; cbn [fb_step]; unfold nvnc_fb_ref, nvnc_fb_unref, nvnc_fb_hold, nvnc_fb_release;
    cbn [fb_freed fb_ref fb_hold fb_released fb_geo bind fst].
  - f_equal. f_equal; lia.
  - f_equal. f_equal; lia.
  - f_equal. f_equal; lia.
  - specialize (L eq_refl). replace (0 + holds ops) with (holds ops) by lia.
    replace (holds ops - 1 =? 0) with (holds ops =? 1) by lia.
    destruct (holds ops =? 1) eqn:H; cbn [fst bind]; f_equal; f_equal; lia.
Qed.

(** ** Lists *)

Lemma set_fb_length l : forall n f, length (set_fb l n f) = length l.
Proof. induction l as [|x l IH]; intros [|n] f; cbn [set_fb length]; auto. Qed.

Lemma set_fb_nth l : forall n f i, nth_error (set_fb l n f) i =
  if Nat.eqb i n then match nth_error l i with Some _ => Some f | None => None end else nth_error l i.
Proof.
  induction l as [|x l IH]; intros [|n] f [|i]; cbn [set_fb nth_error Nat.eqb]; try reflexivity.
  - destruct (Nat.eqb i n); reflexivity.
  - apply IH.
Qed.

Lemma update_length {A} (l : list A) : forall n f, length (update l n f) = length l.
Proof. induction l as [|x l IH]; intros [|n] f; cbn [update length]; auto. Qed.

Lemma update_nth {A} (l : list A) : forall n f i, nth_error (update l n f) i =
  if Nat.eqb i n then option_map f (nth_error l i) else nth_error l i.
Proof.
  induction l as [|x l IH]; intros [|n] f [|i]; cbn [update nth_error Nat.eqb option_map]; try reflexivity.
  - destruct (Nat.eqb i n); reflexivity.
  - apply IH.
Qed.

Lemma geo_eqb_ok a b : geo_eqb a b = true <-> a = b.
Proof.
  destruct a as [[[a1 a2] a3] a4], b as [[[b1 b2] b3] b4]. cbn [geo_eqb].
  rewrite !andb_true_iff, !Z.eqb_eq. split; [intros [[[-> ->] ->] ->]; reflexivity|intros E; injection E; auto].
Qed.

(** ** The pool *)

(* framebuffers in their users' hands *)
Definition out1 (s : Z * phase) : Z := match snd s with Returned => 0 | _ => 1 end.
Definition out (l : list (Z * phase)) : Z := fold_right (fun s n => out1 s + n) 0 l.

Lemma out_nonneg l : 0 <= out l.
Proof. induction l as [|[r ph] l IH]; cbn [out fold_right]; [lia|]. fold (out l). unfold out1. destruct ph; cbn [snd]; lia. Qed.

Lemma out_app l s : out (l ++ [s]) = out l + out1 s.
Proof. induction l as [|x l IH]; cbn [out fold_right app]; [lia|]. fold (out (l ++ [s])) (out l). rewrite IH. lia. Qed.

Lemma out_update l : forall i s f, nth_error l i = Some s -> out (update l i f) = out l - out1 s + out1 (f s).
Proof.
  induction l as [|x l IH]; intros [|i] s f E; cbn [nth_error] in E; try discriminate.
  - injection E as ->. cbn [update out fold_right]. lia.
  - cbn [update out fold_right]. fold (out (update l i f)) (out l). rewrite (IH _ _ _ E). lia.
Qed.

Lemma out_in l i s : nth_error l i = Some s -> out1 s <= out l.
Proof.
  revert i. induction l as [|x l IH]; intros [|i] E; cbn [nth_error] in E; try discriminate; cbn [out fold_right]; fold (out l).
  - injection E as ->. pose proof (out_nonneg l). lia.
  - apply IH in E. destruct x as [r ph]. unfold out1 at 2. destruct ph; cbn [snd]; lia.
Qed.

Definition occ (i : nat) (q : list nat) : Z := if in_dec Nat.eq_dec i q then 1 else 0.

Lemma occ_in i q : In i q -> occ i q = 1.
Proof. intros H. unfold occ. destruct (in_dec _ i q); [reflexivity|contradiction]. Qed.
Lemma occ_out i q : ~ In i q -> occ i q = 0.
Proof. intros H. unfold occ. destruct (in_dec _ i q); [contradiction|reflexivity]. Qed.
Lemma occ_range i q : 0 <= occ i q <= 1.
Proof. unfold occ. destruct (in_dec _ i q); lia. Qed.
Lemma occ_snoc i q j : occ i (q ++ [j]) = if Nat.eqb i j then 1 else occ i q.
Proof.
  destruct (Nat.eqb_spec i j) as [->|N].
  - apply occ_in, in_or_app. right. left. reflexivity.
  - destruct (in_dec Nat.eq_dec i q) as [I|O].
    + rewrite !occ_in; [reflexivity|exact I|apply in_or_app; auto].
    + rewrite !occ_out; [reflexivity|exact O|]. intros H. apply in_app_or in H as [H|[H|[]]]; [auto|congruence].
Qed.
Lemma occ_cons i q j : ~ In j q -> occ i q = if Nat.eqb i j then 0 else occ i (j :: q).
Proof.
  intros N. destruct (Nat.eqb_spec i j) as [->|D]; [apply occ_out, N|].
  destruct (in_dec Nat.eq_dec i q) as [I|O]; [rewrite !occ_in; [reflexivity|right; exact I|exact I]|].
  rewrite !occ_out; [reflexivity| |exact O]. intros [H|H]; [congruence|auto].
Qed.

Definition hold_of (ph : phase) : Z := match ph with Held n => n | _ => 0 end.

Definition fb_ok (q : list nat) (g : geometry) (i : nat) (f : fb) (s : Z * phase) : Prop :=
  0 <= fst s /\ fb_ref f = fst s + occ i q /\ fb_freed f = (fb_ref f =? 0) /\ fb_hold f = hold_of (snd s) /\
  (forall n, snd s = Held n -> 0 < n) /\ (In i q -> snd s = Returned /\ fb_geo f = g).

Record inv (w : world) (u : users) : Prop := {
  i_len : length (w_heap w) = length (u_fbs u);
  i_fbs : forall i f s, nth_error (w_heap w) i = Some f -> nth_error (u_fbs u) i = Some s ->
            fb_ok (p_fbs (w_pool w)) (u_geo u) i f s;
  i_dup : NoDup (p_fbs (w_pool w));
  i_in : forall i, In i (p_fbs (w_pool w)) -> (i < length (w_heap w))%nat;
  i_geo : p_geo (w_pool w) = u_geo u;
  i_up : 0 <= u_pool u;
  i_ref : p_ref (w_pool w) = u_pool u + out (u_fbs u);
  i_freed : p_freed (w_pool w) = (p_ref (w_pool w) =? 0)
}.

Lemma both w u i : inv w u -> (i < length (w_heap w))%nat ->
  exists f s, nth_error (w_heap w) i = Some f /\ nth_error (u_fbs u) i = Some s /\ fb_ok (p_fbs (w_pool w)) (u_geo u) i f s.
Proof.
  intros I L. destruct (nth_error (w_heap w) i) as [f|] eqn:F; [|apply nth_error_None in F; lia].
  destruct (nth_error (u_fbs u) i) as [s|] eqn:S; [|apply nth_error_None in S; rewrite <- (i_len _ _ I) in S; lia].
  exists f, s. split; [reflexivity|]. split; [reflexivity|]. apply (i_fbs _ _ I _ _ _ F S).
Qed.

Lemma destroy_ok q : forall heap, NoDup q ->
  (forall i, In i q -> exists f, nth_error heap i = Some f /\ fb_freed f = false) ->
  exists heap', destroy_fbs heap q = Ok heap' /\ length heap' = length heap /\
  forall i f', nth_error heap' i = Some f' -> exists f, nth_error heap i = Some f /\
    if in_dec Nat.eq_dec i q then f' = mk_fb (fb_ref f - 1) (fb_hold f) (fb_ref f - 1 =? 0) (fb_released f) (fb_geo f)
    else f' = f.
Proof.
  induction q as [|j q IH]; intros heap N A; cbn [destroy_fbs].
  - exists heap. split; [reflexivity|]. split; [reflexivity|]. intros i f' H. exists f'. split; [exact H|reflexivity].
  - inversion N as [|? ? NJ NQ]; subst. destruct (A j (or_introl eq_refl)) as [f [F L]]. rewrite F.
    unfold nvnc_fb_unref at 1. rewrite L. cbn [bind].
    destruct (IH (set_fb heap j (mk_fb (fb_ref f - 1) (fb_hold f) (fb_ref f - 1 =? 0) (fb_released f) (fb_geo f))) NQ)
      as [heap' [D [LE P]]].
    { intros i Hi. rewrite set_fb_nth. destruct (Nat.eqb_spec i j) as [->|Nij]; [contradiction|]. apply A. right. exact Hi. }
    exists heap'. split; [exact D|]. split; [rewrite LE; apply set_fb_length|].
    intros i f' H. destruct (P i f' H) as [f0 [F0 C]]. rewrite set_fb_nth in F0.
    destruct (Nat.eqb_spec i j) as [->|Nij].
    + rewrite F in F0. injection F0 as <-. exists f. split; [exact F|].
      destruct (in_dec Nat.eq_dec j q) as [X|_]; [contradiction|].
      destruct (in_dec Nat.eq_dec j (j :: q)) as [_|X]; [exact C|exfalso; apply X; left; reflexivity].
    + exists f0. split; [exact F0|].
      destruct (in_dec Nat.eq_dec i q) as [X|X], (in_dec Nat.eq_dec i (j :: q)) as [Y|Y]; try exact C.
      * exfalso. apply Y. right. exact X.
      * exfalso. destruct Y as [Y|Y]; [congruence|contradiction].
Qed.

(* the heap after a change of one framebuffer *)
Lemma inv_fb w u i f s f' fs : inv w u -> nth_error (w_heap w) i = Some f -> nth_error (u_fbs u) i = Some s ->
  fb_ok (p_fbs (w_pool w)) (u_geo u) i f' (fs s) -> out1 (fs s) = out1 s ->
  inv (mk_w (set_fb (w_heap w) i f') (w_pool w)) (mk_u (u_pool u) (u_geo u) (update (u_fbs u) i fs)).
Proof.
  intros I F S K O. constructor; cbn [w_heap w_pool u_pool u_geo u_fbs].
  - rewrite set_fb_length, update_length. apply I.
  - intros j g t. rewrite set_fb_nth, update_nth. destruct (Nat.eqb_spec j i) as [->|N].
    + rewrite F, S. cbn [option_map]. intros Q R. injection Q as <-. injection R as <-. exact K.
    + apply (i_fbs _ _ I).
  - apply I.
  - intros j Hj. rewrite set_fb_length. apply (i_in _ _ I), Hj.
  - apply I.
  - apply I.
  - rewrite (out_update _ _ _ _ S), O, (i_ref _ _ I). lia.
  - apply I.
Qed.

Lemma pool_unref_ok w u : inv w u -> 0 < p_ref (w_pool w) ->
  exists w', pool_unref w = Ok w' /\ length (w_heap w') = length (w_heap w) /\
  p_geo (w_pool w') = p_geo (w_pool w) /\ p_ref (w_pool w') = p_ref (w_pool w) - 1 /\
  p_freed (w_pool w') = (p_ref (w_pool w) - 1 =? 0) /\ NoDup (p_fbs (w_pool w')) /\
  (forall i, In i (p_fbs (w_pool w')) -> In i (p_fbs (w_pool w))) /\
  forall i f s, nth_error (w_heap w') i = Some f -> nth_error (u_fbs u) i = Some s -> fb_ok (p_fbs (w_pool w')) (u_geo u) i f s.
Proof.
  intros I P. unfold pool_unref. rewrite (i_freed _ _ I). destruct (p_ref (w_pool w) =? 0) eqn:Z0; [lia|].
  destruct (p_ref (w_pool w) - 1 =? 0) eqn:Z1.
  - destruct (destroy_ok (p_fbs (w_pool w)) (w_heap w) (i_dup _ _ I)) as [heap' [D [L E]]].
    { intros i Hi. destruct (both w u i I (i_in _ _ I i Hi)) as [f [s [F [S K]]]]. exists f. split; [exact F|].
      destruct K as [K1 [K2 [K3 _]]]. rewrite K3, K2, (occ_in _ _ Hi). lia. }
    rewrite D. cbn [bind]. eexists. split; [reflexivity|]. cbn [w_heap w_pool p_geo p_ref p_freed p_fbs].
    split; [exact L|]. split; [reflexivity|]. split; [lia|]. split; [lia|]. split; [constructor|].
    split; [intros i []|]. intros i f s F S. destruct (E i f F) as [f0 [F0 C]].
    destruct (i_fbs _ _ I _ _ _ F0 S) as [K1 [K2 [K3 [K4 [K5 K6]]]]].
    destruct (in_dec Nat.eq_dec i (p_fbs (w_pool w))) as [X|X].
    + rewrite (occ_in _ _ X) in K2. subst f. unfold fb_ok. cbn [fb_ref fb_freed fb_hold fb_geo].
      rewrite (occ_out i []) by (intros []). split; [lia|]. split; [lia|]. split; [try exact K3; lia|]. split; [exact K4|]. split; [exact K5|]. intros [].
    + rewrite (occ_out _ _ X) in K2. subst f. unfold fb_ok. rewrite (occ_out i []) by (intros []).
      split; [lia|]. split; [lia|]. split; [try exact K3; lia|]. split; [exact K4|]. split; [exact K5|]. intros [].
  - eexists. split; [reflexivity|]. cbn [w_heap w_pool p_geo p_ref p_freed p_fbs].
    split; [reflexivity|]. split; [reflexivity|]. split; [lia|]. split; [lia|]. split; [apply I|].
    split; [auto|]. apply I.
Qed.

Lemma nodup_snoc (l : list nat) x : NoDup l -> ~ In x l -> NoDup (l ++ [x]).
Proof.
  induction l as [|y l IH]; intros N O; cbn [app]; [constructor; [intros []|constructor]|].
  inversion N; subst. constructor; [|apply IH; [assumption|intros X; apply O; right; exact X]].
  intros X. apply in_app_or in X as [X|[X|[]]]; [contradiction|]. apply O. left. congruence.
Qed.

(** ** One call *)

Lemma step_inv w u o : inv w u -> may u o ->
  exists w' got, pool_step w o = Ok (w', got) /\
  (o = Acquire -> exists i f, got = Some i /\ nth_error (w_heap w') i = Some f /\ fb_geo f = u_geo u /\
     fb_hold f = 0 /\ fb_freed f = false /\ (i = length (u_fbs u) \/ exists r, nth_error (u_fbs u) i = Some (r, Returned))) /\
  forall u', allowed u o got = Some u' -> inv w' u'.
Proof.
  intros I M.
  assert (Alive : 0 < u_pool u -> 0 < p_ref (w_pool w))
    by (intros H; rewrite (i_ref _ _ I); pose proof (out_nonneg (u_fbs u)); lia).
  destruct o as [| |g| |i|i|i|i].
  - (* PoolRef *)
    cbn [may allowed] in M. destruct (0 <? u_pool u) eqn:P; [|congruence]. specialize (Alive ltac:(lia)).
    cbn [pool_step]. unfold pool_ref. rewrite (i_freed _ _ I). destruct (p_ref (w_pool w) =? 0) eqn:Z0; [lia|]. cbn [bind].
    do 2 eexists. split; [reflexivity|]. split; [discriminate|]. intros u'. cbn [allowed]. rewrite P. intros Q. injection Q as <-.
    constructor; cbn [w_heap w_pool u_pool u_geo u_fbs p_ref p_freed p_fbs p_geo]; try apply I.
    + pose proof (i_up _ _ I). lia.
    + rewrite (i_ref _ _ I). lia.
    + lia.
  - (* PoolUnref *)
    cbn [may allowed] in M. destruct (0 <? u_pool u) eqn:P; [|congruence]. specialize (Alive ltac:(lia)).
    destruct (pool_unref_ok w u I Alive) as [w' [E [L [G [R [Fr [N [S K]]]]]]]].
    cbn [pool_step]. rewrite E. cbn [bind]. do 2 eexists. split; [reflexivity|]. split; [discriminate|].
    intros u'. cbn [allowed]. rewrite P. intros Q. injection Q as <-.
    constructor; cbn [u_pool u_geo u_fbs].
    + rewrite L. apply I.
    + exact K.
    + exact N.
    + intros i Hi. rewrite L. apply (i_in _ _ I), S, Hi.
    + rewrite G. apply I.
    + lia.
    + rewrite R, (i_ref _ _ I). lia.
    + rewrite Fr, R. reflexivity.
  - (* Resize *)
    cbn [may allowed] in M. destruct (0 <? u_pool u) eqn:P; [|congruence]. specialize (Alive ltac:(lia)).
    cbn [pool_step]. unfold pool_resize. rewrite (i_freed _ _ I). destruct (p_ref (w_pool w) =? 0) eqn:Z0; [lia|].
    destruct (geo_eqb g (p_geo (w_pool w))) eqn:GE.
    + apply geo_eqb_ok in GE. cbn [bind]. do 2 eexists. split; [reflexivity|]. split; [discriminate|].
      intros u'. cbn [allowed]. rewrite P. intros Q. injection Q as <-. rewrite GE, (i_geo _ _ I). destruct u; exact I.
    + destruct (destroy_ok (p_fbs (w_pool w)) (w_heap w) (i_dup _ _ I)) as [heap' [D [L E]]].
      { intros i Hi. destruct (both w u i I (i_in _ _ I i Hi)) as [f [s [F [S K]]]]. exists f. split; [exact F|].
        destruct K as [K1 [K2 [K3 _]]]. rewrite K3, K2, (occ_in _ _ Hi). lia. }
      rewrite D. cbn [bind]. do 2 eexists. split; [reflexivity|]. split; [discriminate|].
      intros u'. cbn [allowed]. rewrite P. intros Q. injection Q as <-.
      constructor; cbn [w_heap w_pool u_pool u_geo u_fbs p_ref p_freed p_fbs p_geo].
      * rewrite L. apply I.
      * intros i f s F S. destruct (E i f F) as [f0 [F0 C]].
        destruct (i_fbs _ _ I _ _ _ F0 S) as [K1 [K2 [K3 [K4 [K5 K6]]]]].
        destruct (in_dec Nat.eq_dec i (p_fbs (w_pool w))) as [X|X].
        -- rewrite (occ_in _ _ X) in K2. subst f. unfold fb_ok. cbn [fb_ref fb_freed fb_hold fb_geo].
           rewrite (occ_out i []) by (intros []). split; [lia|]. split; [lia|]. split; [try exact K3; lia|]. split; [exact K4|]. split; [exact K5|]. intros [].
        -- rewrite (occ_out _ _ X) in K2. subst f. unfold fb_ok. rewrite (occ_out i []) by (intros []).
           split; [lia|]. split; [lia|]. split; [try exact K3; lia|]. split; [exact K4|]. split; [exact K5|]. intros [].
      * constructor.
      * intros i [].
      * reflexivity.
      * apply I.
      * apply I.
      * lia.
  - (* Acquire *)
    cbn [may] in M. specialize (Alive M). cbn [pool_step]. unfold pool_acquire. rewrite (i_freed _ _ I).
    destruct (p_ref (w_pool w) =? 0) eqn:Z0; [lia|].
    destruct (p_fbs (w_pool w)) as [|i q] eqn:Q; unfold pool_ref; cbn [w_pool w_heap p_freed p_ref p_fbs p_geo].
    + rewrite (i_freed _ _ I), Z0. cbn [bind fst snd]. do 2 eexists. split; [reflexivity|]. split.
      * intros _. exists (length (w_heap w)), (fb_fresh (p_geo (w_pool w))). split; [reflexivity|].
        cbn [w_heap]. rewrite nth_error_app2, Nat.sub_diag by lia. split; [reflexivity|].
        split; [apply I|]. split; [reflexivity|]. split; [reflexivity|]. left. apply I.
      * intros u'. cbn [allowed]. destruct (0 <? u_pool u) eqn:P; [|lia]. rewrite (i_len _ _ I), Nat.eqb_refl.
        intros E. injection E as <-.
        constructor; cbn [w_heap w_pool u_pool u_geo u_fbs p_ref p_freed p_fbs p_geo].
        -- rewrite !app_length, (i_len _ _ I). reflexivity.
        -- intros j f s F S. rewrite Q in *. destruct (Nat.lt_ge_cases j (length (w_heap w))) as [J|J].
           ++ rewrite nth_error_app1 in F by exact J. rewrite nth_error_app1 in S by (rewrite <- (i_len _ _ I); exact J).
              pose proof (i_fbs _ _ I _ _ _ F S) as K. rewrite Q in K. exact K.
           ++ rewrite nth_error_app2 in F by exact J. rewrite nth_error_app2, <- (i_len _ _ I) in S by (rewrite <- (i_len _ _ I); exact J).
              destruct (j - length (w_heap w))%nat as [|k]; cbn [nth_error] in F, S; [|destruct k; discriminate].
              injection F as <-. injection S as <-. unfold fb_ok, fb_fresh. cbn [fst snd fb_ref fb_freed fb_hold fb_geo hold_of].
              rewrite (occ_out j []) by (intros []). split; [lia|]. split; [lia|]. split; [reflexivity|]. split; [reflexivity|]. split; [discriminate|]. intros [].
        -- rewrite Q. constructor.
        -- rewrite Q. intros j [].
        -- apply I.
        -- apply I.
        -- rewrite out_app. unfold out1 at 1. cbn [snd]. rewrite (i_ref _ _ I). lia.
        -- lia.
    + cbn [bind fst snd]. pose proof (i_in _ _ I i) as Hi. rewrite Q in Hi. specialize (Hi (or_introl eq_refl)).
      destruct (both w u i I Hi) as [f [s [F [S K]]]]. pose proof K as K0.
      destruct K as [K1 [K2 [K3 [K4 [K5 K6]]]]]. rewrite Q in K2, K6.
      destruct (K6 (or_introl eq_refl)) as [PH GE]. rewrite (occ_in i (i :: q) (or_introl eq_refl)) in K2.
      pose proof (i_dup _ _ I) as ND. rewrite Q in ND. inversion ND as [|? ? NI NQ]; subst.
      do 2 eexists. split; [reflexivity|]. split.
      * intros _. exists i, f. split; [reflexivity|]. cbn [w_heap]. split; [exact F|]. split; [exact GE|].
        split; [rewrite K4, PH; reflexivity|]. split; [rewrite K3; lia|]. right. exists (fst s). rewrite S, <- PH. destruct s; reflexivity.
      * intros u'. cbn [allowed]. destruct (0 <? u_pool u) eqn:P; [|lia].
        destruct (Nat.eqb_spec i (length (u_fbs u))) as [X|_]; [rewrite <- (i_len _ _ I) in X; lia|].
        intros E. injection E as <-.
        constructor; cbn [w_heap w_pool u_pool u_geo u_fbs p_ref p_freed p_fbs p_geo].
        -- rewrite update_length. apply I.
        -- intros j f' s'. rewrite update_nth. intros F' S'. destruct (Nat.eqb_spec j i) as [->|Nji].
           ++ rewrite S in S'. cbn [option_map] in S'. injection S' as <-. rewrite F in F'. injection F' as <-.
              unfold fb_ok. cbn [fst snd hold_of]. rewrite (occ_out i q NI).
              split; [lia|]. split; [lia|]. split; [exact K3|]. split; [rewrite K4, PH; reflexivity|].
              split; [discriminate|]. intros X; contradiction.
           ++ pose proof (i_fbs _ _ I _ _ _ F' S') as [J1 [J2 [J3 [J4 [J5 J6]]]]]. rewrite Q in J2, J6.
              pose proof (occ_cons j q i NI) as OC. destruct (Nat.eqb_spec j i) as [|_]; [contradiction|].
              unfold fb_ok. rewrite OC. split; [exact J1|]. split; [exact J2|]. split; [exact J3|]. split; [exact J4|].
              split; [exact J5|]. intros X. apply J6. right. exact X.
        -- exact NQ.
        -- intros j Hj. apply (i_in _ _ I). rewrite Q. right. exact Hj.
        -- apply I.
        -- apply I.
        -- rewrite (out_update _ _ _ _ S), (i_ref _ _ I). unfold out1. rewrite PH. cbn [snd]. lia.
        -- lia.
  - (* FbRef *)
    cbn [may allowed] in M. destruct (nth_error (u_fbs u) i) as [[r ph]|] eqn:S; [|congruence].
    destruct (0 <? r) eqn:R; [|cbn [andb] in M; congruence].
    assert (L : (i < length (w_heap w))%nat) by (rewrite (i_len _ _ I); apply nth_error_Some; congruence).
    destruct (both w u i I L) as [f [s [F [S' K]]]]. rewrite S in S'. injection S' as <-.
    destruct K as [K1 [K2 [K3 [K4 [K5 K6]]]]]. cbn [fst snd] in *. pose proof (occ_range i (p_fbs (w_pool w))) as OR.
    cbn [pool_step]. unfold on_fb, nvnc_fb_ref. rewrite F, K3. destruct (fb_ref f =? 0) eqn:Z0; [lia|]. cbn [bind].
    do 2 eexists. split; [reflexivity|]. split; [discriminate|]. intros u'. cbn [allowed]. rewrite S, R. cbn [andb].
    intros E. injection E as <-. eapply inv_fb; [exact I|exact F|exact S| |reflexivity].
    unfold fb_ok. cbn [fst snd fb_ref fb_freed fb_hold fb_geo]. split; [lia|]. split; [lia|]. split; [lia|]. split; [exact K4|]. split; [exact K5|]. exact K6.
  - (* FbUnref *)
    cbn [may allowed] in M. destruct (nth_error (u_fbs u) i) as [[r ph]|] eqn:S; [|congruence].
    destruct (0 <? r) eqn:R; [|cbn [andb] in M; congruence].
    assert (L : (i < length (w_heap w))%nat) by (rewrite (i_len _ _ I); apply nth_error_Some; congruence).
    destruct (both w u i I L) as [f [s [F [S' K]]]]. rewrite S in S'. injection S' as <-.
    destruct K as [K1 [K2 [K3 [K4 [K5 K6]]]]]. cbn [fst snd] in *. pose proof (occ_range i (p_fbs (w_pool w))) as OR.
    cbn [pool_step]. unfold on_fb, nvnc_fb_unref. rewrite F, K3. destruct (fb_ref f =? 0) eqn:Z0; [lia|]. cbn [bind].
    do 2 eexists. split; [reflexivity|]. split; [discriminate|]. intros u'. cbn [allowed]. rewrite S, R. cbn [andb].
    intros E. injection E as <-. eapply inv_fb; [exact I|exact F|exact S| |reflexivity].
    unfold fb_ok. cbn [fst snd fb_ref fb_freed fb_hold fb_geo]. split; [lia|]. split; [lia|]. split; [lia|]. split; [exact K4|]. split; [exact K5|]. exact K6.
  - (* FbHold *)
    cbn [may allowed] in M. destruct (nth_error (u_fbs u) i) as [[r ph]|] eqn:S; [|congruence].
    destruct (0 <? r) eqn:R; [|cbn [andb] in M; congruence]. cbn [andb] in M.
    assert (L : (i < length (w_heap w))%nat) by (rewrite (i_len _ _ I); apply nth_error_Some; congruence).
    destruct (both w u i I L) as [f [s [F [S' K]]]]. rewrite S in S'. injection S' as <-.
    destruct K as [K1 [K2 [K3 [K4 [K5 K6]]]]]. cbn [fst snd] in *. pose proof (occ_range i (p_fbs (w_pool w))) as OR.
    cbn [pool_step]. unfold on_fb, nvnc_fb_hold. rewrite F, K3. destruct (fb_ref f =? 0) eqn:Z0; [lia|]. cbn [bind].
    do 2 eexists. split; [reflexivity|]. split; [discriminate|]. intros u'. cbn [allowed]. rewrite S, R. cbn [andb].
    destruct ph as [|n|]; [| |congruence]; intros E; injection E as <-;
      (eapply inv_fb; [exact I|exact F|exact S| |reflexivity]);
      unfold fb_ok; cbn [fst snd fb_ref fb_freed fb_hold fb_geo hold_of] in *.
    + split; [lia|]. split; [exact K2|]. split; [lia|]. split; [lia|]. split; [intros m Q; injection Q as <-; lia|].
      intros X. destruct (K6 X). discriminate.
    + specialize (K5 n eq_refl). split; [lia|]. split; [exact K2|]. split; [lia|]. split; [lia|].
      split; [intros m Q; injection Q as <-; lia|]. intros X. destruct (K6 X). discriminate.
  - (* FbRelease *)
    cbn [may allowed] in M. destruct (nth_error (u_fbs u) i) as [[r ph]|] eqn:S; [|congruence].
    destruct (0 <? r) eqn:R; [|cbn [andb] in M; congruence]. cbn [andb] in M.
    assert (L : (i < length (w_heap w))%nat) by (rewrite (i_len _ _ I); apply nth_error_Some; congruence).
    destruct (both w u i I L) as [f [s [F [S' K]]]]. rewrite S in S'. injection S' as <-.
    destruct K as [K1 [K2 [K3 [K4 [K5 K6]]]]]. cbn [fst snd] in *. pose proof (occ_range i (p_fbs (w_pool w))) as OR.
    destruct ph as [|n|]; [congruence| |congruence]. specialize (K5 n eq_refl). cbn [hold_of] in K4.
    assert (NI : ~ In i (p_fbs (w_pool w))) by (intros X; destruct (K6 X); discriminate).
    rewrite (occ_out _ _ NI) in K2.
    cbn [pool_step]. unfold release_to_pool, nvnc_fb_release. rewrite F, K3, K4. destruct (fb_ref f =? 0) eqn:Z0; [lia|].
    destruct (n - 1 =? 0) eqn:N1; cbn [bind fst snd].
    + (* the last hold *)
      assert (N : 1 = n) by lia. destruct N.
      set (f1 := mk_fb (fb_ref f) (1 - 1) false (fb_released f + 1) (fb_geo f)).
      set (w1 := mk_w (set_fb (w_heap w) i f1) (w_pool w)).
      assert (A1 : 0 < p_ref (w_pool w)).
      { rewrite (i_ref _ _ I). pose proof (out_in _ _ _ S) as O. unfold out1 in O. cbn [snd] in O. pose proof (i_up _ _ I). lia. }
      (* the holdings after the call, but the pool still referenced *)
      set (u1 := mk_u (u_pool u + 1) (u_geo u) (update (u_fbs u) i (fun s => (fst s, Returned)))).
      assert (F1 : nth_error (w_heap w1) i = Some f1) by (cbn [w1 w_heap]; rewrite set_fb_nth, Nat.eqb_refl, F; reflexivity).
      assert (I1 : exists w2, pool_release w1 i = Ok w2 /\ inv w2 u1).
      { unfold pool_release. rewrite F1. change (w_pool w1) with (w_pool w). change (fb_freed f1) with false.
        rewrite (i_freed _ _ I). destruct (p_ref (w_pool w) =? 0) eqn:Zp; [lia|]. change (fb_geo f1) with (fb_geo f).
        destruct (geo_eqb (fb_geo f) (p_geo (w_pool w))) eqn:GE; cbn [negb].
        - apply geo_eqb_ok in GE. unfold on_fb. rewrite F1. unfold nvnc_fb_ref. change (fb_freed f1) with false. cbn [bind].
          eexists. split; [reflexivity|].
          constructor; cbn [w_heap w_pool u1 w1 f1 u_pool u_geo u_fbs p_ref p_freed p_fbs p_geo fb_ref fb_hold fb_released fb_geo].
          + rewrite !set_fb_length, update_length. apply I.
          + intros j g t. rewrite !set_fb_nth, update_nth. destruct (Nat.eqb_spec j i) as [->|N].
            * rewrite F, S. cbn [option_map fst]. intros Q T. injection Q as <-. injection T as <-.
              unfold fb_ok. cbn [fst snd fb_ref fb_freed fb_hold fb_geo hold_of]. rewrite occ_snoc, Nat.eqb_refl.
              split; [lia|]. split; [lia|]. split; [lia|]. split; [lia|]. split; [discriminate|].
              intros _. split; [reflexivity|]. rewrite GE. apply I.
            * intros Q T. destruct (i_fbs _ _ I _ _ _ Q T) as [J1 [J2 [J3 [J4 [J5 J6]]]]].
              unfold fb_ok. rewrite occ_snoc. destruct (Nat.eqb_spec j i) as [|_]; [contradiction|].
              split; [exact J1|]. split; [exact J2|]. split; [exact J3|]. split; [exact J4|]. split; [exact J5|].
              intros X. apply in_app_or in X as [X|[X|[]]]; [apply J6, X|congruence].
          + apply nodup_snoc.
            * apply I.
            * exact NI.
          + intros j Hj. rewrite !set_fb_length. apply in_app_or in Hj as [Hj|[<-|[]]]; [apply (i_in _ _ I), Hj|exact L].
          + apply I.
          + pose proof (i_up _ _ I). lia.
          + rewrite (out_update _ _ _ _ S), (i_ref _ _ I). unfold out1. cbn [snd]. lia.
          + lia.
        - eexists. split; [reflexivity|].
          constructor; cbn [w_heap w_pool u1 w1 u_pool u_geo u_fbs].
          + rewrite set_fb_length, update_length. apply I.
          + intros j g t. rewrite !set_fb_nth, update_nth. destruct (Nat.eqb_spec j i) as [->|N].
            * rewrite F, S. cbn [option_map fst]. intros Q T. injection Q as <-. injection T as <-.
              unfold fb_ok, f1. cbn [fst snd fb_ref fb_freed fb_hold fb_geo hold_of]. rewrite (occ_out _ _ NI).
              split; [lia|]. split; [lia|]. split; [lia|]. split; [lia|]. split; [discriminate|]. intros X; contradiction.
            * apply (i_fbs _ _ I).
          + apply I.
          + intros j Hj. rewrite set_fb_length. apply (i_in _ _ I), Hj.
          + apply I.
          + pose proof (i_up _ _ I). lia.
          + rewrite (out_update _ _ _ _ S), (i_ref _ _ I). unfold out1. cbn [snd]. lia.
          + apply I. }
      destruct I1 as [w2 [E2 I2]]. rewrite E2. cbn [bind].
      assert (A2 : 0 < p_ref (w_pool w2)).
      { rewrite (i_ref _ _ I2). cbn [u1 u_pool u_fbs]. pose proof (i_up _ _ I).
        pose proof (out_nonneg (update (u_fbs u) i (fun s => (fst s, Returned)))). lia. }
      destruct (pool_unref_ok w2 u1 I2 A2) as [w' [E [L' [G [R' [Fr [N [SB K']]]]]]]].
      rewrite E. cbn [bind]. do 2 eexists. split; [reflexivity|]. split; [discriminate|].
      intros u'. cbn [allowed]. rewrite S, R. cbn [andb]. intros Q. injection Q as <-.
      assert (UE : update (u_fbs u) i (fun s => (fst s, match snd s with Held n => if n =? 1 then Returned else Held (n - 1) | p => p end)) = u_fbs u1).
      { cbn [u1 u_fbs]. clear - S. revert i S. induction (u_fbs u) as [|x l IH]; intros [|i] S; cbn [nth_error update] in *; try discriminate.
        - injection S as ->. reflexivity.
        - f_equal. apply IH, S. }
      rewrite UE.
      constructor; cbn [u_pool u_geo u_fbs].
      * rewrite L'. apply I2.
      * exact K'.
      * exact N.
      * intros j Hj. rewrite L'. apply (i_in _ _ I2), SB, Hj.
      * rewrite G. apply I2.
      * apply I.
      * rewrite R', (i_ref _ _ I2). cbn [u1 u_pool u_fbs]. lia.
      * rewrite Fr, R'. reflexivity.
    + do 2 eexists. split; [reflexivity|]. split; [discriminate|]. intros u'. cbn [allowed]. rewrite S, R. cbn [andb].
      intros E. injection E as <-.
      eapply (inv_fb w u i f (r, Held n)); [exact I|exact F|exact S| |]; cbn [fst snd];
        (destruct (n =? 1) eqn:N2; [lia|]).
      * unfold fb_ok. cbn [fst snd fb_ref fb_freed fb_hold fb_geo hold_of]. rewrite (occ_out _ _ NI).
        split; [lia|]. split; [lia|]. split; [lia|]. split; [lia|]. split; [intros m Q; injection Q as <-; lia|].
        intros X; contradiction.
      * reflexivity.
Qed.

Lemma runs_inv g w u : runs g w u -> inv w u.
Proof.
  intros R. induction R as [|w u o w' got u' R IH S A].
  - constructor; cbn [pool_new w_heap w_pool u_pool u_geo u_fbs p_ref p_freed p_fbs p_geo out fold_right length]; try reflexivity; try lia.
    + intros [|i] f s H; discriminate H.
    + constructor.
    + intros i [].
  - assert (M : may u o).
    { destruct o; cbn [may allowed] in *; try congruence. destruct (0 <? u_pool u) eqn:P; [lia|discriminate]. }
    destruct (step_inv w u o IH M) as [w2 [got2 [E [_ K]]]]. rewrite S in E. injection E as <- <-. apply K, A.
Qed.
