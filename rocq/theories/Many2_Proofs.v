(** One client among many lives as it would alone. *)
From Verif Require Import Common CommonProofs Msg_Model Msg_Spec Msg2_Spec Upd_Proofs Msg_Proofs Safe_Spec Many_Model Many_Spec Many_Proofs.
From Verif Require Safe_Props.

Lemma live_app E fuel a : forall b c s, live E fuel c s (a ++ b) = let* (c, s) := live E fuel c s a in live E fuel c s b.
Proof.
  induction a as [|x a IH]; intros b c s; [reflexivity|]. destruct x as [k|i]; cbn [app live]; cbv zeta.
  - destruct (step _ _ _ _) as [c1|f]; [|reflexivity]. cbn [bind]. apply IH.
  - destruct (step _ _ _ _) as [c1|f]; [|reflexivity]. cbn [bind]. apply IH.
Qed.

Section M.
Variable E : nat -> env.
Variable fuel : nat.
Notation resume i := (fun c => receive (E i) fuel c (e_more (E i) (log c))).

Definition lookup (i : nat) (l : list guest) : option guest := find (fun q => Nat.eqb (g_id q) i) l.

Lemma resume_frame i : forall c c', resume i c = Ok c' -> leaves c' = leaves c.
Proof. intros c c'. apply receive_frame. Qed.

Lemma tend_live i x c s : live (E i) fuel c s [alone x] = tend E fuel i x c s.
Proof. destruct x; reflexivity. Qed.

Lemma tend_frame i x c s c' s' : tend E fuel i x c s = Ok (c', s') -> leaves c' = leaves c.
Proof.
  destruct x; cbn [tend]; cbv zeta; intros H; apply bind_ok in H as (c1 & H & H2);
    apply ok_inj, pair_equal_spec in H2 as [<- _]; cbn [step] in H.
  - destruct (closed c); [apply ok_inj in H; subst; reflexivity|]. apply receive_frame in H. exact H.
  - apply finish_frame in H; [exact H|apply resume_frame].
  - apply complete_frame in H; [exact H|apply resume_frame].
  - apply process_frame in H; [exact H|apply resume_frame].
  - apply ok_inj in H. subst. reflexivity.
Qed.

Lemma at_one_ok i x : forall l sh sh' l', at_one E fuel i x sh l = Ok (sh', l') ->
  sh' = sh /\ map g_id l' = map g_id l /\
  forall j q, lookup j l = Some q -> exists q', lookup j l' = Some q' /\
    if Nat.eqb i j then tend E fuel i x (see sh (g_client q)) (g_bytes q) = Ok (g_client q', g_bytes q') else q' = q.
Proof.
  induction l as [|a l IH]; intros sh sh' l' H; cbn [at_one] in H.
  - apply ok_inj, pair_equal_spec in H as [<- <-]. split; [reflexivity|]. split; [reflexivity|]. intros j q X. discriminate X.
  - destruct (Nat.eqb (g_id a) i) eqn:A.
    + apply bind_ok in H as ([c s] & H & H2). apply ok_inj, pair_equal_spec in H2 as [<- <-].
      apply Nat.eqb_eq in A. split; [rewrite (tend_frame _ _ _ _ _ _ H); apply leaves_see|].
      split; [cbn [map g_id]; congruence|].
      intros j q. cbn [lookup find g_id]. rewrite A. destruct (Nat.eqb i j) eqn:J.
      * intros [= <-]. eexists. split; [reflexivity|exact H].
      * intros X. exists q. split; [exact X|reflexivity].
    + apply bind_ok in H as ([sh1 l1] & H & H2). apply ok_inj, pair_equal_spec in H2 as [<- <-].
      destruct (IH _ _ _ H) as (S & M & L). split; [exact S|]. split; [cbn [map]; congruence|].
      intros j q. cbn [lookup find]. destruct (Nat.eqb (g_id a) j) eqn:J.
      * intros [= <-]. exists a. split; [reflexivity|]. apply Nat.eqb_eq in J. rewrite <- J, Nat.eqb_sym, A. reflexivity.
      * apply L.
Qed.

Lemma process_all_ok : forall l sh sh' l', process_all E fuel sh l = Ok (sh', l') ->
  sh' = sh /\ map g_id l' = map g_id l /\
  forall j q, lookup j l = Some q -> exists q', lookup j l' = Some q' /\
    process_requests (E j) (resume j) (see sh (g_client q)) = Ok (g_client q') /\ g_bytes q' = g_bytes q.
Proof.
  induction l as [|a l IH]; intros sh sh' l' H; cbn [process_all] in H.
  - apply ok_inj, pair_equal_spec in H as [<- <-]. split; [reflexivity|]. split; [reflexivity|]. intros j q X. discriminate X.
  - cbv zeta in H. apply bind_ok in H as (c & P & H). apply bind_ok in H as ([sh1 l1] & H & H2).
    apply ok_inj, pair_equal_spec in H2 as [<- <-].
    assert (X := process_frame _ _ (resume_frame _) _ _ P). rewrite leaves_see in X. rewrite X in H.
    destruct (IH _ _ _ H) as (S & M & L). split; [exact S|]. split; [cbn [map g_id]; congruence|].
    intros j q. cbn [lookup find g_id]. destruct (Nat.eqb (g_id a) j) eqn:J.
    + intros [= <-]. apply Nat.eqb_eq in J. subst j. eexists. split; [reflexivity|]. split; [exact P|reflexivity].
    + apply L.
Qed.

Lemma lookup_mark r i l : lookup i (map (mark r) l) = option_map (mark r) (lookup i l).
Proof.
  unfold lookup. induction l as [|a l IH]; [reflexivity|]. cbn [map find mark g_id]. destruct (Nat.eqb (g_id a) i); [reflexivity|exact IH].
Qed.

Lemma lookup_without i j l : i <> j -> lookup i (without j l) = lookup i l.
Proof.
  intros N. unfold lookup, without. induction l as [|a l IH]; [reflexivity|]. cbn [filter find].
  destruct (Nat.eqb (g_id a) j) eqn:J; cbn [negb].
  - rewrite IH. apply Nat.eqb_eq in J. destruct (Nat.eqb (g_id a) i) eqn:I; [apply Nat.eqb_eq in I; congruence|reflexivity].
  - cbn [find]. destruct (Nat.eqb (g_id a) i); [reflexivity|exact IH].
Qed.

(* all that is shown, for one client *)
Lemma shown_one i f r sh q : let c := g_client (mark r q) in
  live (E i) fuel (see sh (g_client q)) (g_bytes q) [Meanwhile (IDamage f r)] =
  let* c := process_requests (E i) (resume i) (see (mk_common (Some f) (sh_seq sh) (sh_provide sh)) c) in Ok (c, g_bytes q).
Proof.
  cbn [live step mark g_client]. set (c := g_client q). clearbody c.
  assert (X : (if closed (set_disp (Some f) (see sh c)) then set_disp (Some f) (see sh c)
               else set_damage (region_union (damage (set_disp (Some f) (see sh c))) r) (set_disp (Some f) (see sh c))) =
              see (mk_common (Some f) (sh_seq sh) (sh_provide sh)) (if closed c then c else set_damage (region_union (damage c) r) c)).
  { change (closed (set_disp (Some f) (see sh c))) with (closed c). destruct (closed c); reflexivity. }
  cbv zeta. rewrite X. reflexivity.
Qed.
Lemma pointed_one i sh q :
  live (E i) fuel (see sh (g_client q)) (g_bytes q) [Meanwhile ICursor] =
  let* c := process_requests (E i) (resume i) (see (mk_common (sh_disp sh) (sh_seq sh + 1) (sh_provide sh)) (g_client q)) in Ok (c, g_bytes q).
Proof.
  cbn [live step]. set (c := g_client q). clearbody c.
  assert (X : set_srv_seq (srv_seq (see sh c) + 1) (see sh c) = see (mk_common (sh_disp sh) (sh_seq sh + 1) (sh_provide sh)) c) by reflexivity.
  cbv zeta. rewrite X. reflexivity.
Qed.

Lemma turn_ok i e v v' q : turn E fuel v e = Ok v' -> spares i e -> lookup i (s_clients v) = Some q ->
  exists q', lookup i (s_clients v') = Some q' /\
    live (E i) fuel (see (s_common v) (g_client q)) (g_bytes q) (concerns i e) = Ok (see (s_common v') (g_client q'), g_bytes q').
Proof.
  intros H S L. destruct e as [j c s b|j|j x|f r|]; cbn [turn spares] in *; cbv zeta in H.
  - apply ok_inj in H. subst v'. destruct S as [S ->]. exists q. cbn [s_clients s_common lookup find g_id].
    replace (Nat.eqb j i) with false by (symmetry; apply Nat.eqb_neq; exact S).
    split; [fold (lookup i (without j (s_clients v))); rewrite lookup_without by congruence; exact L|reflexivity].
  - apply ok_inj in H. subst v'. exists q. split; [cbn [s_clients]; rewrite lookup_without by congruence; exact L|reflexivity].
  - apply bind_ok in H as ([sh l] & H & H2). apply ok_inj in H2. subst v'.
    destruct (at_one_ok _ _ _ _ _ _ H) as (-> & _ & X). destruct (X _ _ L) as (q' & L' & T). exists q'. split; [exact L'|].
    cbn [concerns s_common]. destruct (Nat.eqb j i) eqn:J.
    + apply Nat.eqb_eq in J. subst j. rewrite tend_live, T. f_equal. f_equal.
      apply tend_frame in T. rewrite leaves_see in T. rewrite <- T. symmetry. apply see_leaves.
    + subst q'. reflexivity.
  - apply bind_ok in H as ([sh l] & H & H2). apply ok_inj in H2. subst v'.
    destruct (process_all_ok _ _ _ _ H) as (-> & _ & X). destruct (X i (mark r q)) as (q' & L' & P & B).
    { rewrite lookup_mark, L. reflexivity. }
    exists q'. split; [exact L'|]. cbn [concerns s_common]. rewrite shown_one, P. cbn [bind]. f_equal. f_equal; [|rewrite B; reflexivity].
    assert (F := process_frame _ _ (resume_frame _) _ _ P). rewrite leaves_see in F. rewrite <- F. symmetry. apply see_leaves.
  - apply bind_ok in H as ([sh l] & H & H2). apply ok_inj in H2. subst v'.
    destruct (process_all_ok _ _ _ _ H) as (-> & _ & X). destruct (X i q L) as (q' & L' & P & B).
    exists q'. split; [exact L'|]. cbn [concerns s_common]. rewrite pointed_one, P. cbn [bind]. f_equal. f_equal; [|rewrite B; reflexivity].
    assert (F := process_frame _ _ (resume_frame _) _ _ P). rewrite leaves_see in F. rewrite <- F. symmetry. apply see_leaves.
Qed.

Lemma turns_ok i es : forall v v' q, turns E fuel v es = Ok v' -> Forall (spares i) es -> lookup i (s_clients v) = Some q ->
  exists q', lookup i (s_clients v') = Some q' /\
    live (E i) fuel (see (s_common v) (g_client q)) (g_bytes q) (flat_map (concerns i) es) = Ok (see (s_common v') (g_client q'), g_bytes q').
Proof.
  induction es as [|e es IH]; intros v v' q H S L.
  - apply ok_inj in H. subst v'. exists q. split; [exact L|reflexivity].
  - cbn [turns] in H. apply bind_ok in H as (v1 & H & H2). apply Forall_cons_iff in S as [S1 S].
    destruct (turn_ok _ _ _ _ _ H S1 L) as (q1 & L1 & R1). destruct (IH _ _ _ H2 S L1) as (q2 & L2 & R2).
    exists q2. split; [exact L2|]. cbn [flat_map]. rewrite live_app, R1. cbn [bind]. exact R2.
Qed.

Lemma joined v v' i c s b es : turns E fuel v (Joins i c s b :: es) = Ok v' -> Forall (spares i) es ->
  exists q, lookup i (s_clients v') = Some q /\
    live (E i) fuel (see (s_common v) c) s (flat_map (concerns i) es) = Ok (see (s_common v') (g_client q), g_bytes q).
Proof.
  intros H S. cbn [turns turn bind] in H.
  eapply (turns_ok i es _ _ (mk_guest i c s)) in H; [exact H|exact S|]. cbn [s_clients lookup find g_id]. rewrite Nat.eqb_refl. reflexivity.
Qed.

(* addresses differ *)
Definition apart (v : server) : Prop := NoDup (map g_id (s_clients v)).

Lemma without_in j x l : In x (map g_id (without j l)) <-> In x (map g_id l) /\ x <> j.
Proof.
  unfold without. rewrite !in_map_iff. split.
  - intros (q & <- & I). apply filter_In in I as [I N]. split; [exists q; auto|]. intros X. rewrite X, Nat.eqb_refl in N. discriminate N.
  - intros [(q & <- & I) N]. exists q. split; [reflexivity|]. apply filter_In. split; [exact I|]. apply Bool.negb_true_iff, Nat.eqb_neq. exact N.
Qed.
Lemma without_apart j l : NoDup (map g_id l) -> NoDup (map g_id (without j l)).
Proof.
  induction l as [|a l IH]; intros N; [exact N|]. cbn [map] in N. inversion_clear N as [|x y N1 N2]. unfold without. cbn [filter].
  destruct (negb _); [|apply IH; exact N2]. cbn [map]. constructor; [|apply IH; exact N2]. intros I. apply (without_in j) in I. apply N1, I.
Qed.

Lemma turn_apart v v' e : turn E fuel v e = Ok v' -> apart v -> apart v'.
Proof.
  unfold apart. intros H A. destruct e as [j c s b|j|j x|f r|]; cbn [turn] in H; cbv zeta in H.
  - apply ok_inj in H. subst v'. cbn [s_clients map g_id]. destruct b; [|repeat constructor; intros []].
    constructor; [rewrite without_in; intros [_ X]; congruence|apply without_apart; exact A].
  - apply ok_inj in H. subst v'. apply without_apart. exact A.
  - apply bind_ok in H as ([sh l] & H & H2). apply ok_inj in H2. subst v'. apply at_one_ok in H as (_ & M & _). cbn [s_clients]. rewrite M. exact A.
  - apply bind_ok in H as ([sh l] & H & H2). apply ok_inj in H2. subst v'. apply process_all_ok in H as (_ & M & _). cbn [s_clients]. rewrite M, map_map. exact A.
  - apply bind_ok in H as ([sh l] & H & H2). apply ok_inj in H2. subst v'. apply process_all_ok in H as (_ & M & _). cbn [s_clients]. rewrite M. exact A.
Qed.

Lemma turns_app es : forall v fs, turns E fuel v (es ++ fs) = let* v := turns E fuel v es in turns E fuel v fs.
Proof.
  induction es as [|e es IH]; intros v fs; [reflexivity|]. cbn [app turns]. destruct (turn E fuel v e); [|reflexivity]. apply IH.
Qed.

Lemma turns_apart es : forall v v', turns E fuel v es = Ok v' -> apart v -> apart v'.
Proof.
  induction es as [|e es IH]; intros v v' H A; [apply ok_inj in H; subst; exact A|]. cbn [turns] in H.
  apply bind_ok in H as (v1 & H & H2). eapply IH; [exact H2|]. exact (turn_apart _ _ _ H A).
Qed.

Lemma lookup_some i l : In i (map g_id l) -> exists q, lookup i l = Some q /\ g_id q = i.
Proof.
  unfold lookup. induction l as [|a l IH]; [intros []|]. cbn [map find]. destruct (Nat.eqb (g_id a) i) eqn:A.
  - intros _. exists a. split; [reflexivity|apply Nat.eqb_eq; exact A].
  - intros [X|X]; [apply Nat.eqb_neq in A; congruence|apply IH; exact X].
Qed.
Lemma lookup_in l : forall q, NoDup (map g_id l) -> In q l -> lookup (g_id q) l = Some q.
Proof.
  unfold lookup. induction l as [|a l IH]; intros q N [].
  - subst a. cbn [find]. rewrite Nat.eqb_refl. reflexivity.
  - cbn [map] in N. inversion_clear N as [|x y N1 N2]. cbn [find]. destruct (Nat.eqb (g_id a) (g_id q)) eqn:A; [|apply IH; assumption].
    exfalso. apply N1. apply Nat.eqb_eq in A. rewrite A. apply in_map. assumption.
Qed.

(* where a client comes from *)
Lemma origin v0 : s_clients v0 = [] -> forall es v i, turns E fuel v0 es = Ok v -> In i (map g_id (s_clients v)) ->
  exists pre c s b mid, es = pre ++ Joins i c s b :: mid /\ Forall (spares i) mid.
Proof.
  intros Z. induction es as [|e es IH] using rev_ind; intros v i H I.
  - apply ok_inj in H. subst v. rewrite Z in I. destruct I.
  - rewrite turns_app in H. apply bind_ok in H as (v1 & H & H2). cbn [turns] in H2. apply bind_ok in H2 as (v2 & T & X). apply ok_inj in X. subst v2.
    assert (OLD : In i (map g_id (s_clients v1)) -> spares i e -> exists pre c s b mid, es ++ [e] = pre ++ Joins i c s b :: mid /\ Forall (spares i) mid).
    { intros I1 S. destruct (IH _ _ H I1) as (pre & c & s & b & mid & -> & F). exists pre, c, s, b, (mid ++ [e]).
      split; [rewrite <- app_assoc; reflexivity|]. apply Forall_app. split; [exact F|constructor; [exact S|constructor]]. }
    destruct e as [j c s b|j|j x|f r|]; cbn [turn] in T; cbv zeta in T.
    + apply ok_inj in T. subst v. cbn [s_clients map g_id] in I. destruct (Nat.eq_dec j i) as [->|N].
      * exists es, c, s, b, []. split; [reflexivity|constructor].
      * destruct I as [I|I]; [congruence|]. destruct b; [|destruct I]. apply without_in in I as [I _]. apply OLD; [exact I|split; [exact N|reflexivity]].
    + apply ok_inj in T. subst v. apply without_in in I as [I N]. apply OLD; [exact I|]. cbn [spares]. congruence.
    + apply bind_ok in T as ([sh l] & T & X). apply ok_inj in X. subst v. apply at_one_ok in T as (_ & M & _). cbn [s_clients] in I. rewrite M in I. apply OLD; [exact I|exact Logic.I].
    + apply bind_ok in T as ([sh l] & T & X). apply ok_inj in X. subst v. apply process_all_ok in T as (_ & M & _). cbn [s_clients] in I. rewrite M, map_map in I. apply OLD; [exact I|exact Logic.I].
    + apply bind_ok in T as ([sh l] & T & X). apply ok_inj in X. subst v. apply process_all_ok in T as (_ & M & _). cbn [s_clients] in I. rewrite M in I. apply OLD; [exact I|exact Logic.I].
Qed.

Lemma bind_fault {A B} (e : res A) (k : A -> res B) f : bind e k = Fault f -> e = Fault f \/ exists a, e = Ok a /\ k a = Fault f.
Proof. destruct e as [a|g]; cbn [bind]; intros H; [right; exists a; auto|left; congruence]. Qed.

Lemma tend_fault i x sh l f : at_one E fuel i x sh l = Fault f ->
  exists q, In q l /\ g_id q = i /\ tend E fuel i x (see sh (g_client q)) (g_bytes q) = Fault f.
Proof.
  induction l as [|a l IH]; intros H; [discriminate H|]. cbn [at_one] in H. destruct (Nat.eqb (g_id a) i) eqn:A.
  - apply bind_fault in H as [H|([c s] & _ & X)]; [|discriminate X]. exists a. split; [left; reflexivity|]. split; [apply Nat.eqb_eq; exact A|exact H].
  - apply bind_fault in H as [H|([sh1 l1] & _ & X)]; [|discriminate X]. destruct (IH H) as (q & I & X). exists q. split; [right; exact I|exact X].
Qed.

Lemma process_all_fault sh l f : process_all E fuel sh l = Fault f ->
  exists q, In q l /\ process_requests (E (g_id q)) (resume (g_id q)) (see sh (g_client q)) = Fault f.
Proof.
  induction l as [|a l IH]; intros H; [discriminate H|]. cbn [process_all] in H. cbv zeta in H.
  apply bind_fault in H as [H|(c & P & H)]; [exists a; split; [left; reflexivity|exact H]|].
  apply bind_fault in H as [H|([sh1 l1] & _ & X)]; [|discriminate X].
  assert (F := process_frame _ _ (resume_frame _) _ _ P). rewrite leaves_see in F. rewrite F in H.
  destruct (IH H) as (q & I & X). exists q. split; [right; exact I|exact X].
Qed.

Lemma turn_fault v e f : turn E fuel v e = Fault f ->
  exists q, In q (s_clients v) /\ spares (g_id q) e /\
    live (E (g_id q)) fuel (see (s_common v) (g_client q)) (g_bytes q) (concerns (g_id q) e) = Fault f.
Proof.
  intros H. destruct e as [j c s b|j|j x|fr r|]; cbn [turn] in H; cbv zeta in H; try discriminate H.
  - apply bind_fault in H as [H|([sh l] & _ & X)]; [|discriminate X]. apply tend_fault in H as (q & I & Q & T).
    exists q. split; [exact I|]. split; [exact Logic.I|]. cbn [concerns]. rewrite Q, Nat.eqb_refl, tend_live. exact T.
  - apply bind_fault in H as [H|([sh l] & _ & X)]; [|discriminate X]. apply process_all_fault in H as (q & I & P).
    apply in_map_iff in I as (q0 & <- & I). exists q0. split; [exact I|]. split; [exact Logic.I|]. cbn [concerns]. rewrite shown_one.
    change (g_id (mark r q0)) with (g_id q0) in P. rewrite P. reflexivity.
  - apply bind_fault in H as [H|([sh l] & _ & X)]; [|discriminate X]. apply process_all_fault in H as (q & I & P).
    exists q. split; [exact I|]. split; [exact Logic.I|]. cbn [concerns]. rewrite pointed_one, P. reflexivity.
Qed.

Lemma first_fault es : forall v f, turns E fuel v es = Fault f ->
  exists before e after v1, es = before ++ e :: after /\ turns E fuel v before = Ok v1 /\ turn E fuel v1 e = Fault f.
Proof.
  induction es as [|e es IH]; intros v f H; [discriminate H|]. cbn [turns] in H.
  apply bind_fault in H as [H|(v1 & T & H)]; [exists [], e, es, v; auto|].
  destruct (IH _ _ H) as (b & e1 & a & v2 & -> & T2 & F). exists (e :: b), e1, a, v2. split; [reflexivity|].
  split; [cbn [turns]; rewrite T; exact T2|exact F].
Qed.

Lemma blame v es f : s_clients v = [] -> turns E fuel v es = Fault f ->
  exists pre i c s b mid rest v1, es = pre ++ Joins i c s b :: mid ++ rest /\ turns E fuel v pre = Ok v1 /\ Forall (spares i) mid /\
    live (E i) fuel (see (s_common v1) c) s (flat_map (concerns i) mid) = Fault f.
Proof.
  intros Z H. destruct (first_fault _ _ _ H) as (bef & e & aft & v1 & -> & T & F).
  destruct (turn_fault _ _ _ F) as (q & I & S & L).
  assert (A : apart v1) by (eapply turns_apart; [exact T|]; unfold apart; rewrite Z; constructor).
  destruct (origin v Z _ _ (g_id q) T (in_map g_id _ _ I)) as (pre & c & s & b & mid & -> & M).
  rewrite turns_app in T. apply bind_ok in T as (v0 & T0 & T).
  destruct (joined _ _ _ _ _ _ _ T M) as (q' & L' & R). rewrite (lookup_in _ _ A I) in L'. injection L' as <-.
  exists pre, (g_id q), c, s, b, (mid ++ [e]), aft, v0. split; [rewrite <- !app_assoc; reflexivity|].
  split; [exact T0|]. split; [apply Forall_app; split; [exact M|constructor; [exact S|constructor]]|].
  rewrite flat_map_app, live_app, R. cbn [bind flat_map]. rewrite app_nil_r. exact L.
Qed.

Lemma many_fine g v es : s_clients v = [] -> Forall (ordinary_event E g) es -> exists v', turns E fuel v es = Ok v'.
Proof.
  intros Z O. destruct (turns E fuel v es) as [v'|f] eqn:T; [exists v'; reflexivity|]. exfalso.
  destruct (blame _ _ _ Z T) as (pre & i & c & s & b & mid & rest & v1 & -> & _ & _ & L).
  apply Forall_app in O as [_ O]. apply Forall_cons_iff in O as [(S & ms & -> & MS) O]. apply Forall_app in O as [O _].
  destruct (Safe_Props.C164_ordinary_clients_do_no_harm_partial (E i) fuel (g i) (see (s_common v1) c) ms (flat_map (concerns i) mid)) as (c' & s' & R).
  - exact S.
  - exact MS.
  - apply Forall_forall. intros x I. apply in_flat_map in I as (e & I & X). rewrite Forall_forall in O. specialize (O _ I).
    destruct e as [j d t b'|j|j y|f' r|]; cbn [concerns] in X; try (destruct X; fail).
    + destruct (Nat.eqb j i) eqn:J; [|destruct X]. destruct X as [<-|[]]. apply Nat.eqb_eq in J. subst j. destruct y; try exact Logic.I. exact O.
    + destruct X as [<-|[]]. exact Logic.I.
    + destruct X as [<-|[]]. exact Logic.I.
  - rewrite R in L. discriminate L.
Qed.
End M.
