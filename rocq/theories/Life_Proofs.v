(** Proofs about the life of clients. *)
From Verif Require Import Common CommonProofs Life_Model Life_Spec.

Fixpoint ncl (q : list callback) : nat :=
  match q with [] => 0 | CloseAfter :: q => S (ncl q) | Plain :: q => ncl q end.

Lemma ncl_app a b : ncl (a ++ b) = (ncl a + ncl b)%nat.
Proof. induction a as [|[|] a IH]; cbn; lia. Qed.

Lemma ncl_in q : In CloseAfter q <-> (0 < ncl q)%nat.
Proof.
  induction q as [|[|] q IH]; cbn; [split; [tauto|lia]| |split; [lia|auto]].
  rewrite <- IH. split; [intros [H|H]; [discriminate|exact H]|auto].
Qed.

Lemma fail_all_eq i q : forall w, fail_all i q w = mk_world (live w) (idles w ++ repeat i (ncl q)) (up w) (next w) (cleaned w).
Proof.
  induction q as [|[|] q IH]; intros w; cbn.
  - rewrite app_nil_r. destruct w; reflexivity.
  - apply IH.
  - rewrite IH. cbn. rewrite <- app_assoc. reflexivity.
Qed.

Definition shut (c : client) : client := mk_client (cid c) false [].

Lemma stream_close_eq c w : stream_close c w =
  if sopen c then mk_world (map (fun d => if Nat.eqb (cid d) (cid c) then shut c else d) (live w))
                    (idles w ++ repeat (cid c) (ncl (outq c))) (up w) (next w) (cleaned w)
  else w.
Proof. unfold stream_close. destruct (sopen c); [|reflexivity]. rewrite fail_all_eq. reflexivity. Qed.

Lemma map_cid_put (f : client -> client) l : (forall d, cid (f d) = cid d) -> map cid (map f l) = map cid l.
Proof. intros H. rewrite map_map. apply map_ext. exact H. Qed.

Lemma put_cid c d : cid (if Nat.eqb (cid d) (cid c) then shut c else d) = cid d.
Proof. destruct (Nat.eqb_spec (cid d) (cid c)); [symmetry; assumption|reflexivity]. Qed.

Lemma stream_close_cids c w : map cid (live (stream_close c w)) = map cid (live w).
Proof. rewrite stream_close_eq. destruct (sopen c); [|reflexivity]. cbn. apply map_cid_put, put_cid. Qed.

Lemma find_in i w c : find_client i w = Some c -> In c (live w) /\ cid c = i.
Proof.
  intros H. apply find_some in H. destruct H as [A B]. split; [exact A|]. apply Nat.eqb_eq. exact B.
Qed.

Lemma find_none i w : find_client i w = None -> ~ In i (map cid (live w)).
Proof.
  intros H Hi. apply in_map_iff in Hi. destruct Hi as (c & E & Hc).
  pose proof (find_none _ _ H c Hc) as X. cbn in X. rewrite E, Nat.eqb_refl in X. discriminate.
Qed.

Lemma find_some_id i w : In i (map cid (live w)) -> exists c, find_client i w = Some c.
Proof.
  intros Hi. destruct (find_client i w) as [c|] eqn:E; [exists c; reflexivity|]. destruct (find_none i w E Hi).
Qed.

Lemma same_client i w c d : NoDup (map cid (live w)) -> In c (live w) -> In d (live w) -> cid c = i -> cid d = i -> c = d.
Proof.
  intros N Hc Hd Ec Ed. induction (live w) as [|x l IH]; [contradiction|]. cbn in N. inversion N as [|? ? N1 N2]; subst.
  destruct Hc as [Hc|Hc], Hd as [Hd|Hd]; subst; auto.
  - exfalso. apply N1. rewrite <- Ed. apply in_map, Hd.
  - exfalso. apply N1. rewrite Ed. apply in_map, Hc.
Qed.

Lemma filter_cids i l : map cid (filter (fun d => negb (Nat.eqb (cid d) i)) l) = filter (fun j => negb (Nat.eqb j i)) (map cid l).
Proof. induction l as [|c l IH]; [reflexivity|]. cbn. destruct (Nat.eqb (cid c) i); cbn; rewrite IH; reflexivity. Qed.

(** ** Each client is accounted for exactly once *)
Definition A (w : world) : Prop :=
  NoDup (map cid (live w)) /\ NoDup (cleaned w) /\
  (forall i, In i (map cid (live w)) -> ~ In i (cleaned w)) /\
  (forall i, (i < next w)%nat <-> In i (map cid (live w)) \/ In i (cleaned w)).

Lemma A_same w w' : map cid (live w') = map cid (live w) -> cleaned w' = cleaned w -> next w' = next w -> A w -> A w'.
Proof. unfold A. intros E1 E2 E3 H. rewrite E1, E2, E3. exact H. Qed.

Lemma nodup_filter (f : nat -> bool) l : NoDup l -> NoDup (filter f l).
Proof.
  induction l as [|x l IH]; intros H; [constructor|]. inversion H; subst. cbn. destruct (f x); [|auto].
  constructor; [|auto]. intros X. apply filter_In in X. tauto.
Qed.

Lemma nodup_snoc (l : list nat) i : NoDup l -> ~ In i l -> NoDup (l ++ [i]).
Proof.
  intros N H. induction l as [|x l IH]; [repeat constructor; auto|]. inversion N; subst. cbn. constructor.
  - rewrite in_app_iff. cbn. intros [X|[X|[]]]; [contradiction|]. subst. apply H. left. reflexivity.
  - apply IH; [assumption|]. intros X. apply H. right. exact X.
Qed.

Lemma close_cids i w w' : client_close i w = Ok w' ->
  In i (map cid (live w)) /\
  map cid (live w') = filter (fun j => negb (Nat.eqb j i)) (map cid (live w)) /\
  cleaned w' = cleaned w ++ [i] /\ next w' = next w /\ up w' = up w /\ exists m, idles w' = idles w ++ m.
Proof.
  unfold client_close. destruct (find_client i w) as [c|] eqn:F; [|discriminate]. intros H. apply (f_equal (fun x => match x with Ok y => y | _ => w end)) in H. subst w'.
  destruct (find_in _ _ _ F) as [F1 F2]. split; [rewrite <- F2; apply in_map, F1|]. cbn [live cleaned next up idles].
  rewrite filter_cids, stream_close_cids. split; [reflexivity|]. rewrite stream_close_eq.
  destruct (sopen c); cbn; repeat split; eexists; [reflexivity|symmetry; apply app_nil_r].
Qed.

Lemma close_A i w w' : A w -> client_close i w = Ok w' -> A w'.
Proof.
  intros (H1 & H2 & H3 & H4) C. destruct (close_cids i w w' C) as (L & E1 & E2 & E3 & _).
  unfold A. rewrite E1, E2, E3. split; [apply nodup_filter, H1|]. split; [apply nodup_snoc; auto|]. split.
  - intros j Hj. apply filter_In in Hj. destruct Hj as [Hj Ne]. rewrite in_app_iff. cbn. intros [X|[X|[]]].
    + exact (H3 j Hj X).
    + subst. rewrite Nat.eqb_refl in Ne. discriminate.
  - intros j. rewrite H4, filter_In, in_app_iff. cbn. destruct (Nat.eqb_spec j i) as [E|E].
    + subst. split; [auto|]. intros _. left. exact L.
    + split; [intros [X|X]; auto|intros [[X _]|[X|[X|[]]]]; auto; congruence].
Qed.

Lemma close_each_A l : forall w w', A w -> close_each l w = Ok w' -> A w'.
Proof.
  induction l as [|i l IH]; intros w w' H E; cbn in E; [inversion E; subst; exact H|].
  destruct (client_close i w) as [w1|] eqn:C; [|discriminate]. cbn in E. apply (IH w1 w'); [|exact E]. exact (close_A i w w1 H C).
Qed.

Lemma close_streams_same l : forall w, map cid (live (close_streams l w)) = map cid (live w) /\
  cleaned (close_streams l w) = cleaned w /\ next (close_streams l w) = next w /\ up (close_streams l w) = up w.
Proof.
  induction l as [|c l IH]; intros w; cbn; [auto|]. destruct (IH (stream_close c w)) as (E1 & E2 & E3 & E4).
  rewrite E1, E2, E3, E4, stream_close_cids, stream_close_eq. destruct (sopen c); auto.
Qed.

Lemma put_client_cids c w : map cid (live (put_client c w)) = map cid (live w).
Proof.
  unfold put_client, set_live. cbn. apply map_cid_put. intros d. destruct (Nat.eqb_spec (cid d) (cid c)); congruence.
Qed.

Lemma defer_close_A i c w : A w -> A (defer i (stream_close c w)).
Proof.
  intros H. apply (A_same w); [|rewrite stream_close_eq; destruct (sopen c); reflexivity|rewrite stream_close_eq; destruct (sopen c); reflexivity|exact H].
  exact (stream_close_cids c w).
Qed.

Lemma step_A a w w' : A w -> step a w = Ok w' -> A w'.
Proof.
  intros H. destruct a as [|i cb|i|i|i|i|i| |]; cbn.
  - destruct (up w); intros E; inversion E; subst; [|exact H]. destruct H as (H1 & H2 & H3 & H4). unfold A. cbn.
    assert (Nl : ~ In (next w) (map cid (live w))). { intros X. assert (next w < next w)%nat by (apply H4; auto). lia. }
    assert (Nc : ~ In (next w) (cleaned w)). { intros X. assert (next w < next w)%nat by (apply H4; auto). lia. }
    split; [constructor; assumption|]. split; [exact H2|]. split.
    + intros i [X|X]; [subst; exact Nc|auto].
    + intros i. split; [intros L; assert (i = next w \/ i < next w)%nat as [X|X] by lia; [left; left; auto|apply H4 in X; destruct X; auto]|].
      intros [[X|X]|X]; [lia| |]; assert (i < next w)%nat by (apply H4; auto); lia.
  - destruct (find_client i w) as [c|]; [destruct (sopen c)|]; intros E; inversion E; subst; try exact H.
    apply (A_same w); auto. apply put_client_cids.
  - destruct (find_client i w) as [c|]; [destruct (sopen c); [destruct (outq c) as [|[|] q]|]|]; intros E; inversion E; subst; try exact H.
    + apply (A_same w); auto. apply put_client_cids.
    + exact (defer_close_A i (mk_client i true q) w H).
  - destruct (find_client i w) as [c|]; [destruct (sopen c) eqn:Sc|]; intros E; inversion E; subst; try exact H.
    exact (defer_close_A i c w H).
  - destruct (find_client i w) as [c|]; [destruct (sopen c)|]; intros E; try (inversion E; subst; exact H). exact (close_A i w w' H E).
  - destruct (find_client i w) as [c|]; intros E; try (inversion E; subst; exact H). exact (close_A i w w' H E).
  - destruct (find_client i w) as [c|]; intros E; try (inversion E; subst; exact H). exact (close_each_A _ w w' H E).
  - destruct (idles w) as [|i rest]; intros E; [inversion E; subst; exact H|].
    refine (close_A i _ w' _ E). apply (A_same w); auto.
  - destruct (up w); intros E; [|inversion E; subst; exact H].
    destruct (close_each _ _) as [w1|] eqn:C; [|discriminate]. cbn in E. inversion E; subst.
    apply (A_same w1); auto. refine (close_each_A _ _ w1 _ C).
    destruct (close_streams_same (live w) w) as (E1 & E2 & E3 & _). apply (A_same w); auto.
Qed.

Lemma run_A l : forall w w', A w -> run l w = Ok w' -> A w'.
Proof.
  induction l as [|a l IH]; intros w w' H E; cbn in E; [inversion E; subst; exact H|].
  destruct (step a w) as [w1|] eqn:S1; [|discriminate]. cbn in E. apply (IH w1 w'); [exact (step_A a w w1 H S1)|exact E].
Qed.

Lemma A0 : A world0.
Proof.
  unfold A. cbn. split; [constructor|]. split; [constructor|]. split; [intros i []|].
  intros i. split; [lia|intros [[]|[]]].
Qed.

(** ** Calm runs *)
Definition K (w : world) : Prop :=
  NoDup (idles w) /\
  (forall i, In i (idles w) <-> exists c, In c (live w) /\ cid c = i /\ sopen c = false) /\
  (forall c, In c (live w) -> sopen c = false -> outq c = []) /\
  (forall c, In c (live w) -> (ncl (outq c) <= 1)%nat).

Definition gone_without (i : nat) (w : world) : world :=
  mk_world (filter (fun d => negb (Nat.eqb (cid d) i)) (live w)) (idles w) (up w) (next w) (cleaned w ++ [i]).

Lemma filter_put c l : filter (fun d => negb (Nat.eqb (cid d) (cid c)))
   (map (fun d => if Nat.eqb (cid d) (cid c) then shut c else d) l) = filter (fun d => negb (Nat.eqb (cid d) (cid c))) l.
Proof.
  induction l as [|d l IH]; [reflexivity|]. cbn. destruct (Nat.eqb (cid d) (cid c)) eqn:E.
  - cbn. rewrite Nat.eqb_refl. cbn. exact IH.
  - rewrite E. cbn. f_equal. exact IH.
Qed.

(** Closing a client whose end is not under way. *)
Definition easy (c : client) : Prop := sopen c = false \/ ncl (outq c) = 0%nat.

Lemma close_easy i w : In i (map cid (live w)) -> (forall c, In c (live w) -> cid c = i -> easy c) ->
  client_close i w = Ok (gone_without i w).
Proof.
  intros Hi He. destruct (find_some_id i w Hi) as [c F]. unfold client_close. rewrite F.
  destruct (find_in _ _ _ F) as [F1 F2]. specialize (He c F1 F2). f_equal. unfold gone_without. rewrite stream_close_eq. destruct (sopen c) eqn:Sc; [|reflexivity].
  destruct He as [He|He]; [congruence|]. cbn. rewrite He, app_nil_r. f_equal. rewrite <- F2. apply filter_put.
Qed.

Lemma gone_live i w c : In c (live (gone_without i w)) <-> In c (live w) /\ cid c <> i.
Proof.
  cbn. rewrite filter_In. destruct (Nat.eqb_spec (cid c) i) as [E|E]; cbn; split; intros [X Y]; auto; congruence.
Qed.

Lemma close_each_easy l : forall w, NoDup l -> (forall i, In i l -> In i (map cid (live w))) ->
  (forall i c, In i l -> In c (live w) -> cid c = i -> easy c) ->
  exists w', close_each l w = Ok w' /\ idles w' = idles w /\ up w' = up w /\ next w' = next w /\
    (forall c, In c (live w') <-> In c (live w) /\ ~ In (cid c) l).
Proof.
  induction l as [|i l IH]; intros w N Hi He.
  - exists w. cbn. repeat split; auto. tauto.
  - inversion N as [|? ? N1 N2]; subst. cbn. rewrite (close_easy i w); [|apply Hi; left; reflexivity|intros c Hc E; apply (He i c); [left; reflexivity|exact Hc|exact E]].
    cbn [bind]. destruct (IH (gone_without i w) N2) as (w' & E & E1 & E2 & E3 & E4).
    + intros j Hj. assert (Hj2 : In j (map cid (live w))) by (apply Hi; right; exact Hj).
      apply in_map_iff in Hj2. destruct Hj2 as (c & Ec & Hc). apply in_map_iff. exists c. split; [exact Ec|].
      apply gone_live. split; [exact Hc|]. intros X. subst. contradiction.
    + intros j c Hj Hc E. apply gone_live in Hc. apply (He j c); [right; exact Hj|apply Hc|exact E].
    + exists w'. split; [exact E|]. split; [exact E1|]. split; [exact E2|]. split; [exact E3|].
      intros c. rewrite E4, gone_live. cbn. split; [intros [[X Y] Z]; split; [exact X|intros [Q|Q]; [apply Y; symmetry; exact Q|contradiction]]|].
      intros [X Y]. split; [split; [exact X|intros Q; apply Y; left; symmetry; exact Q]|intros Q; apply Y; right; exact Q].
Qed.

Lemma no_last i w c : ~ last_message_queued i w -> In c (live w) -> cid c = i -> ncl (outq c) = 0%nat.
Proof.
  intros H Hc E. destruct (ncl (outq c)) eqn:N; [reflexivity|]. exfalso. apply H. exists c. split; [exact Hc|]. split; [exact E|].
  apply ncl_in. lia.
Qed.

Lemma put_in c w d : In d (map (fun d => if Nat.eqb (cid d) (cid c) then c else d) (live w)) ->
  d = c \/ (In d (live w) /\ cid d <> cid c).
Proof.
  intros H. apply in_map_iff in H. destruct H as (x & E & Hx). destruct (Nat.eqb_spec (cid x) (cid c)) as [Q|Q]; subst; auto.
Qed.

Lemma in_put c w d : In d (live w) -> cid d <> cid c -> In d (map (fun d => if Nat.eqb (cid d) (cid c) then c else d) (live w)).
Proof.
  intros H N. apply in_map_iff. exists d. split; [|exact H]. destruct (Nat.eqb_spec (cid d) (cid c)); [contradiction|reflexivity].
Qed.

Lemma put_self c w : In (cid c) (map cid (live w)) -> In c (map (fun d => if Nat.eqb (cid d) (cid c) then c else d) (live w)).
Proof.
  intros H. apply in_map_iff in H. destruct H as (d & E & Hd). apply in_map_iff. exists d. split; [|exact Hd].
  rewrite E, Nat.eqb_refl. reflexivity.
Qed.

(** The stream of an open client is closed and its close deferred once. *)
Lemma shut_K i w c : A w -> K w -> In c (live w) -> cid c = i -> sopen c = true ->
  K (mk_world (map (fun d => if Nat.eqb (cid d) i then mk_client i false [] else d) (live w)) (idles w ++ [i]) (up w) (next w) (cleaned w)).
Proof.
  intros (H1 & _) (K1 & K2 & K3 & K4) Hc Ei Sc. subst i. set (c' := mk_client (cid c) false []).
  assert (Ni : ~ In (cid c) (idles w)).
  { intros X. apply K2 in X. destruct X as (d & Hd & Ed & Sd). rewrite (same_client (cid c) w d c H1 Hd Hc Ed eq_refl) in Sd. congruence. }
  change (cid c) with (cid c') at 1. split; [apply nodup_snoc; assumption|]. cbn [live idles]. split; [|split].
  - intros j. rewrite in_app_iff. cbn [In]. split.
    + intros [X|[X|[]]].
      * apply K2 in X. destruct X as (d & Hd & Ed & Sd). exists d. split; [|auto]. apply in_put; [exact Hd|].
        cbn. intros Q. apply Ni. apply K2. exists d. auto.
      * subst j. exists c'. split; [|auto]. apply put_self. cbn. apply in_map, Hc.
    + intros (d & Hd & Ed & Sd). apply put_in in Hd. destruct Hd as [Hd|[Hd _]]; [subst d; right; left; exact Ed|]. left. apply K2. exists d. auto.
  - intros d Hd. apply put_in in Hd. destruct Hd as [Hd|[Hd _]]; [subst d; reflexivity|apply K3, Hd].
  - intros d Hd. apply put_in in Hd. destruct Hd as [Hd|[Hd _]]; [subst d; cbn; lia|apply K4, Hd].
Qed.

(** The queue of an open client changes. *)
Lemma requeue_K i w c q : A w -> K w -> In c (live w) -> cid c = i -> sopen c = true -> (ncl q <= 1)%nat ->
  K (put_client (mk_client i true q) w).
Proof.
  intros (H1 & _) (K1 & K2 & K3 & K4) Hc Ei Sc Hq. subst i. set (c' := mk_client (cid c) true q). unfold put_client, set_live.
  split; [exact K1|]. cbn [live idles]. split; [|split].
  - intros j. rewrite K2. split; intros (d & Hd & Ed & Sd).
    + exists d. split; [|auto]. apply in_put; [exact Hd|]. cbn. intros Q.
      rewrite (same_client (cid c) w d c H1 Hd Hc Q eq_refl) in Sd. congruence.
    + apply put_in in Hd. destruct Hd as [Hd|[Hd _]]; [subst d; discriminate|]. exists d. auto.
  - intros d Hd. apply put_in in Hd. destruct Hd as [Hd|[Hd _]]; [subst d; discriminate|apply K3, Hd].
  - intros d Hd. apply put_in in Hd. destruct Hd as [Hd|[Hd _]]; [subst d; exact Hq|apply K4, Hd].
Qed.

(** Open clients without a last message go. *)
Lemma less_K w w' : K w -> idles w' = idles w -> (forall c, In c (live w') -> In c (live w)) ->
  (forall c, In c (live w) -> sopen c = false -> In c (live w')) -> K w'.
Proof.
  intros (K1 & K2 & K3 & K4) E Hs Hk. unfold K. rewrite E. split; [exact K1|]. split; [|split; intros; auto].
  intros i. rewrite K2. split; intros (c & Hc & Ec & Sc); exists c; auto.
Qed.

Lemma close_streams_easy l : forall w, NoDup (map cid l) -> NoDup (map cid (live w)) -> (forall c, In c l -> In c (live w)) ->
  (forall c, In c l -> easy c) ->
  idles (close_streams l w) = idles w /\
  (forall d, In d (live (close_streams l w)) -> (In d (live w) /\ ~ In (cid d) (map cid l)) \/ sopen d = false).
Proof.
  induction l as [|c l IH]; intros w Nl N Hin He; cbn.
  - split; [reflexivity|]. intros d Hd. left. auto.
  - cbn in Nl. inversion Nl as [|? ? N1 N2]; subst.
    assert (Hc : In c (live w)) by (apply Hin; left; reflexivity).
    destruct (IH (stream_close c w) N2) as [E1 E2].
    + rewrite stream_close_cids. exact N.
    + intros d Hd. assert (X : In d (live w)) by (apply Hin; right; exact Hd). rewrite stream_close_eq.
      destruct (sopen c); [|exact X]. cbn. apply in_map_iff. exists d. split; [|exact X].
      destruct (Nat.eqb_spec (cid d) (cid c)) as [Q|Q]; [|reflexivity]. exfalso. apply N1. rewrite <- Q. apply in_map, Hd.
    + intros d Hd. apply He. right. exact Hd.
    + split.
      * rewrite E1, stream_close_eq. destruct (sopen c) eqn:Sc; [|reflexivity]. cbn.
        destruct (He c (or_introl eq_refl)) as [X|X]; [congruence|]. rewrite X. apply app_nil_r.
      * intros d Hd. destruct (E2 d Hd) as [[X Y]|X]; [|right; exact X]. rewrite stream_close_eq in X. destruct (sopen c) eqn:Sc.
        -- cbn in X. apply in_map_iff in X. destruct X as (x & Ex & Hx). destruct (Nat.eqb_spec (cid x) (cid c)) as [Q|Q].
           ++ subst d. right. reflexivity.
           ++ subst x. left. split; [exact Hx|]. intros [Z|Z]; [apply Q; symmetry; exact Z|contradiction].
        -- destruct (Nat.eqb_spec (cid d) (cid c)) as [Q|Q].
           ++ right. rewrite (same_client (cid c) w d c N X Hc Q eq_refl). exact Sc.
           ++ left. split; [exact X|]. intros [Z|Z]; [apply Q; symmetry; exact Z|contradiction].
Qed.

Lemma step_K a w : A w -> K w -> calm a w -> exists w', step a w = Ok w' /\ K w'.
Proof.
  intros HA HK Hc. assert (HA0 := HA). assert (HK0 := HK). destruct HA as (H1 & H2 & H3 & H4). destruct HK as (K1 & K2 & K3 & K4).
  assert (Hopen : forall i c, ~ In i (idles w) -> In c (live w) -> cid c = i -> sopen c = true).
  { intros i c Hi Hl E. destruct (sopen c) eqn:Sc; [reflexivity|]. exfalso. apply Hi. apply K2. exists c. auto. }
  destruct a as [|i cb|i|i|i|i|i| |]; cbn [step].
  - destruct (up w); [|exists w; auto]. eexists. split; [reflexivity|]. split; [exact K1|]. cbn. split; [|split].
    + intros i. rewrite K2. split; intros (c & Hl & E & Sc); exists c; [auto|]. destruct Hl as [X|X]; [subst c; discriminate|auto].
    + intros c [X|X]; [subst c; discriminate|apply K3, X].
    + intros c [X|X]; [subst c; cbn; lia|apply K4, X].
  - destruct (find_client i w) as [c|] eqn:F; [|exists w; auto]. destruct (sopen c) eqn:Sc; [|exists w; auto].
    destruct (find_in _ _ _ F) as [F1 F2]. eexists. split; [reflexivity|]. apply (requeue_K i w c); auto.
    rewrite ncl_app. destruct cb; cbn; [pose proof (K4 c F1); lia|]. rewrite (no_last i w c Hc F1 F2). lia.
  - destruct (find_client i w) as [c|] eqn:F; [|exists w; auto]. destruct (sopen c) eqn:Sc; [|exists w; auto].
    destruct (find_in _ _ _ F) as [F1 F2]. pose proof (K4 c F1) as L. destruct (outq c) as [|[|] q] eqn:Q; [exists w; auto| |].
    + eexists. split; [reflexivity|]. apply (requeue_K i w c); auto.
    + eexists. split; [reflexivity|]. rewrite stream_close_eq. cbn [sopen cid outq]. cbn in L. replace (ncl q) with 0%nat by lia.
      unfold defer. cbn [live idles up next cleaned repeat]. rewrite app_nil_r. unfold shut. cbn [cid]. apply (shut_K i w c); auto.
  - destruct (find_client i w) as [c|] eqn:F; [|exists w; auto]. destruct (sopen c) eqn:Sc; [|exists w; auto].
    destruct (find_in _ _ _ F) as [F1 F2]. eexists. split; [reflexivity|]. rewrite stream_close_eq, Sc, (no_last i w c Hc F1 F2).
    unfold defer. cbn [live idles up next cleaned repeat]. rewrite app_nil_r. unfold shut. rewrite F2. apply (shut_K i w c); auto.
  - destruct (find_client i w) as [c|] eqn:F; [|exists w; auto]. destruct (sopen c) eqn:Sc; [|exists w; auto].
    destruct (find_in _ _ _ F) as [F1 F2]. exists (gone_without i w). split.
    + apply close_easy; [rewrite <- F2; apply in_map, F1|]. intros d Hd Ed. right. apply (no_last i w d Hc Hd Ed).
    + apply (less_K w); auto. { intros d Hd. apply gone_live in Hd. apply Hd. }
      intros d Hd Sd. apply gone_live. split; [exact Hd|]. intros Q. rewrite (same_client i w d c H1 Hd F1 Q F2) in Sd. congruence.
  - destruct (find_client i w) as [c|] eqn:F; [|exists w; auto]. destruct (find_in _ _ _ F) as [F1 F2]. cbn in Hc.
    exists (gone_without i w). split.
    + apply close_easy; [rewrite <- F2; apply in_map, F1|]. intros d Hd Ed. right. apply (no_last i w d); auto. intros X. apply Hc. right. exact X.
    + apply (less_K w); auto. { intros d Hd. apply gone_live in Hd. apply Hd. }
      intros d Hd Sd. apply gone_live. split; [exact Hd|]. intros Q. rewrite (Hopen i d) in Sd; auto; [discriminate|]. intros X. apply Hc. left. exact X.
  - destruct (find_client i w) as [c|] eqn:F; [|exists w; auto]. cbn in Hc.
    destruct (close_each_easy (filter (fun j => negb (Nat.eqb j i)) (map cid (live w))) w) as (w' & E & E1 & E2 & E3 & E4).
    + apply nodup_filter, H1.
    + intros j Hj. apply filter_In in Hj. apply Hj.
    + intros j d Hj Hd Ed. apply filter_In in Hj. destruct Hj as [Hj Ne]. right. apply (no_last j w d); auto.
      intros X. apply (Hc j); [|exact Hj|right; exact X]. intros Q. subst j. rewrite Q, Nat.eqb_refl in Ne. discriminate.
    + exists w'. split; [exact E|]. apply (less_K w); auto. { intros d Hd. apply E4 in Hd. apply Hd. }
      intros d Hd Sd. apply E4. split; [exact Hd|]. intros Hf. apply filter_In in Hf. destruct Hf as [Hf Ne].
      rewrite (Hopen (cid d) d) in Sd; auto; [discriminate|]. intros X. apply (Hc (cid d)); [|exact Hf|left; exact X].
      intros Q. rewrite Q, Nat.eqb_refl in Ne. discriminate.
  - destruct (idles w) as [|i rest] eqn:Ei; [exists w; auto|].
    assert (Hi : In i (i :: rest)) by (left; reflexivity). apply K2 in Hi. destruct Hi as (c & Hl & Ec & Sc).
    set (w1 := mk_world (live w) rest (up w) (next w) (cleaned w)). exists (gone_without i w1). split.
    + apply close_easy; [cbn; rewrite <- Ec; apply in_map, Hl|]. intros d Hd Ed. left. rewrite (same_client i w d c H1 Hd Hl Ed Ec). exact Sc.
    + inversion K1 as [|? ? N1 N2]; subst. split; [exact N2|]. split; [|split].
      * intros j. cbn [idles gone_without w1]. split.
        -- intros Hj. assert (X : In j (cid c :: rest)) by (right; exact Hj). apply K2 in X. destruct X as (d & Hd & Ed & Sd).
           exists d. split; [|auto]. apply gone_live. split; [exact Hd|]. intros Q. subst j. rewrite Q in Hj. contradiction.
        -- intros (d & Hd & Ed & Sd). apply gone_live in Hd. destruct Hd as [Hd Nd].
           assert (X : In j (cid c :: rest)) by (apply K2; exists d; auto). destruct X as [X|X]; [|exact X]. congruence.
      * intros d Hd. apply gone_live in Hd. apply K3, Hd.
      * intros d Hd. apply gone_live in Hd. apply K4, Hd.
  - destruct (up w) eqn:U; [|exists w; auto]. cbn in Hc.
    assert (Ei : idles w = []). { destruct (idles w) as [|i rest] eqn:E; [reflexivity|]. exfalso. apply (Hc i). left. rewrite E. left. reflexivity. }
    assert (He : forall c, In c (live w) -> easy c).
    { intros c Hl. right. apply (no_last (cid c) w c); auto. intros X. apply (Hc (cid c)). right. exact X. }
    destruct (close_streams_easy (live w) w H1 H1 (fun c X => X) He) as [E1 E2].
    destruct (close_streams_same (live w) w) as (S1 & S2 & S3 & S4). cbv zeta.
    destruct (close_each_easy (map cid (live (close_streams (live w) w))) (close_streams (live w) w)) as (w' & E & F1 & F2 & F3 & F4).
    + rewrite S1. exact H1.
    + auto.
    + intros j d _ Hd _. left. destruct (E2 d Hd) as [[X Y]|X]; [|exact X]. exfalso. apply Y. apply in_map, X.
    + rewrite E. cbn [bind]. eexists. split; [reflexivity|].
      assert (L : live w' = []). { destruct (live w') as [|d l] eqn:El; [reflexivity|]. exfalso.
        assert (X : In d (d :: l)) by (left; reflexivity). apply F4 in X. destruct X as [X Y]. apply Y, in_map, X. }
      unfold K. cbn. rewrite L, F1, E1, Ei. split; [constructor|]. split; [|split; intros c []].
      intros i. split; [intros []|intros (c & [] & _)].
Qed.

Lemma K0 : K world0.
Proof. unfold K. cbn. split; [constructor|]. split; [|split; intros c []]. intros i. split; [intros []|intros (c & [] & _)]. Qed.

Lemma run_K l : forall w, A w -> K w -> calm_run l w -> exists w', run l w = Ok w' /\ A w' /\ K w'.
Proof.
  induction l as [|a l IH]; intros w HA HK Hc; cbn; [exists w; auto|]. inversion Hc as [|? ? ? C1 C2]; subst.
  destruct (step_K a w HA HK C1) as (w1 & E & K1'). rewrite E. cbn [bind].
  apply IH; [exact (step_A a w w1 HA E)|exact K1'|apply C2, E].
Qed.

(** ** A close that comes too early *)
Lemma idle_gone l : forall w m i, idles w = l ++ m -> In i l -> ~ In i (map cid (live w)) ->
  exists n, run (repeat RunIdle n) w = Fault UseAfterFree.
Proof.
  induction l as [|j l IH]; intros w m i E Hi Hn; [contradiction|].
  destruct (client_close j (mk_world (live w) (l ++ m) (up w) (next w) (cleaned w))) as [w1|e] eqn:C.
  - destruct Hi as [Hi|Hi].
    { subst j. exfalso. unfold client_close in C. destruct (find_client i _) as [c|] eqn:F; [|discriminate].
      apply find_in in F. destruct F as [F1 F2]. apply Hn. rewrite <- F2. apply in_map. exact F1. }
    destruct (close_cids _ _ _ C) as (_ & L & _ & _ & _ & m' & M). cbn in M, L. rewrite <- app_assoc in M.
    destruct (IH w1 (m ++ m') i M Hi) as [n Hr].
    { rewrite L. intros X. apply filter_In in X. apply Hn, X. }
    exists (S n). cbn. rewrite E. cbn [app]. rewrite C. exact Hr.
  - exists 1%nat. cbn. rewrite E. cbn [app]. rewrite C. cbn [bind]. unfold client_close in C. destruct (find_client _ _); inversion C; reflexivity.
Qed.

(** Closing a client whose end is under way leads to the use of a freed client. *)
Lemma doomed_close i w w' : doomed i w -> A w -> (forall c, In c (live w) -> sopen c = false -> outq c = []) ->
  client_close i w = Ok w' -> exists n, run (repeat RunIdle n) w' = Fault UseAfterFree.
Proof.
  intros D (H1 & _) Hq C. destruct (close_cids _ _ _ C) as (Hi & L & _ & _ & _ & m & M).
  assert (X : In i (idles w')).
  { destruct D as [D|(c & Hc & Ec & Hl)]; [rewrite M; apply in_or_app; left; exact D|].
    unfold client_close in C. destruct (find_client i w) as [d|] eqn:F; [|discriminate]. destruct (find_in _ _ _ F) as [F1 F2].
    assert (d = c) by (apply (same_client i w); auto). subst d.
    apply (f_equal (fun x => match x with Ok y => idles y | _ => [] end)) in C. cbn in C. rewrite <- C, stream_close_eq.
    destruct (sopen c) eqn:Sc; [|rewrite (Hq c Hc Sc) in Hl; contradiction]. cbn. apply in_or_app. right. rewrite Ec.
    apply ncl_in in Hl. destruct (ncl (outq c)); [lia|left; reflexivity]. }
  apply (idle_gone (idles w') w' [] i); [symmetry; apply app_nil_r|exact X|].
  rewrite L. intros Y. apply filter_In in Y. destruct Y as [_ Y]. rewrite Nat.eqb_refl in Y. discriminate.
Qed.

(** A closed stream has an empty queue. *)
Definition Z0 (w : world) : Prop := forall c, In c (live w) -> sopen c = false -> outq c = [].

Lemma put_Z0 c w : Z0 w -> (sopen c = true \/ outq c = []) -> Z0 (put_client c w).
Proof.
  intros H Hc d Hd Sd. unfold put_client, set_live in Hd. cbn in Hd. apply put_in in Hd.
  destruct Hd as [Hd|[Hd _]]; [subst d; destruct Hc; congruence|apply H; assumption].
Qed.

Lemma stream_close_Z0 c w : Z0 w -> Z0 (stream_close c w).
Proof.
  intros H. rewrite stream_close_eq. destruct (sopen c); [|exact H]. apply (put_Z0 (shut c) w H). right. reflexivity.
Qed.

Lemma client_close_Z0 i w w' : Z0 w -> client_close i w = Ok w' -> Z0 w'.
Proof.
  intros H C. unfold client_close in C. destruct (find_client i w) as [c|]; [|discriminate].
  apply (f_equal (fun x => match x with Ok y => live y | _ => [] end)) in C.
  intros d Hd. rewrite <- C in Hd. apply filter_In in Hd. apply (stream_close_Z0 c w H), Hd.
Qed.

Lemma close_each_Z0 l : forall w w', Z0 w -> close_each l w = Ok w' -> Z0 w'.
Proof.
  induction l as [|i l IH]; intros w w' H E; cbn in E; [inversion E; subst; exact H|].
  destruct (client_close i w) as [w1|] eqn:C; [|discriminate]. exact (IH w1 w' (client_close_Z0 i w w1 H C) E).
Qed.

Lemma close_streams_Z0 l : forall w, Z0 w -> Z0 (close_streams l w).
Proof. induction l as [|c l IH]; intros w H; cbn; [exact H|]. apply IH, stream_close_Z0, H. Qed.

Lemma step_Z0 a w w' : Z0 w -> step a w = Ok w' -> Z0 w'.
Proof.
  intros H. destruct a as [|i cb|i|i|i|i|i| |]; cbn [step].
  - destruct (up w); intros E; inversion E; subst; [|exact H]. intros c [X|X]; [subst; discriminate|apply H, X].
  - destruct (find_client i w) as [c|]; [destruct (sopen c)|]; intros E; inversion E; subst; try exact H. apply put_Z0; auto.
  - destruct (find_client i w) as [c|]; [destruct (sopen c); [destruct (outq c) as [|[|] q]|]|]; intros E; inversion E; subst; try exact H.
    + apply put_Z0; auto.
    + intros d Hd. exact (stream_close_Z0 (mk_client i true q) w H d Hd).
  - destruct (find_client i w) as [c|]; [destruct (sopen c) eqn:Sc|]; intros E; inversion E; subst; try exact H.
    intros d Hd. exact (stream_close_Z0 c w H d Hd).
  - destruct (find_client i w) as [c|]; [destruct (sopen c)|]; intros E; try (inversion E; subst; exact H). exact (client_close_Z0 i w w' H E).
  - destruct (find_client i w) as [c|]; intros E; try (inversion E; subst; exact H). exact (client_close_Z0 i w w' H E).
  - destruct (find_client i w) as [c|]; intros E; try (inversion E; subst; exact H). exact (close_each_Z0 _ w w' H E).
  - destruct (idles w) as [|i rest]; intros E; [inversion E; subst; exact H|].
    exact (client_close_Z0 i (mk_world (live w) rest (up w) (next w) (cleaned w)) w' H E).
  - destruct (up w); intros E; [|inversion E; subst; exact H]. cbv zeta in E.
    destruct (close_each _ _) as [w1|] eqn:C; [|discriminate]. inversion E; subst.
    exact (close_each_Z0 _ _ w1 (close_streams_Z0 _ w H) C).
Qed.

Lemma run_Z0 l : forall w w', Z0 w -> run l w = Ok w' -> Z0 w'.
Proof.
  induction l as [|a l IH]; intros w w' H E; cbn in E; [inversion E; subst; exact H|].
  destruct (step a w) as [w1|] eqn:S1; [|discriminate]. exact (IH w1 w' (step_Z0 a w w1 H S1) E).
Qed.

Lemma close_each_cleaned l : forall w w', close_each l w = Ok w' -> forall i, In i l \/ In i (cleaned w) -> In i (cleaned w').
Proof.
  induction l as [|j l IH]; intros w w' E i Hi; cbn in E; [inversion E; subst; destruct Hi as [[]|X]; exact X|].
  destruct (client_close j w) as [w1|] eqn:C; [|discriminate]. cbn in E.
  destruct (close_cids _ _ _ C) as (_ & _ & E2 & _). apply (IH w1 w' E). rewrite E2, in_app_iff. cbn.
  destruct Hi as [[X|X]|X]; auto.
Qed.

Lemma delete_frees : forall l w w', run l world0 = Ok w -> up w = true -> step Delete w = Ok w' ->
  forall i, (i < next w)%nat -> ~ In i (cleaned w) -> In i (cleaned w') /\ ~ In i (map cid (live w')).
Proof.
  intros l w w' H U E i Hi Hc. pose proof (run_A l _ w A0 H) as HA. pose proof (step_A Delete w w' HA E) as (_ & _ & H3 & _).
  assert (L : In i (map cid (live w))). { destruct HA as (_ & _ & _ & H4). apply H4 in Hi. tauto. }
  assert (X : In i (cleaned w')).
  { cbn [step] in E. rewrite U in E. cbv zeta in E. destruct (close_each _ _) as [w1|] eqn:C; [|discriminate].
    inversion E; subst. cbn. apply (close_each_cleaned _ _ _ C). left.
    destruct (close_streams_same (live w) w) as (E1 & _). rewrite E1. exact L. }
  split; [exact X|]. intros Y. exact (H3 i Y X).
Qed.

(** Calm runs can be recognised by computation. *)
Definition lastb (i : nat) (w : world) : bool :=
  existsb (fun c => Nat.eqb (cid c) i && existsb (fun b => match b with CloseAfter => true | Plain => false end) (outq c)) (live w).
Definition doomedb i w := existsb (Nat.eqb i) (idles w) || lastb i w.
Definition calmb (a : op) (w : world) : bool :=
  match a with
  | Queue i CloseAfter | HungUp i | ReadError i => negb (lastb i w)
  | AppClose i => negb (doomedb i w)
  | Exclusive i => forallb (fun j => Nat.eqb j i || negb (doomedb j w)) (map cid (live w))
  | Delete => match idles w with [] => forallb (fun c => negb (lastb (cid c) w)) (live w) | _ => false end
  | _ => true
  end.
Fixpoint calm_runb (l : list op) (w : world) : bool :=
  match l with [] => true | a :: l => calmb a w && match step a w with Ok w' => calm_runb l w' | _ => true end end.

Lemma lastb_ok i w : lastb i w = false -> ~ last_message_queued i w.
Proof.
  intros H (c & Hc & E & Hl). assert (X : lastb i w = true); [|congruence]. apply existsb_exists. exists c. split; [exact Hc|].
  rewrite E, Nat.eqb_refl. apply existsb_exists. exists CloseAfter. auto.
Qed.
Lemma doomedb_ok i w : doomedb i w = false -> ~ doomed i w.
Proof.
  unfold doomedb. intros H [D|D]; apply orb_false_iff in H as [H1 H2]; [|exact (lastb_ok i w H2 D)].
  assert (X : existsb (Nat.eqb i) (idles w) = true); [|congruence]. apply existsb_exists. exists i. split; [exact D|apply Nat.eqb_refl].
Qed.
Lemma calmb_ok a w : calmb a w = true -> calm a w.
Proof.
  destruct a as [|i [|]|i|i|i|i|i| |]; cbn; intros H; try exact I; try (apply lastb_ok; apply negb_true_iff; exact H).
  - apply doomedb_ok, negb_true_iff, H.
  - intros j Hj Hin. rewrite forallb_forall in H. specialize (H j Hin). apply orb_true_iff in H as [H|H].
    + apply Nat.eqb_eq in H. contradiction.
    + apply doomedb_ok, negb_true_iff, H.
  - intros j [D|D]; destruct (idles w); try discriminate; [contradiction|]. rewrite forallb_forall in H.
    pose proof D as (c & Hc & E & _). specialize (H c Hc). rewrite E in H. exact (lastb_ok j w (proj1 (negb_true_iff _) H) D).
Qed.
Lemma calm_runb_ok l : forall w, calm_runb l w = true -> calm_run l w.
Proof.
  induction l as [|a l IH]; intros w H; [constructor|]. cbn in H. apply andb_true_iff in H as [H1 H2].
  constructor; [apply calmb_ok, H1|]. intros w' E. rewrite E in H2. apply IH, H2.
Qed.
