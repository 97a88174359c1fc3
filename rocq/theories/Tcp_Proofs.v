From Verif Require Import Common CommonProofs Tcp_Model Tcp_Spec.

Lemma Forall2_length : forall A B (P : A -> B -> Prop) l m, Forall2 P l m -> length l = length m.
Proof. intros A B P l m H. induction H; cbn; congruence. Qed.

(** ** Invariants *)
Definition head_ok (part : list Z) (i : item) (r : req) : Prop :=
  match rexec r with
  | Some f => i = Produced f /\ part = [] /\ (rpay r = None \/ exists t, rpay r = Some (f t))
  | None => exists p, rpay r = Some p /\ means i (part ++ p)
  end.

Definition q_ok (part : list Z) (items : list item) (q : list req) : Prop :=
  match q with
  | [] => items = [] /\ part = []
  | r :: q => exists i items', items = i :: items' /\ head_ok part i r /\ Forall2 (head_ok []) items' q
  end.

Definition tame_req (r : req) : Prop :=
  rexec r = None /\ rpay r <> None /\ match rcb r with None => True | Some l => forallb tame l = true end.

(** [sf]: in a run of tame operations *)
Definition Inv (sf : bool) (W : list Z) (s : tcp) : Prop :=
  closed s = false /\
  (exists whole part, W = concat whole ++ part /\ (length whole <= length (accepted s))%nat /\
    Forall2 means (firstn (length whole) (accepted s)) whole /\
    q_ok part (skipn (length whole) (accepted s)) (queue s) /\
    map rid (queue s) = seq (length whole) (length (queue s)) /\
    finished s = map (fun i => (i, DONE)) (seq 0 (length whole))) /\
  (sf = true -> Forall tame_req (queue s)).

Definition Cinv (W : list Z) (s : tcp) : Prop :=
  closed s = true /\ queue s = [] /\
  exists k, (k <= length (accepted s))%nat /\ carries k (accepted s) W /\
    finished s = map (fun i => (i, DONE)) (seq 0 k)
                 ++ map (fun i => (i, FAILED)) (seq k (length (accepted s) - k)).

Lemma q_ok_nil_part : forall items q, q_ok [] items q -> Forall2 (head_ok []) items q.
Proof.
  intros items [|r q] H; cbn in H; [destruct H as [-> _]; constructor|].
  destruct H as (i & items' & -> & H1 & H2). constructor; assumption.
Qed.

Lemma q_ok_of_forall : forall items q, Forall2 (head_ok []) items q -> q_ok [] items q.
Proof.
  intros items q H. destruct H as [|i r items q H1 H2]; [split; reflexivity|].
  exists i, items. auto.
Qed.

Lemma q_ok_length : forall part items q, q_ok part items q -> length items = length q.
Proof.
  intros part items [|r q] H; cbn in H; [destruct H as [-> _]; reflexivity|].
  destruct H as (i & items' & -> & _ & H2). cbn. f_equal. eapply Forall2_length; eassumption.
Qed.

Lemma q_ok_snoc : forall part items q i r, q_ok part items q -> head_ok [] i r ->
  q_ok part (items ++ [i]) (q ++ [r]).
Proof.
  intros part items [|r0 q] i r H Hn; cbn in H |- *.
  - destruct H as [-> ->]. exists i, []. split; [reflexivity|]. split; [exact Hn|constructor].
  - destruct H as (i0 & items' & -> & H1 & H2). exists i0, (items' ++ [i]).
    split; [reflexivity|]. split; [exact H1|]. apply Forall2_app; [exact H2|]. constructor; [exact Hn|constructor].
Qed.

Lemma head_ok_prefix : forall part i r, head_ok part i r ->
  part = [] \/ exists full, means i full /\ is_prefix part full.
Proof.
  intros part i r H. unfold head_ok in H. destruct (rexec r) as [f|].
  - left. apply H.
  - destruct H as (p & _ & Hm). right. exists (part ++ p). split; [exact Hm|]. exists p. reflexivity.
Qed.

Lemma Inv_len : forall sf W s, Inv sf W s -> exists whole part,
  W = concat whole ++ part /\ (length (accepted s) = length whole + length (queue s))%nat.
Proof.
  intros sf W s (_ & (whole & part & A & B & C & D & E & F) & _). exists whole, part. split; [exact A|].
  apply q_ok_length in D. rewrite skipn_length in D. lia.
Qed.

Lemma Inv_carries : forall sf W s, Inv sf W s ->
  exists k, carries k (accepted s) W /\ finished s = map (fun i => (i, DONE)) (seq 0 k) /\
    (k + length (queue s) = length (accepted s))%nat.
Proof.
  intros sf W s (_ & (whole & part & A & B & C & D & E & F) & _). exists (length whole).
  pose proof (q_ok_length _ _ _ D) as Hl. rewrite skipn_length in Hl.
  split; [|split; [exact F|lia]]. exists whole, part. split; [exact A|]. split; [exact C|]. split; [reflexivity|].
  destruct (queue s) as [|r q]; cbn in D; [left; apply D|].
  destruct D as (i & items & E1 & H1 & _). destruct (head_ok_prefix _ _ _ H1) as [->|(full & Hm & Hp)]; [left; reflexivity|].
  right. exists i, full. split; [|split; assumption].
  rewrite <- (Nat.add_0_r (length whole)) . rewrite <- (firstn_skipn (length whole) (accepted s)).
  rewrite E1. rewrite nth_error_app2; rewrite firstn_length; [|lia].
  replace (length whole + 0 - Nat.min (length whole) (length (accepted s)))%nat with O by lia. reflexivity.
Qed.

(** ** Enqueueing *)
Lemma enqueue_inv : forall sf W s i cb, Inv sf W s ->
  (sf = true -> (exists p, i = Fixed p) /\ match cb with None => True | Some l => forallb tame l = true end) ->
  Inv sf W (enqueue i cb s) /\ wire (enqueue i cb s) = wire s /\
  exists r, queue (enqueue i cb s) = queue s ++ [r].
Proof.
  intros sf W s i cb (Hc & (whole & part & A & B & C & D & E & F) & T) Ht.
  pose proof (q_ok_length _ _ _ D) as Hl. rewrite skipn_length in Hl.
  split; [|split; [reflexivity|eexists; reflexivity]].
  split; [exact Hc|]. split.
  - exists whole, part. cbn [enqueue accepted queue finished]. split; [exact A|].
    rewrite app_length. split; [cbn; lia|].
    assert (Ef : firstn (length whole) (accepted s ++ [i]) = firstn (length whole) (accepted s)).
    { rewrite firstn_app. replace (length whole - length (accepted s))%nat with O by lia.
      cbn [firstn]. apply app_nil_r. }
    assert (Es : skipn (length whole) (accepted s ++ [i]) = skipn (length whole) (accepted s) ++ [i]).
    { rewrite skipn_app. replace (length whole - length (accepted s))%nat with O by lia. reflexivity. }
    rewrite Ef, Es. split; [exact C|]. split.
    { apply q_ok_snoc; [exact D|]. unfold head_ok. destruct i as [p|f]; cbn [rexec rpay].
      - exists p. split; reflexivity.
      - split; [reflexivity|]. split; [reflexivity|]. left. reflexivity. }
    split; [|exact F].
    rewrite map_app, app_length, E. cbn [map length].
    rewrite seq_app. cbn [seq]. f_equal. f_equal. destruct i; cbn [rid]; lia.
  - intros Hsf. apply Forall_app. split; [apply T; exact Hsf|]. constructor; [|constructor].
    destruct (Ht Hsf) as [[p ->] Hcb]. split; [reflexivity|]. split; [discriminate|]. exact Hcb.
Qed.

(** ** Closing *)
Lemma fail_all_ok : forall q s, match fail_all q s with
  | Ok s' => s' = mk_tcp [] (closed s) (cork s) (poll_w s) (wire s) (accepted s)
                  (finished s ++ map (fun r => (rid r, FAILED)) q)
  | Fault e => e = NullDeref /\ Exists (fun r => rpay r = None) q
  end.
Proof.
  induction q as [|r q IH]; intros s; cbn [fail_all map].
  - rewrite app_nil_r. reflexivity.
  - destruct (rpay r) eqn:E.
    + specialize (IH (log_finish r FAILED s)). destruct (fail_all q (log_finish r FAILED s)) as [s'|e].
      * rewrite IH. unfold log_finish. cbn. rewrite <- app_assoc. reflexivity.
      * split; [apply IH|]. apply Exists_cons_tl. apply IH.
    + split; [reflexivity|]. apply Exists_cons_hd. exact E.
Qed.

Lemma close_inv : forall sf W s, Inv sf W s ->
  match close s with
  | Ok s' => Cinv W s' /\ wire s' = wire s
  | Fault e => e = NullDeref /\ sf = false
  end.
Proof.
  intros sf W s HI. pose proof HI as (Hc & (whole & part & A & B & C & D & E & F) & T).
  unfold close. rewrite Hc.
  set (s1 := mk_tcp (queue s) true true (poll_w s) (wire s) (accepted s) (finished s)).
  pose proof (fail_all_ok (queue s) s1) as H. destruct (fail_all (queue s) s1) as [s'|e].
  - subst s'. split; [|reflexivity]. split; [reflexivity|]. split; [reflexivity|]. cbn [accepted finished s1].
    exists (length whole). split; [exact B|].
    destruct (Inv_carries sf W s HI) as (k & Hk & Hf & Hkl).
    assert (Hkk : k = length whole).
    { pose proof (q_ok_length _ _ _ D) as Hl. rewrite skipn_length in Hl. lia. }
    subst k. split; [exact Hk|]. rewrite F. f_equal.
    replace (length (accepted s) - length whole)%nat with (length (queue s)) by lia. rewrite <- E, map_map. reflexivity.
  - destruct H as [-> Hx]. split; [reflexivity|]. destruct sf; [|reflexivity]. exfalso. specialize (T eq_refl).
    apply Exists_exists in Hx. destruct Hx as (r & Hr & Hp). rewrite Forall_forall in T. apply (T r Hr). exact Hp.
Qed.

Lemma run_cb_closed : forall l s, closed s = true -> run_cb l s = Ok s.
Proof.
  induction l as [|a l IH]; intros s H; cbn [run_cb]; [reflexivity|].
  destruct a; cbn [bind].
  - rewrite H. cbn [bind]. apply IH; exact H.
  - rewrite H. cbn [bind]. apply IH; exact H.
  - unfold close. rewrite H. cbn [bind]. apply IH; exact H.
Qed.

(** A callback keeps the invariant and only appends to the queue, or closes. *)
Lemma run_cb_inv : forall l sf W s, Inv sf W s -> (sf = true -> forallb tame l = true) ->
  match run_cb l s with
  | Ok s' => wire s' = wire s /\
      ((Inv sf W s' /\ exists new, queue s' = queue s ++ new) \/ (Cinv W s' /\ sf = false))
  | Fault e => e = NullDeref /\ sf = false
  end.
Proof.
  induction l as [|a l IH]; intros sf W s HI Ht; cbn [run_cb].
  - split; [reflexivity|]. left. split; [exact HI|]. exists []. symmetry. apply app_nil_r.
  - assert (Htl : sf = true -> tame a = true /\ forallb tame l = true).
    { intros H. specialize (Ht H). cbn in Ht. apply andb_true_iff in Ht. exact Ht. }
    pose proof HI as (Hc & _).
    destruct a as [p cb|f|]; cbn [bind].
    + rewrite Hc. cbn [bind].
      destruct (enqueue_inv sf W s (Fixed p) cb HI) as (HI' & Hw & r & Hq).
      { intros H. split; [eexists; reflexivity|]. destruct cb; [|exact I]. apply Htl in H. apply H. }
      specialize (IH sf W (enqueue (Fixed p) cb s) HI' (fun H => proj2 (Htl H))).
      destruct (run_cb l _) as [s'|e]; [|exact IH]. destruct IH as [Hw' [[HI2 [new Hn]]|Hcl]].
      * split; [congruence|]. left. split; [exact HI2|]. exists (r :: new). rewrite Hn, Hq, <- app_assoc. reflexivity.
      * split; [congruence|]. right. exact Hcl.
    + rewrite Hc. cbn [bind].
      destruct (enqueue_inv sf W s (Produced f) None HI) as (HI' & Hw & r & Hq).
      { intros H. apply Htl in H. destruct H; discriminate. }
      specialize (IH sf W (enqueue (Produced f) None s) HI' (fun H => proj2 (Htl H))).
      destruct (run_cb l _) as [s'|e]; [|exact IH]. destruct IH as [Hw' [[HI2 [new Hn]]|Hcl]].
      * split; [congruence|]. left. split; [exact HI2|]. exists (r :: new). rewrite Hn, Hq, <- app_assoc. reflexivity.
      * split; [congruence|]. right. exact Hcl.
    + pose proof (close_inv sf W s HI) as H. destruct (close s) as [s'|e]; cbn [bind]; [|exact H].
      destruct H as [H1 H2]. rewrite run_cb_closed by apply H1. split; [exact H2|]. right. split; [exact H1|].
      destruct sf; [|reflexivity]. destruct (Htl eq_refl); discriminate.
Qed.

(** ** The walk over the queue *)
Definition pays (q : list req) (ps : list (list Z)) : Prop :=
  exists rest, map rpay q = map Some ps ++ rest.

Lemma finish_inv : forall sf W s r rest p, Inv sf W s -> queue s = r :: rest -> rpay r = Some p ->
  match finish_done r (set_queue rest s) with
  | Ok s' => wire s' = wire s /\
      ((Inv sf (W ++ p) s' /\ exists new, queue s' = rest ++ new) \/ (Cinv (W ++ p) s' /\ sf = false))
  | Fault e => e = NullDeref /\ sf = false
  end.
Proof.
  intros sf W s r rest p (Hc & (whole & part & A & B & C & D & E & F) & T) Hq Hp.
  pose proof (q_ok_length _ _ _ D) as Hl. rewrite skipn_length in Hl.
  rewrite Hq in *. cbn [q_ok] in D. destruct D as (i & items & Ei & Hh & Hrest). cbn [length] in Hl.
  assert (Hm : means i (part ++ p)).
  { unfold head_ok in Hh. destruct (rexec r) as [f|].
    - destruct Hh as (-> & -> & [Hx|[t Hx]]); [congruence|]. exists t. rewrite Hp in Hx. inversion Hx. reflexivity.
    - destruct Hh as (p' & Hx & Hm). rewrite Hp in Hx. inversion Hx; subst. exact Hm. }
  assert (Hsk : skipn (S (length whole)) (accepted s) = items /\
                firstn (S (length whole)) (accepted s) = firstn (length whole) (accepted s) ++ [i]).
  { pose proof (firstn_skipn (length whole) (accepted s)) as Hfs. rewrite Ei in Hfs.
    assert (Hfl : length (firstn (length whole) (accepted s)) = length whole) by (rewrite firstn_length; lia).
    split.
    - rewrite <- Hfs at 1. rewrite skipn_app, Hfl. replace (S (length whole) - length whole)%nat with 1%nat by lia.
      rewrite skipn_all2 by lia. reflexivity.
    - rewrite <- Hfs at 1. rewrite firstn_app, Hfl. replace (S (length whole) - length whole)%nat with 1%nat by lia.
      rewrite firstn_all2 by lia. reflexivity. }
  destruct Hsk as [Hsk Hfn].
  set (s1 := log_finish r DONE (set_queue rest s)).
  assert (HI1 : Inv sf (W ++ p) s1).
  { split; [exact Hc|]. split.
    - exists (whole ++ [part ++ p]), []. cbn [s1 log_finish set_queue accepted queue finished].
      rewrite app_length. cbn [length]. rewrite Nat.add_1_r.
      split; [rewrite A, concat_app; cbn [concat]; rewrite !app_nil_r, <- !app_assoc; reflexivity|].
      split; [lia|]. rewrite Hfn, Hsk. split; [apply Forall2_app; [exact C|constructor; [exact Hm|constructor]]|].
      split; [apply q_ok_of_forall; exact Hrest|].
      cbn [map length seq] in E. inversion E as [[E1 E2]]. split; [reflexivity|].
      rewrite F, E1. rewrite seq_S, map_app. reflexivity.
    - intros H. specialize (T H). inversion T; assumption. }
  unfold finish_done. fold s1. destruct (rcb r) as [l|] eqn:Ecb.
  - pose proof (run_cb_inv l sf (W ++ p) s1 HI1) as H.
    destruct (run_cb l s1) as [s'|e].
    + apply H. intros Hsf. specialize (T Hsf). inversion T as [|? ? Ht _]; subst. destruct Ht as (_ & _ & Ht). rewrite Ecb in Ht. exact Ht.
    + apply H. intros Hsf. specialize (T Hsf). inversion T as [|? ? Ht _]; subst. destruct Ht as (_ & _ & Ht). rewrite Ecb in Ht. exact Ht.
  - split; [reflexivity|]. left. split; [exact HI1|]. exists []. symmetry. apply app_nil_r.
Qed.

Lemma walk_inv : forall fuel sf W s ps lft, Inv sf W s -> pays (queue s) ps ->
  (length ps <= fuel)%nat -> queue s <> [] -> ps <> [] ->
  0 <= lft <= zlen (concat ps) -> wire s = W ++ firstn (Z.to_nat lft) (concat ps) ->
  match walk fuel lft s with
  | Ok (l, s') => l <= 0 /\ ((Inv sf (wire s') s') \/ (Cinv (wire s') s' /\ sf = false)) /\
                  (l < 0 -> poll_w s' = true) /\
                  (l = 0 -> exists j, lft = zlen (concat (firstn j ps)))
  | Fault e => (e = NullDeref \/ e = UseAfterFree) /\ sf = false
  end.
Proof.
  induction fuel as [|fuel IH]; intros sf W s ps lft HI [rst Hps] Hf Hq Hne Hl Hw.
  - destruct ps; [contradiction|]. cbn in Hf. lia.
  - destruct (queue s) as [|r rest] eqn:Eq; [contradiction|]. destruct ps as [|p ps]; [contradiction|].
    cbn [walk]. rewrite Eq. cbn [map app] in Hps. inversion Hps as [[Hp Hps']]. rewrite Hp.
    assert (Hc : concat (p :: ps) = p ++ concat ps) by reflexivity. rewrite Hc in Hl, Hw.
    assert (Hz : zlen (p ++ concat ps) = zlen p + zlen (concat ps)) by (unfold zlen; rewrite app_length; lia).
    destruct (0 <=? lft - zlen p) eqn:E.
    + pose proof (finish_inv sf W s r rest p HI Eq Hp) as H.
      destruct (finish_done r (set_queue rest s)) as [s1|e]; cbn [bind]; [|destruct H as [-> H]; split; [left; reflexivity|exact H]].
      destruct H as [Hw1 H].
      assert (Hwire : wire s1 = (W ++ p) ++ firstn (Z.to_nat (lft - zlen p)) (concat ps)).
      { rewrite Hw1, Hw, firstn_app. rewrite firstn_all2 by (unfold zlen in E; lia).
        rewrite <- app_assoc. f_equal. f_equal. f_equal. unfold zlen. lia. }
      destruct (lft - zlen p <=? 0) eqn:E2.
      * replace (Z.to_nat (lft - zlen p)) with O in Hwire by lia. cbn [firstn] in Hwire. rewrite app_nil_r in Hwire.
        split; [lia|]. rewrite Hwire. split; [destruct H as [[H _]|H]; [left; exact H|right; exact H]|].
        split; [lia|]. intros _. exists 1%nat. cbn [firstn concat]. rewrite app_nil_r. lia.
      * destruct rest as [|r2 rest2] eqn:Er.
        { destruct ps; [|discriminate]. cbn in Hz, Hl. lia. }
        destruct H as [[HI' [new Hn]]|[HC Hsf]].
        -- pose proof HI' as (Hc' & _). rewrite Hc'.
           assert (Hrec : match walk fuel (lft - zlen p) s1 with
             | Ok (l, s') => l <= 0 /\ (Inv sf (wire s') s' \/ (Cinv (wire s') s' /\ sf = false)) /\
                  (l < 0 -> poll_w s' = true) /\ (l = 0 -> exists j, lft - zlen p = zlen (concat (firstn j ps)))
             | Fault e => (e = NullDeref \/ e = UseAfterFree) /\ sf = false end).
           2:{ destruct (walk fuel (lft - zlen p) s1) as [[l s']|e]; [|exact Hrec].
               destruct Hrec as (R1 & R2 & R3 & R4). split; [exact R1|]. split; [exact R2|]. split; [exact R3|].
               intros H0. destruct (R4 H0) as [j Hj]. exists (S j). cbn [firstn concat].
               unfold zlen in *. rewrite app_length. lia. }
           eapply (IH sf (W ++ p) s1 ps); [exact HI'| | |rewrite Hn; discriminate| | |exact Hwire].
           ++ exists (rst ++ map rpay new). rewrite Hn, map_app, Hps', <- app_assoc. reflexivity.
           ++ cbn in Hf. lia.
           ++ intros ->. cbn in Hz, Hl. lia.
           ++ lia.
        -- pose proof HC as (Hc' & _). rewrite Hc'. split; [right; reflexivity|exact Hsf].
    + split; [lia|]. split; [|split; [reflexivity|lia]]. left.
      pose proof HI as (Hcl & (whole & part & A & B & C & D & E' & F) & T). rewrite Eq in *.
      cbn [q_ok] in D. destruct D as (i & items & Ei & Hh & Hrest).
      assert (Hn : Z.to_nat (zlen p + (lft - zlen p)) = Z.to_nat lft) by lia. rewrite Hn.
      assert (Hwire : wire s = W ++ firstn (Z.to_nat lft) p).
      { rewrite Hw, firstn_app. replace (Z.to_nat lft - length p)%nat with O by (unfold zlen in E; lia).
        cbn [firstn]. rewrite app_nil_r. reflexivity. }
      assert (Hm : means i (part ++ p)).
      { unfold head_ok in Hh. destruct (rexec r) as [f|].
        - destruct Hh as (-> & -> & [Hx|[t Hx]]); [congruence|]. exists t. rewrite Hp in Hx. inversion Hx. reflexivity.
        - destruct Hh as (p' & Hx & Hm). rewrite Hp in Hx. inversion Hx; subst. exact Hm. }
      split; [exact Hcl|]. split.
      * exists whole, (part ++ firstn (Z.to_nat lft) p). cbn [set_poll set_queue accepted queue finished wire].
        split; [rewrite Hwire, A, <- app_assoc; reflexivity|]. split; [exact B|]. split; [exact C|].
        split; [|split; [cbn [map length] in *; exact E'|exact F]].
        exists i, items. split; [exact Ei|]. split; [|exact Hrest].
        unfold head_ok. cbn [rexec rpay]. eexists. split; [reflexivity|]. rewrite <- app_assoc, firstn_skipn. exact Hm.
      * intros Hsf. specialize (T Hsf). inversion T as [|? ? Ht Ht']; subst. constructor; [|exact Ht'].
        destruct Ht as (_ & _ & Ht). split; [reflexivity|]. split; [discriminate|exact Ht].
Qed.

(** ** Flush *)
Lemma prepare_length : forall n t q, length (prepare n t q) = length q.
Proof. induction n as [|n IH]; intros t [|r q]; cbn; try reflexivity. rewrite IH. reflexivity. Qed.

Lemma prepare_rid : forall n t q, map rid (prepare n t q) = map rid q.
Proof.
  induction n as [|n IH]; intros t [|r q]; cbn; try reflexivity. rewrite IH. f_equal. destruct (rexec r); reflexivity.
Qed.

Lemma prep_head : forall part i r t, head_ok part i r ->
  head_ok part i (match rexec r with Some f => mk_sreq (rid r) (Some (f t)) (rexec r) (rcb r) | None => r end).
Proof.
  intros part i r t H. destruct (rexec r) as [f|] eqn:E; [|exact H]. unfold head_ok in *. rewrite E in H.
  cbn [rexec rpay]. destruct H as (H1 & H2 & _). split; [exact H1|]. split; [exact H2|]. right. exists t. reflexivity.
Qed.

Lemma prepare_ok : forall n t items q, Forall2 (head_ok []) items q -> Forall2 (head_ok []) items (prepare n t q).
Proof.
  induction n as [|n IH]; intros t items q H; destruct H as [|i r items q H1 H2]; cbn [prepare]; try (constructor; assumption).
  constructor; [apply prep_head; exact H1|apply IH; exact H2].
Qed.

Lemma prepare_inv : forall sf W n t s, Inv sf W s -> Inv sf W (set_queue (prepare n t (queue s)) s).
Proof.
  intros sf W n t s (Hc & (whole & part & A & B & C & D & E & F) & T). split; [exact Hc|]. split.
  - exists whole, part. cbn [set_queue accepted queue finished]. rewrite prepare_rid, prepare_length.
    split; [exact A|]. split; [exact B|]. split; [exact C|]. split; [|split; assumption].
    destruct n as [|n]; [exact D|]. destruct (queue s) as [|r q]; [exact D|].
    cbn [q_ok prepare] in *. destruct D as (i & items & Ei & H1 & H2). exists i, items. split; [exact Ei|].
    split; [apply prep_head; exact H1|apply prepare_ok; exact H2].
  - intros Hsf. specialize (T Hsf). cbn [set_queue queue]. revert T. generalize (queue s) as q.
    induction n as [|n IH]; intros q T; destruct T as [|r q Ht Ht']; cbn [prepare]; try (constructor; assumption).
    constructor; [|apply IH; exact Ht']. destruct Ht as (He & Hr). rewrite He. split; assumption.
Qed.

Lemma gather_prepared : forall n t items q, Forall2 (head_ok []) items q ->
  exists ps, gather (firstn n (prepare n t q)) = Ok (concat ps) /\ pays (prepare n t q) ps /\
    length ps = Nat.min n (length q) /\ ps = offered n t q.
Proof.
  induction n as [|n IH]; intros t items q H.
  - exists []. split; [reflexivity|]. split; [exists (map rpay q); reflexivity|split; reflexivity].
  - destruct H as [|i r items q H1 H2]; cbn [prepare firstn gather].
    + exists []. split; [reflexivity|]. split; [exists []; reflexivity|split; reflexivity].
    + destruct (IH t items q H2) as (ps & Eg & [rst Hp] & Hl & Ho).
      assert (Hr : exists p, rpay (match rexec r with Some f => mk_sreq (rid r) (Some (f t)) (rexec r) (rcb r) | None => r end) = Some p).
      { unfold head_ok in H1. destruct (rexec r); [eexists; reflexivity|]. destruct H1 as (p & Hp' & _). exists p. exact Hp'. }
      destruct Hr as [p Hr]. rewrite Hr, Eg. cbn [bind]. exists (p :: ps). split; [reflexivity|]. split.
      * exists rst. cbn [map app]. rewrite Hr, Hp. reflexivity.
      * split; [cbn [length]; lia|]. unfold offered. cbn [firstn flat_map]. rewrite Ho. unfold offered.
        destruct (rexec r); cbn [rpay] in Hr; [inversion Hr; reflexivity|rewrite Hr; reflexivity].
Qed.

Lemma gather_prepared_q : forall n t part items q, q_ok part items q ->
  exists ps, gather (firstn n (prepare n t q)) = Ok (concat ps) /\ pays (prepare n t q) ps /\
    length ps = Nat.min n (length q) /\ ps = offered n t q.
Proof.
  intros n t part items q H. destruct q as [|r q].
  - apply (gather_prepared n t [] []). constructor.
  - destruct n as [|n]; [exists []; split; [reflexivity|]; split; [exists (map rpay (r :: q)); reflexivity|split; reflexivity]|].
    cbn [q_ok] in H. destruct H as (i & its & _ & H1 & H2). cbn [prepare firstn gather].
    destruct (gather_prepared n t its q H2) as (ps & Eg & [rst Hp] & Hl & Ho).
    assert (Hr : exists p, rpay (match rexec r with Some f => mk_sreq (rid r) (Some (f t)) (rexec r) (rcb r) | None => r end) = Some p).
    { unfold head_ok in H1. destruct (rexec r); [eexists; reflexivity|]. destruct H1 as (p & Hp' & _). exists p. exact Hp'. }
    destruct Hr as [p Hr]. rewrite Hr, Eg. cbn [bind]. exists (p :: ps). split; [reflexivity|]. split.
    + exists rst. cbn [map app]. rewrite Hr, Hp. reflexivity.
    + split; [cbn [length]; lia|]. unfold offered. cbn [firstn flat_map]. rewrite Ho. unfold offered.
      destruct (rexec r); cbn [rpay] in Hr; [inversion Hr; reflexivity|rewrite Hr; reflexivity].
Qed.

Definition G (sf : bool) (s : tcp) : Prop :=
  (Inv sf (wire s) s /\ cork s = false) \/ Cinv (wire s) s.

Lemma Inv_ext : forall sf W s s', Inv sf W s -> queue s' = queue s -> closed s' = closed s ->
  accepted s' = accepted s -> finished s' = finished s -> Inv sf W s'.
Proof. intros sf W s s' H E1 E2 E3 E4. unfold Inv in *. rewrite E1, E2, E3, E4. exact H. Qed.

Lemma Cinv_ext : forall W s s', Cinv W s -> queue s' = queue s -> closed s' = closed s ->
  accepted s' = accepted s -> finished s' = finished s -> Cinv W s'.
Proof. intros W s s' H E1 E2 E3 E4. unfold Cinv in *. rewrite E1, E2, E3, E4. exact H. Qed.

Lemma flush_inv : forall sf t o s, Inv sf (wire s) s -> cork s = false ->
  match flush t o s with
  | Ok (z, s') => G sf s' /\
      match o with
      | Sent n => queue s <> [] -> poll_w s' = false ->
                  exists j, z = zlen (concat (firstn j (offered IOV_MAX t (queue s))))
      | Again => queue s <> [] -> poll_w s' = true
      | _ => True
      end
  | Fault e => (e = NullDeref \/ e = UseAfterFree) /\ sf = false
  end.
Proof.
  intros sf t o s HI Hk. unfold flush. rewrite Hk.
  pose proof (prepare_inv sf (wire s) IOV_MAX t s HI) as HI1.
  set (s1 := set_queue (prepare IOV_MAX t (queue s)) s) in *. cbv zeta.
  pose proof HI as (_ & (whole & part & _ & _ & _ & D & _ & _) & _).
  destruct (gather_prepared_q IOV_MAX t part _ _ D) as (ps & Eg & Hp & Hlen & Hoff).
  change (queue s1) with (prepare IOV_MAX t (queue s)). rewrite Eg. cbn [bind].
  destruct (prepare IOV_MAX t (queue s)) as [|r q] eqn:Eq.
  - assert (Hnil : queue s = []).
    { pose proof (prepare_length IOV_MAX t (queue s)) as H. rewrite Eq in H. destruct (queue s); [reflexivity|discriminate]. }
    split; [left; split; [exact HI1|exact Hk]|]. destruct o; try exact I; intros Hx; contradiction.
  - assert (Hne : queue s <> []) by (intros C; rewrite C in Eq; discriminate).
    destruct o as [n| | |].
    + set (s2 := mk_tcp (queue s1) (closed s1) true (poll_w s1) (wire s1 ++ firstn n (concat ps)) (accepted s1) (finished s1)).
      assert (HI2 : Inv sf (wire s) s2) by (eapply Inv_ext; [exact HI1|reflexivity..]).
      pose proof (walk_inv (length (queue s2)) sf (wire s) s2 ps (zlen (firstn n (concat ps))) HI2) as Hwalk.
      assert (Hq2 : queue s2 = r :: q) by reflexivity.
      match goal with |- context [walk _ _ ?x] => change x with s2 end.
      change (length (queue _)) with (length (queue s2)).
      assert (Hpl : length (prepare IOV_MAX t (queue s)) = length (queue s)) by apply prepare_length.
      assert (H1 : pays (queue s2) ps) by (rewrite Hq2; exact Hp).
      assert (H2 : (length ps <= length (queue s2))%nat) by (rewrite Hq2, <- Eq, Hpl; lia).
      assert (H3 : queue s2 <> []) by (rewrite Hq2; discriminate).
      assert (H4 : ps <> []).
      { intros C. rewrite C in Hlen. destruct (queue s); [contradiction|]. cbn [length] in Hlen. unfold IOV_MAX in Hlen. lia. }
      assert (H5 : 0 <= zlen (firstn n (concat ps)) <= zlen (concat ps)).
      { unfold zlen. rewrite firstn_length. lia. }
      assert (H6 : wire s2 = wire s ++ firstn (Z.to_nat (zlen (firstn n (concat ps)))) (concat ps)).
      { cbn [wire s2]. change (wire s1) with (wire s). f_equal. unfold zlen. rewrite Nat2Z.id, firstn_length.
        destruct (Nat.le_ge_cases n (length (concat ps))).
        - rewrite Nat.min_l by lia. reflexivity.
        - rewrite Nat.min_r by lia. rewrite !firstn_all2 by lia. reflexivity. }
      specialize (Hwalk H1 H2 H3 H4 H5 H6).
      destruct (walk (length (queue s2)) (zlen (firstn n (concat ps))) s2) as [[l s3]|e]; cbn [bind fst snd]; [|exact Hwalk].
      destruct Hwalk as (Hl0 & Hs3 & Hpoll & Hj). replace (0 <? l) with false by lia.
      split.
      2:{ intros _ Hpf. rewrite <- Hoff. apply Hj. destruct (Z.eq_dec l 0) as [|Hn0]; [assumption|].
          exfalso. replace (l =? 0) with false in Hpf by lia. cbn in Hpf. rewrite Hpoll in Hpf by lia. discriminate. }
      destruct Hs3 as [HI3|[HC3 _]].
      * left. destruct ((l =? 0) && negb (closed (set_cork false s3))); (split; [|reflexivity]); (eapply Inv_ext; [exact HI3|reflexivity..]).
      * right. destruct ((l =? 0) && negb (closed (set_cork false s3))); (eapply Cinv_ext; [exact HC3|reflexivity..]).
    + split; [|reflexivity]. left. split; [eapply Inv_ext; [exact HI1|reflexivity..]|exact Hk].
    + pose proof (close_inv sf (wire s) s1 HI1) as H. destruct (close s1) as [s'|e]; cbn [bind].
      * split; [|exact I]. right. destruct H as [H Hw]. rewrite Hw. exact H.
      * destruct H as [-> ->]. split; [left; reflexivity|reflexivity].
    + split; [|exact I]. left. split; [exact HI1|exact Hk].
Qed.

Lemma step_inv : forall sf a s, G sf s -> (sf = true -> tame_op a = true) ->
  match step a s with
  | Ok s' => G sf s'
  | Fault e => (e = NullDeref \/ e = UseAfterFree) /\ sf = false
  end.
Proof.
  intros sf a s [[HI Hk]|HC] Ht.
  - pose proof HI as (Hc & _). destruct a as [p cb t o|f t o|t o|]; cbn [step].
    + unfold send. rewrite Hc.
      destruct (enqueue_inv sf (wire s) s (Fixed p) cb HI) as (HI' & Hw & _).
      { intros H. split; [eexists; reflexivity|]. destruct cb; [|exact I]. exact (Ht H). }
      rewrite <- Hw in HI'. pose proof (flush_inv sf t o _ HI' Hk) as H.
      destruct (flush t o _) as [[z s']|e]; cbn [bind snd]; [apply H|exact H].
    + unfold exec_and_send. rewrite Hc.
      destruct (enqueue_inv sf (wire s) s (Produced f) None HI) as (HI' & Hw & _).
      { intros H. specialize (Ht H). discriminate. }
      rewrite <- Hw in HI'. pose proof (flush_inv sf t o _ HI' Hk) as H.
      destruct (flush t o _) as [[z s']|e]; cbn [bind snd]; [apply H|exact H].
    + unfold on_writable. rewrite Hc. pose proof (flush_inv sf t o s HI Hk) as H.
      destruct (flush t o s) as [[z s']|e]; cbn [bind snd]; [apply H|exact H].
    + pose proof (close_inv sf (wire s) s HI) as H. destruct (close s) as [s'|e].
      * right. destruct H as [H Hw]. rewrite Hw. exact H.
      * destruct H as [-> ->]. split; [left; reflexivity|reflexivity].
  - pose proof HC as (Hc & _).
    destruct a as [p cb t o|f t o|t o|]; cbn [step]; unfold send, exec_and_send, on_writable, close; rewrite Hc;
      cbn [bind snd]; right; exact HC.
Qed.

Lemma run_inv : forall sf l s, G sf s -> (sf = true -> forallb tame_op l = true) ->
  match run l s with
  | Ok s' => G sf s'
  | Fault e => (e = NullDeref \/ e = UseAfterFree) /\ sf = false
  end.
Proof.
  intros sf l. induction l as [|a l IH]; intros s HG Ht; cbn [run]; [exact HG|].
  assert (Htl : sf = true -> tame_op a = true /\ forallb tame_op l = true).
  { intros H. specialize (Ht H). cbn in Ht. apply andb_true_iff in Ht. exact Ht. }
  pose proof (step_inv sf a s HG (fun H => proj1 (Htl H))) as H.
  destruct (step a s) as [s'|e]; cbn [bind]; [|exact H]. apply IH; [exact H|]. intros Hs. apply Htl. exact Hs.
Qed.

Lemma G0 : forall sf, G sf tcp0.
Proof.
  intros sf. left. split; [|reflexivity]. split; [reflexivity|]. split.
  - exists [], []. split; [reflexivity|]. split; [cbn; lia|]. split; [constructor|].
    split; [split; reflexivity|]. split; reflexivity.
  - intros _. constructor.
Qed.

Lemma G_carries : forall sf s, G sf s ->
  exists k, carries k (accepted s) (wire s) /\ (k <= length (accepted s))%nat /\
    finished s = map (fun i => (i, DONE)) (seq 0 k) ++
      (if closed s then map (fun i => (i, FAILED)) (seq k (length (accepted s) - k)) else []) /\
    (closed s = false -> (k + length (queue s) = length (accepted s))%nat).
Proof.
  intros sf s [[HI _]|HC].
  - destruct (Inv_carries sf (wire s) s HI) as (k & A & B & C). exists k. pose proof HI as (Hc & _). rewrite Hc.
    split; [exact A|]. split; [lia|]. split; [rewrite app_nil_r; exact B|]. intros _. exact C.
  - destruct HC as (Hc & Hq & k & A & B & C). exists k. rewrite Hc. split; [exact B|]. split; [exact A|].
    split; [exact C|]. discriminate.
Qed.

(** ** Order of acceptance when no callback sends *)
Definition silent (a : op) : bool :=
  match a with OSend _ (Some _) _ _ => false | _ => true end.

Definition sends (a : op) : list item :=
  match a with OSend p _ _ _ => [Fixed p] | OExec f _ _ => [Produced f] | _ => [] end.

Definition quiet (s : tcp) : Prop := Forall (fun r => rcb r = None) (queue s).

Lemma close_acc : forall s s', close s = Ok s' -> quiet s ->
  accepted s' = accepted s /\ closed s' = true /\ quiet s'.
Proof.
  intros s s' H Hq. unfold close in H. destruct (closed s) eqn:E; [inversion H; subst; auto|].
  match type of H with fail_all ?q ?x = _ => pose proof (fail_all_ok q x) as Hf end.
  rewrite H in Hf. subst s'. split; [reflexivity|]. split; [reflexivity|]. constructor.
Qed.

Lemma walk_acc : forall fuel l s l' s', quiet s -> walk fuel l s = Ok (l', s') ->
  accepted s' = accepted s /\ closed s' = closed s /\ quiet s'.
Proof.
  induction fuel as [|fuel IH]; intros l s l' s' Hq H; cbn [walk] in H.
  - destruct (queue s); [|discriminate]. inversion H; subst. auto.
  - destruct (queue s) as [|r rest] eqn:E; [inversion H; subst; auto|].
    unfold quiet in Hq. rewrite E in Hq. inversion Hq as [|? ? Hr Hq']; subst.
    destruct (rpay r) as [p|]; [|discriminate]. destruct (0 <=? l - zlen p).
    + unfold finish_done in H. rewrite Hr in H. cbn [bind] in H.
      set (s1 := log_finish r DONE (set_queue rest s)) in *.
      assert (Hq1 : quiet s1) by exact Hq'.
      destruct (l - zlen p <=? 0); [inversion H; subst; auto|].
      destruct rest; [inversion H; subst; auto|].
      destruct (closed s1); [discriminate|]. apply IH in H; [|exact Hq1]. exact H.
    + inversion H; subst. split; [reflexivity|]. split; [reflexivity|]. constructor; assumption.
Qed.

Lemma prepare_quiet : forall n t q, Forall (fun r => rcb r = None) q -> Forall (fun r => rcb r = None) (prepare n t q).
Proof.
  induction n as [|n IH]; intros t q H; destruct H; cbn [prepare]; try (constructor; assumption).
  constructor; [|apply IH; assumption]. destruct (rexec x); assumption.
Qed.

Lemma flush_acc : forall t o s z s', quiet s -> flush t o s = Ok (z, s') ->
  accepted s' = accepted s /\ quiet s'.
Proof.
  intros t o s z s' Hq H. unfold flush in H. destruct (cork s); [inversion H; subst; auto|].
  cbv zeta in H. set (s1 := set_queue (prepare IOV_MAX t (queue s)) s) in *.
  assert (Hq1 : quiet s1) by (apply prepare_quiet; exact Hq).
  destruct (gather _) as [bytes|]; [|discriminate]. cbn [bind] in H.
  destruct (queue s1) as [|r q] eqn:E; [inversion H; subst; split; [reflexivity|exact Hq1]|].
  destruct o as [n| | |].
  - match type of H with context [walk ?a ?b ?c] => destruct (walk a b c) as [[l s3]|] eqn:Ew end; [|discriminate].
    apply walk_acc in Ew; [|unfold quiet in Hq1; rewrite E in Hq1; exact Hq1].
    cbn [bind fst snd] in H. destruct (0 <? l); [discriminate|]. destruct Ew as (A & _ & B).
    destruct ((l =? 0) && _); inversion H; subst; split; auto.
  - inversion H; subst. split; [reflexivity|exact Hq1].
  - destruct (close s1) as [s2|] eqn:Ec; [|discriminate]. cbn [bind] in H. inversion H; subst.
    apply close_acc in Ec; [|exact Hq1]. destruct Ec as (A & B & C). split; [exact A|exact C].
  - inversion H; subst. split; [reflexivity|exact Hq1].
Qed.

Lemma step_acc : forall a s s', silent a = true -> quiet s -> step a s = Ok s' ->
  quiet s' /\ accepted s' = accepted s ++ (if closed s then [] else sends a).
Proof.
  intros a s s' Hs Hq H.
  assert (Henq : forall i, quiet (enqueue i None s)).
  { intros i. unfold quiet. cbn [enqueue queue]. apply Forall_app. split; [exact Hq|]. constructor; [|constructor].
    destruct i; reflexivity. }
  destruct a as [p cb t o|f t o|t o|]; cbn [step] in H.
  - destruct cb; [discriminate|]. unfold send in H. destruct (closed s).
    + inversion H; subst. split; [exact Hq|]. symmetry. apply app_nil_r.
    + destruct (flush t o _) as [[z s1]|] eqn:E; [|discriminate]. inversion H; subst.
      apply flush_acc in E; [|apply Henq]. destruct E as [A B]. split; [exact B|exact A].
  - unfold exec_and_send in H. destruct (closed s).
    + inversion H; subst. split; [exact Hq|]. symmetry. apply app_nil_r.
    + destruct (flush t o _) as [[z s1]|] eqn:E; [|discriminate]. inversion H; subst.
      apply flush_acc in E; [|apply Henq]. destruct E as [A B]. split; [exact B|exact A].
  - unfold on_writable in H. destruct (closed s).
    + inversion H; subst. split; [exact Hq|]. symmetry. apply app_nil_r.
    + destruct (flush t o s) as [[z s1]|] eqn:E; [|discriminate]. inversion H; subst.
      apply flush_acc in E; [|exact Hq]. destruct E as [A B]. split; [exact B|]. cbn [sends]. rewrite app_nil_r. exact A.
  - apply close_acc in H; [|exact Hq]. destruct H as (A & _ & B). split; [exact B|]. cbn [sends].
    rewrite A. destruct (closed s); symmetry; apply app_nil_r.
Qed.

Lemma step_closed : forall a s s', closed s = true -> step a s = Ok s' -> closed s' = true.
Proof.
  intros a s s' Hc H. destruct a as [p cb t o|f t o|t o|]; cbn [step] in H;
    unfold send, exec_and_send, on_writable, close in H; rewrite Hc in H; cbn [bind snd] in H; inversion H; subst; exact Hc.
Qed.

Lemma run_acc : forall l s s', forallb silent l = true -> quiet s -> run l s = Ok s' ->
  exists j, accepted s' = accepted s ++ firstn j (flat_map sends l) /\
    (closed s' = false -> accepted s' = accepted s ++ flat_map sends l).
Proof.
  induction l as [|a l IH]; intros s s' Hs Hq H; cbn [run] in H.
  - inversion H; subst. exists O. cbn. rewrite !app_nil_r. auto.
  - cbn in Hs. apply andb_true_iff in Hs. destruct Hs as [Ha Hl].
    destruct (step a s) as [s1|] eqn:E; [|discriminate]. cbn [bind] in H.
    destruct (step_acc a s s1 Ha Hq E) as [Hq1 Hacc].
    destruct (IH s1 s' Hl Hq1 H) as (j & Hj & Hopen). cbn [flat_map].
    destruct (closed s) eqn:Ec.
    + (* nothing more is accepted *)
      assert (Hrun : forall l s s', closed s = true -> run l s = Ok s' -> closed s' = true /\ accepted s' = accepted s).
      { clear. induction l as [|a l IH]; intros s s' Hc H; cbn [run] in H; [inversion H; subst; auto|].
        destruct (step a s) as [s1|] eqn:E; [|discriminate]. cbn [bind] in H.
        assert (Hs1 : s1 = s).
        { destruct a as [p cb t o|f t o|t o|]; cbn [step] in E;
            unfold send, exec_and_send, on_writable, close in E; rewrite Hc in E; cbn [bind snd] in E; inversion E; reflexivity. }
        subst s1. apply IH; assumption. }
      pose proof (step_closed a s s1 Ec E) as Hc1. destruct (Hrun l s1 s' Hc1 H) as [H1 H2].
      exists O. rewrite app_nil_r in Hacc. cbn [firstn]. rewrite app_nil_r. split; [congruence|].
      intros C. congruence.
    + exists (length (sends a) + j)%nat. split.
      * rewrite Hj, Hacc, <- app_assoc. f_equal. rewrite firstn_app_2. reflexivity.
      * intros Hc'. rewrite (Hopen Hc'), Hacc, <- app_assoc. reflexivity.
Qed.

(** ** Priority sends *)
Lemma close_wire : forall s s', close s = Ok s' -> wire s' = wire s.
Proof.
  intros s s' H. unfold close in H. destruct (closed s); [inversion H; reflexivity|].
  match type of H with fail_all ?q ?x = _ => pose proof (fail_all_ok q x) as Hf end.
  rewrite H in Hf. subst s'. reflexivity.
Qed.

Lemma run_cb_wire : forall l s s', run_cb l s = Ok s' -> wire s' = wire s.
Proof.
  induction l as [|a l IH]; intros s s' H; cbn [run_cb] in H; [inversion H; reflexivity|].
  destruct a as [p cb|f|].
  - cbn [bind] in H. apply IH in H. rewrite H. destruct (closed s); reflexivity.
  - cbn [bind] in H. apply IH in H. rewrite H. destruct (closed s); reflexivity.
  - destruct (close s) as [s1|] eqn:E; [|discriminate]. cbn [bind] in H. apply IH in H. apply close_wire in E. congruence.
Qed.

Lemma walk_wire : forall fuel l s l' s', walk fuel l s = Ok (l', s') -> wire s' = wire s.
Proof.
  induction fuel as [|fuel IH]; intros l s l' s' H; cbn [walk] in H.
  - destruct (queue s); [inversion H; reflexivity|discriminate].
  - destruct (queue s) as [|r rest]; [inversion H; reflexivity|].
    destruct (rpay r) as [p|]; [|discriminate]. destruct (0 <=? l - zlen p); [|inversion H; reflexivity].
    destruct (finish_done r (set_queue rest s)) as [s1|] eqn:E; [|discriminate]. cbn [bind] in H.
    assert (Hw : wire s1 = wire s).
    { unfold finish_done in E. destruct (rcb r); [apply run_cb_wire in E; exact E|inversion E; reflexivity]. }
    destruct (l - zlen p <=? 0); [inversion H; subst; exact Hw|].
    destruct rest; [inversion H; subst; exact Hw|]. destruct (closed s1); [discriminate|].
    apply IH in H. congruence.
Qed.

Lemma send_first_wire : forall p t o s z s', closed s = false -> cork s = false ->
  send_first p t o s = Ok (z, s') ->
  exists new, wire s' = wire s ++ new /\ (is_prefix new p \/ is_prefix p new) /\
    match o with Sent n => (n <= length p)%nat -> length new = n | _ => new = [] end.
Proof.
  intros p t o s z s' Hc Hk H. unfold send_first in H. rewrite Hc in H. unfold flush in H. cbn [cork] in H. rewrite Hk in H.
  cbv zeta in H. unfold set_queue in H. cbn [queue] in H.
  change (prepare IOV_MAX t (mk_sreq (length (accepted s)) (Some p) None None :: queue s))
    with (mk_sreq (length (accepted s)) (Some p) None None :: prepare 1023 t (queue s)) in H.
  change (firstn IOV_MAX (mk_sreq (length (accepted s)) (Some p) None None :: prepare 1023 t (queue s)))
    with (mk_sreq (length (accepted s)) (Some p) None None :: firstn 1023 (prepare 1023 t (queue s))) in H.
  cbn [gather rpay] in H. destruct (gather (firstn 1023 (prepare 1023 t (queue s)))) as [rest|]; [|discriminate].
  cbn [bind] in H. destruct o as [n| | |].
  - match type of H with context [walk ?a ?b ?c] => destruct (walk a b c) as [[l s3]|] eqn:Ew end; [|discriminate].
    apply walk_wire in Ew. cbn [bind fst snd] in H. destruct (0 <? l); [discriminate|].
    exists (firstn n (p ++ rest)). split; [|split].
    + cbn [wire] in Ew. rewrite <- Ew. destruct ((l =? 0) && _); inversion H; subst; reflexivity.
    + destruct (Nat.le_ge_cases n (length p)).
      * left. exists (skipn n p). rewrite firstn_app. replace (n - length p)%nat with O by lia. cbn [firstn].
        rewrite app_nil_r. symmetry. apply firstn_skipn.
      * right. exists (firstn (n - length p) rest). rewrite firstn_app. rewrite firstn_all2 by lia. reflexivity.
    + intros Hn. rewrite firstn_length, app_length. lia.
  - exists []. inversion H; subst. cbn [set_poll wire]. rewrite app_nil_r. split; [reflexivity|]. split; [left; exists p; reflexivity|reflexivity].
  - destruct (close _) as [s2|] eqn:E; [|discriminate]. cbn [bind] in H. inversion H; subst. apply close_wire in E.
    exists []. rewrite app_nil_r. split; [exact E|]. split; [left; exists p; reflexivity|reflexivity].
  - exists []. inversion H; subst. cbn [wire]. rewrite app_nil_r. split; [reflexivity|]. split; [left; exists p; reflexivity|reflexivity].
Qed.

Lemma run_cork : forall ops s, run ops tcp0 = Ok s -> closed s = false -> cork s = false.
Proof.
  intros ops s H Hc. pose proof (run_inv false ops tcp0 (G0 false)) as HG. rewrite H in HG.
  specialize (HG (fun C => False_ind _ (Bool.diff_false_true C))). destruct HG as [[_ Hk]|[C _]]; [exact Hk|congruence].
Qed.
