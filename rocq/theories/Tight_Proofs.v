From Coq Require FinFun.
From Verif Require Import Common CommonProofs Ws_Proofs WsStream_Proofs.
From Verif Require Import Pixels_Model Pixels_Proofs Zrle_Model Zrle_Spec Zrle_Proofs Zrle2_Proofs Raw_Proofs.
From Verif Require Import Tight_Model Tight_Spec.

(** Order of the tiles. *)
Lemma count_up_in : forall fuel from bound, bound - from <= Z.of_nat fuel ->
  forall x, In x (count_up fuel from 1 bound) <-> from <= x < bound.
Proof.
  induction fuel as [|fuel IH]; intros from bound H x; cbn [count_up].
  - split; [intros []|lia].
  - destruct (Z.ltb_spec from bound); [|split; [intros []|lia]].
    cbn [In]. rewrite IH by lia. lia.
Qed.

Lemma count_up_nodup : forall fuel from bound, NoDup (count_up fuel from 1 bound).
Proof.
  induction fuel as [|fuel IH]; intros from bound; cbn [count_up]; [constructor|].
  destruct (from <? bound); [|constructor]. constructor; [|apply IH].
  assert (G : forall fuel a, from < a -> ~ In from (count_up fuel a 1 bound)).
  { induction fuel0; intros a A; cbn [count_up]; [auto|].
    destruct (a <? bound); [|auto]. intros [E|E]; [lia|]. revert E. apply IHfuel0. lia. }
  apply G. lia.
Qed.

Lemma count_up_residue : forall n1 n2 from r i bound, from <= r < from + 4 -> r mod 4 = i ->
  bound - from <= Z.of_nat n1 -> bound - r <= 4 * Z.of_nat n2 ->
  filter (fun x => x mod 4 =? i) (count_up n1 from 1 bound) = count_up n2 r 4 bound.
Proof.
  induction n1 as [|n1 IH]; intros n2 from r i bound Hr Hi H1 H2; cbn [count_up filter].
  - destruct n2; cbn [count_up]; [reflexivity|]. replace (r <? bound) with false by lia. reflexivity.
  - destruct (Z.ltb_spec from bound) as [L|L]; cbn [filter].
    + destruct (from mod 4 =? i) eqn:E.
      * assert (r = from) as -> by (apply Z.eqb_eq in E; Z.to_euclidean_division_equations; lia).
        destruct n2 as [|n2]; [lia|]. cbn [count_up]. replace (from <? bound) with true by lia.
        f_equal. apply IH; lia || (rewrite <- Hi; Z.to_euclidean_division_equations; lia).
      * apply IH; lia.
    + destruct n2; cbn [count_up]; [reflexivity|]. replace (r <? bound) with false by lia. reflexivity.
Qed.

Definition colmod (i : Z) (j : job) : bool := fst j mod 4 =? i.

Lemma filter_flat_map : forall A B (f : A -> list B) p l,
  filter p (flat_map f l) = flat_map (fun x => filter p (f x)) l.
Proof.
  induction l as [|x l IH]; cbn [flat_map]; [reflexivity|].
  rewrite filter_app, IH. reflexivity.
Qed.

Lemma filter_map_comm : forall A B (f : A -> B) p l, filter p (map f l) = map f (filter (fun x => p (f x)) l).
Proof.
  induction l as [|x l IH]; cbn [map filter]; [reflexivity|].
  destruct (p (f x)); cbn [map]; rewrite IH; reflexivity.
Qed.

Lemma worker_jobs_filter : forall i gw gh, 0 <= i < 4 ->
  filter (colmod i) (grid_jobs gw gh) = worker_jobs i gw gh.
Proof.
  intros i gw gh Hi. unfold grid_jobs, worker_jobs. rewrite filter_flat_map.
  apply flat_map_ext. intros y. rewrite filter_map_comm. f_equal.
  unfold colmod. cbn [fst]. apply count_up_residue; lia || (rewrite Z.mod_small; lia).
Qed.

Lemma grid_jobs_in : forall gw gh j, In j (grid_jobs gw gh) <-> 0 <= fst j < gw /\ 0 <= snd j < gh.
Proof.
  intros gw gh [x y]. unfold grid_jobs. rewrite in_flat_map. cbn [fst snd]. split.
  - intros [y' [Y H]]. apply in_map_iff in H as [x' [E X]]. injection E as -> ->.
    rewrite count_up_in in X, Y by lia. lia.
  - intros [X Y]. exists y. rewrite count_up_in by lia. split; [lia|].
    apply in_map_iff. exists x. rewrite count_up_in by lia. split; [reflexivity|lia].
Qed.

Lemma nodup_flat_map : forall A B (f : A -> list B) l, NoDup l -> (forall x, In x l -> NoDup (f x)) ->
  (forall x y z, In x l -> In y l -> In z (f x) -> In z (f y) -> x = y) -> NoDup (flat_map f l).
Proof.
  induction l as [|x l IH]; intros N F D; cbn [flat_map]; [constructor|].
  inversion N as [|? ? N1 N2]; subst.
  assert (N3 : NoDup (flat_map f l)).
  { apply IH; [exact N2|intros; apply F; right; assumption|].
    intros a b c Ia Ib. apply D; right; assumption. }
  assert (G : forall z, In z (f x) -> ~ In z (flat_map f l)).
  { intros z Z1 Z2. apply in_flat_map in Z2 as [y [Y1 Y2]].
    assert (x = y) by (apply (D x y z); [left; reflexivity|right; exact Y1|exact Z1|exact Y2]). subst. auto. }
  specialize (F x (or_introl eq_refl)). clear - N3 G F. induction (f x) as [|a r IHr]; cbn [app]; [exact N3|].
  inversion F; subst. constructor.
  - rewrite in_app_iff. intros [I|I]; [auto|]. apply (G a); [left; reflexivity|exact I].
  - apply IHr; [assumption|]. intros z Z. apply G. right. exact Z.
Qed.

Lemma grid_jobs_nodup : forall gw gh, NoDup (grid_jobs gw gh).
Proof.
  intros gw gh. apply nodup_flat_map.
  - apply count_up_nodup.
  - intros y _. apply FinFun.Injective_map_NoDup; [intros a b E; congruence|apply count_up_nodup].
  - intros y y' z _ _ A B. apply in_map_iff in A as [? [<- _]]. apply in_map_iff in B as [? [E _]]. congruence.
Qed.

(** An interleaving of lists with disjoint tags is determined by its parts. *)
Lemma interleaved_in : forall ws s, interleaved ws s -> forall j, In j s -> exists w, In w ws /\ In j w.
Proof.
  induction 1 as [ws F|before j w after s I IH]; intros q Q; [destruct Q|].
  destruct Q as [->|Q].
  - exists (q :: w). split; [apply in_elt|left; reflexivity].
  - destruct (IH q Q) as [w' [W1 W2]]. apply in_app_iff in W1 as [W1|[<-|W1]].
    + exists w'. split; [apply in_app_iff; left; exact W1|exact W2].
    + exists (j :: w). split; [apply in_elt|right; exact W2].
    + exists w'. split; [apply in_app_iff; right; right; exact W1|exact W2].
Qed.

Lemma interleaved_filter : forall (f : job -> nat) ws s, interleaved ws s ->
  (forall k w, nth_error ws k = Some w -> Forall (fun j => f j = k) w) ->
  forall k w, nth_error ws k = Some w -> filter (fun j => Nat.eqb (f j) k) s = w.
Proof.
  intros f ws s I. induction I as [ws F|before j w after s I IH]; intros T k w' N.
  - rewrite Forall_forall in F. apply nth_error_In in N. rewrite (F _ N). reflexivity.
  - assert (Fj : f j = length before).
    { specialize (T (length before) (j :: w)). rewrite nth_error_app2, Nat.sub_diag in T by lia.
      specialize (T eq_refl). inversion T; assumption. }
    assert (IH' : forall k w', nth_error (before ++ w :: after) k = Some w' ->
      filter (fun j => Nat.eqb (f j) k) s = w').
    { apply IH. intros k0 w0 N0. destruct (Nat.eq_dec k0 (length before)) as [->|D].
      - rewrite nth_error_app2, Nat.sub_diag in N0 by lia. injection N0 as <-.
        specialize (T (length before) (j :: w)). rewrite nth_error_app2, Nat.sub_diag in T by lia.
        specialize (T eq_refl). inversion T; assumption.
      - apply T. destruct (Nat.lt_ge_cases k0 (length before)).
        + rewrite nth_error_app1 in * by lia. exact N0.
        + rewrite nth_error_app2 in * by lia. destruct (k0 - length before)%nat eqn:Q; [lia|exact N0]. }
    cbn [filter]. rewrite Fj. destruct (Nat.eqb_spec (length before) k) as [<-|D].
    + rewrite nth_error_app2, Nat.sub_diag in N by lia. injection N as <-. f_equal.
      apply IH'. rewrite nth_error_app2, Nat.sub_diag by lia. reflexivity.
    + apply IH'. destruct (Nat.lt_ge_cases k (length before)).
      * rewrite nth_error_app1 in * by lia. exact N.
      * rewrite nth_error_app2 in * by lia. destruct (k - length before)%nat eqn:Q; [lia|exact N].
Qed.

Lemma worker_col : forall i gw gh, 0 <= i < 4 -> Forall (fun j => fst j mod 4 = i) (worker_jobs i gw gh).
Proof.
  intros i gw gh H. rewrite <- worker_jobs_filter by exact H. apply Forall_forall. intros j J.
  apply filter_In in J as [_ J]. unfold colmod in J. lia.
Qed.

Lemma workers_filter : forall w h sched, four_workers w h sched -> forall i, 0 <= i < 4 ->
  filter (colmod i) sched = filter (colmod i) (grid_jobs (UDIV_UP w 64) (UDIV_UP h 64)).
Proof.
  intros w h sched H i Hi. unfold four_workers in H. cbn [map] in H.
  rewrite worker_jobs_filter by exact Hi.
  set (f := fun j : job => Z.to_nat (fst j mod 4)).
  assert (T : forall k l, nth_error [worker_jobs 0 (UDIV_UP w 64) (UDIV_UP h 64);
      worker_jobs 1 (UDIV_UP w 64) (UDIV_UP h 64); worker_jobs 2 (UDIV_UP w 64) (UDIV_UP h 64);
      worker_jobs 3 (UDIV_UP w 64) (UDIV_UP h 64)] k = Some l -> Forall (fun j => f j = k) l).
  { intros k l N.
    assert (G : forall i, 0 <= i < 4 -> Forall (fun j => f j = Z.to_nat i)
        (worker_jobs i (UDIV_UP w 64) (UDIV_UP h 64))).
    { intros i0 H0. eapply Forall_impl; [|apply worker_col; exact H0]. intros j J. unfold f. cbn beta in J.
      rewrite J. reflexivity. }
    destruct k as [|[|[|[|k]]]]; cbn [nth_error] in N; [| | | |destruct k; discriminate];
      injection N as <-; [apply (G 0)|apply (G 1)|apply (G 2)|apply (G 3)]; lia. }
  pose proof (interleaved_filter f _ _ H T (Z.to_nat i) (worker_jobs i (UDIV_UP w 64) (UDIV_UP h 64))) as P.
  rewrite <- P.
  - apply filter_ext. intros j. unfold colmod, f.
    pose proof (Z.mod_pos_bound (fst j) 4 ltac:(lia)) as Q.
    destruct (Nat.eqb_spec (Z.to_nat (fst j mod 4)) (Z.to_nat i)); destruct (Z.eqb_spec (fst j mod 4) i); lia.
  - assert (i = 0 \/ i = 1 \/ i = 2 \/ i = 3) as [->|[->|[->| ->]]] by lia; reflexivity.
Qed.

(** The grid. *)
Lemma set_nth_length : forall A (l : list A) n v, length (set_nth l n v) = length l.
Proof. induction l as [|x l IH]; intros [|n] v; cbn [set_nth length]; auto. Qed.

Lemma set_nth_same : forall A (l : list A) n v, (n < length l)%nat -> nth_error (set_nth l n v) n = Some v.
Proof. induction l as [|x l IH]; intros [|n] v H; cbn [set_nth length nth_error] in *; auto; try lia. apply IH. lia. Qed.

Lemma set_nth_other : forall A (l : list A) n m v, n <> m -> nth_error (set_nth l n v) m = nth_error l m.
Proof.
  induction l as [|x l IH]; intros n m v H; cbn [set_nth]; [reflexivity|].
  destruct n as [|n], m as [|m]; cbn [nth_error]; auto; try congruence.
Qed.

Lemma nth_error_ext : forall A (l l' : list A), length l = length l' ->
  (forall n, (n < length l)%nat -> nth_error l n = nth_error l' n) -> l = l'.
Proof.
  induction l as [|x l IH]; intros [|y l'] L H; cbn [length] in *; try lia; auto.
  pose proof (H O ltac:(lia)) as H0. cbn [nth_error] in H0. f_equal; [congruence|].
  apply IH; [lia|]. intros n N. apply (H (S n)). lia.
Qed.

Set Default Proof Using "Type".
Section T.
Variable zstate : Type.
Variable deflate : zstate -> list Z -> bool -> zstate * list Z.
Variable tj : string -> Z -> Z -> Z -> list Z -> option (list Z).
Variable have_jpeg : bool.
Notation tenc := (tenc zstate).
Notation work_on := (work_on deflate tj have_jpeg).
Notation work := (work deflate tj have_jpeg).
Notation enc_tile := (tight_encode_tile zstate deflate tj have_jpeg).

Definition valid (te : tenc) (j : job) : Prop := 0 <= fst j < te_gw te /\ 0 <= snd j < te_gh te.

(** Same framebuffer, same shape. *)
Definition shape (a b : tenc) : Prop :=
  te_w a = te_w b /\ te_h a = te_h b /\ te_gw a = te_gw b /\ te_gh a = te_gh b /\
  length (te_grid a) = length (te_grid b) /\ length (te_zs a) = length (te_zs b).

Lemma shape_refl : forall a, shape a a.
Proof. unfold shape; tauto. Qed.
Lemma shape_sym : forall a b, shape a b -> shape b a.
Proof. unfold shape; intuition congruence. Qed.
Lemma shape_trans : forall a b c, shape a b -> shape b c -> shape a c.
Proof. unfold shape; intuition congruence. Qed.

Lemma shape_wf : forall a b, shape a b -> well_formed a -> well_formed b.
Proof. unfold shape, well_formed; intuition congruence. Qed.

Lemma shape_valid : forall a b j, shape a b -> valid a j -> valid b j.
Proof. unfold shape, valid. intuition congruence. Qed.

Lemma shape_set : forall a j t, shape a (set_tile a j t).
Proof. intros. unfold shape, set_tile. cbn. rewrite set_nth_length. tauto. Qed.

Lemma index_inj : forall te i j, valid te i -> valid te j -> tile_index te i = tile_index te j -> i = j.
Proof.
  clear tj.
  intros te [x y] [x' y'] [A B] [C D] E. unfold tile_index in E. cbn [fst snd] in *.
  assert (0 <= y * te_gw te) by (apply Z.mul_nonneg_nonneg; lia).
  assert (0 <= y' * te_gw te) by (apply Z.mul_nonneg_nonneg; lia).
  assert (E' : x + y * te_gw te = x' + y' * te_gw te) by lia.
  assert (y = y').
  { rewrite <- (Z.div_small x (te_gw te)) in B by lia.
    replace y with ((x + y * te_gw te) / te_gw te) by (rewrite Z.div_add, (Z.div_small x) by lia; lia).
    rewrite E', Z.div_add, (Z.div_small x') by lia. lia. }
  subst y'. f_equal. lia.
Qed.

Lemma index_range : forall te j, well_formed te -> valid te j -> (tile_index te j < length (te_grid te))%nat.
Proof.
  clear tj.
  intros te [x y] [_ [_ [G _]]] [A B]. unfold tile_index. cbn [fst snd] in *.
  assert (0 <= y * te_gw te) by (apply Z.mul_nonneg_nonneg; lia).
  assert (y * te_gw te <= (te_gh te - 1) * te_gw te) by (apply Z.mul_le_mono_nonneg_r; lia). lia.
Qed.

Lemma get_set_same : forall te j t, well_formed te -> valid te j -> get_tile (set_tile te j t) j = Ok t.
Proof.
  clear tj.
  intros te j t W V. unfold get_tile, set_tile, tile_index. cbn [te_grid te_gw].
  rewrite set_nth_same; [reflexivity|]. apply (index_range te j W V).
Qed.

Lemma get_set_other : forall te i j t, valid te i -> valid te j -> i <> j ->
  get_tile (set_tile te i t) j = get_tile te j.
Proof.
  clear tj.
  intros te i j t Vi Vj D. unfold get_tile, set_tile, tile_index. cbn [te_grid te_gw].
  rewrite set_nth_other; [reflexivity|]. intros E. apply D. apply (index_inj te); assumption.
Qed.

Lemma get_total : forall te j, well_formed te -> valid te j -> exists t, get_tile te j = Ok t.
Proof.
  clear tj.
  intros te j W V. unfold get_tile. destruct (nth_error _ _) eqn:E; [eauto|].
  apply nth_error_None in E. pose proof (index_range te j W V). lia.
Qed.

(** Damage. *)
Lemma damage_loop_ok : forall damage jobs te n, well_formed te -> NoDup jobs -> Forall (valid te) jobs ->
  exists te', damage_loop jobs te damage n = Ok (te', n + Z.of_nat (length (filter (fun j => overlaps damage (tile_box j)) jobs)))
    /\ shape te te' /\ te_zs te' = te_zs te /\
    (forall j, valid te j -> ~ In j jobs -> get_tile te' j = get_tile te j) /\
    (forall j, In j jobs -> exists t, get_tile te' j = Ok t /\
       tt_state t = if overlaps damage (tile_box j) then Damaged else Ready).
Proof.
  clear tj.
  intros damage. induction jobs as [|j jobs IH]; intros te n W N V; cbn [damage_loop filter].
  - exists te. cbn [length]. rewrite Z.add_0_r. repeat split; auto. intros j [].
  - inversion N as [|? ? N1 N2]; subst. inversion V as [|? ? V1 V2]; subst.
    destruct (get_total te j W V1) as [t Gt]. rewrite Gt. cbn [bind].
    set (st := if overlaps damage (tile_box j) then Damaged else Ready).
    set (te1 := set_tile te j (mk_tt st (tt_type t) (tt_buf t))).
    set (n1 := if overlaps damage (tile_box j) then n + 1 else n).
    assert (E : (if overlaps damage (tile_box j)
        then damage_loop jobs (set_tile te j (mk_tt Damaged (tt_type t) (tt_buf t))) damage (n + 1)
        else damage_loop jobs (set_tile te j (mk_tt Ready (tt_type t) (tt_buf t))) damage n)
        = damage_loop jobs te1 damage n1).
    { unfold te1, n1, st. destruct (overlaps _ _); reflexivity. }
    rewrite E. clear E.
    assert (S1 : shape te te1) by apply shape_set.
    destruct (IH te1 n1) as [te' [E [S2 [Z2 [O2 I2]]]]].
    + apply (shape_wf te); assumption.
    + exact N2.
    + eapply Forall_impl; [|exact V2]. intros i. apply shape_valid. exact S1.
    + exists te'. split; [rewrite E; f_equal; f_equal; unfold n1; destruct (overlaps _ _); cbn [length]; lia|].
      split; [eapply shape_trans; eassumption|]. split; [rewrite Z2; reflexivity|]. split.
      * intros i Vi Ni. rewrite O2; [|apply (shape_valid te); assumption|intros I; apply Ni; right; exact I].
        apply get_set_other; [exact V1|exact Vi|]. intros ->. apply Ni. left. reflexivity.
      * intros i [<-|Ii]; [|apply I2; exact Ii].
        exists (mk_tt st (tt_type t) (tt_buf t)). split; [|reflexivity].
        rewrite O2; [|apply (shape_valid te); assumption|exact N1].
        apply get_set_same; assumption.
Qed.

(** One worker's step. *)
Lemma enc_tile_shape : forall f a j a', enc_tile f a j = Ok a' -> shape a a'.
Proof.
  intros f a j a' H. unfold tight_encode_tile in H. cbv zeta in H.
  destruct (negb have_jpeg || _).
  - destruct (nth_error _ _) as [zs|]; [|discriminate].
    destruct (encode_tile_basic _ _ _ _ _ _ _ _) as [r|]; cbn [bind] in H; [|discriminate].
    injection H as <-. unfold shape, set_tile. cbn. rewrite !set_nth_length. tauto.
  - destruct (encode_tile_jpeg _ _ _ _ _ _) as [r|]; cbn [bind] in H; [|discriminate].
    injection H as <-. apply shape_set.
Qed.

Lemma work_on_shape : forall f a j a', work_on f a j = Ok a' -> shape a a'.
Proof.
  intros f a j a' H. unfold Tight_Model.work_on in H.
  destruct (get_tile a j) as [t|]; cbn [bind] in H; [|discriminate].
  destruct (tt_state t); try (injection H as <-; apply shape_refl). eapply enc_tile_shape; exact H.
Qed.

Lemma work_shape : forall f l a a', work f a l = Ok a' -> shape a a'.
Proof.
  induction l as [|j l IH]; intros a a' H; cbn [Tight_Model.work] in H; [injection H as <-; apply shape_refl|].
  destruct (work_on f a j) as [b|] eqn:E; cbn [bind] in H; [|discriminate].
  eapply shape_trans; [eapply work_on_shape; exact E|apply IH; exact H].
Qed.

(** The part of the state that belongs to worker [i]. *)
Definition part_eq (i : Z) (a b : tenc) : Prop :=
  shape a b /\ nth_error (te_zs a) (Z.to_nat i) = nth_error (te_zs b) (Z.to_nat i) /\
  forall j, valid a j -> fst j mod 4 = i -> get_tile a j = get_tile b j.

Lemma part_refl : forall i a, part_eq i a a.
Proof. intros. split; [apply shape_refl|]. auto. Qed.

Lemma part_sym : forall i a b, part_eq i a b -> part_eq i b a.
Proof.
  intros i a b [S [Z T]]. split; [apply shape_sym; exact S|]. split; [auto|].
  intros j V M. symmetry. apply T; [|exact M]. apply (shape_valid b); [apply shape_sym|]; assumption.
Qed.

Lemma part_trans : forall i a b c, part_eq i a b -> part_eq i b c -> part_eq i a c.
Proof.
  intros i a b c [S [Z T]] [S' [Z' T']]. split; [eapply shape_trans; eassumption|]. split; [congruence|].
  intros j V M. rewrite (T j V M). apply T'; [|exact M]. apply (shape_valid a); assumption.
Qed.

Lemma step_mine : forall f i a b j a', well_formed a -> valid a j -> fst j mod 4 = i -> part_eq i a b ->
  work_on f a j = Ok a' -> exists b', work_on f b j = Ok b' /\ part_eq i a' b'.
Proof.
  intros f i a b j a' W V M P H. pose proof P as [S [Z T]].
  pose proof (shape_valid _ _ _ S V) as Vb. pose proof (shape_wf _ _ S W) as Wb.
  unfold Tight_Model.work_on in *. rewrite <- (T j V M).
  destruct (get_tile a j) as [t|]; cbn [bind] in *; [|discriminate].
  destruct (tt_state t); try (injection H as <-; eauto).
  pose proof S as [Sw [Sh [Sgw [Sgh [Sg Sz]]]]].
  unfold tight_encode_tile, tight_tile_width, tight_tile_height in *. cbv zeta in *.
  rewrite <- Sw, <- Sh. destruct (negb have_jpeg || _).
  - rewrite M in *. rewrite <- Z.
    destruct (nth_error (te_zs a) _) as [zs|] eqn:En; [|discriminate].
    destruct (encode_tile_basic _ _ _ _ _ _ _ _) as [r|]; cbn [bind] in *; [|discriminate].
    apply ok_inj in H as <-. eexists. split; [reflexivity|].
    assert (Na : (Z.to_nat i < length (te_zs a))%nat) by (apply nth_error_Some; congruence).
    rewrite <- Sgw, <- Sgh.
    split; [|split].
    + unfold shape, set_tile. cbn. rewrite !set_nth_length. tauto.
    + cbn [te_zs set_tile]. rewrite !set_nth_same by lia. reflexivity.
    + intros k Vk Mk. unfold valid in Vk. cbn [te_gw te_gh set_tile] in Vk.
      specialize (T k Vk Mk). unfold get_tile, set_tile, tile_index in *. cbn [te_grid te_gw] in *.
      rewrite <- Sgw in T.
      destruct (Nat.eq_dec (Z.to_nat (fst j + snd j * te_gw a)) (Z.to_nat (fst k + snd k * te_gw a))) as [E|E].
      * rewrite <- E. rewrite !set_nth_same; [reflexivity| |]; pose proof (index_range a j W V); unfold tile_index in *; lia.
      * rewrite !set_nth_other by exact E. exact T.
  - destruct (encode_tile_jpeg _ _ _ _ _ _) as [r|]; cbn [bind] in *; [|discriminate].
    apply ok_inj in H as <-. eexists. split; [reflexivity|]. split; [|split].
    + eapply shape_trans; [apply shape_sym, shape_set|]. eapply shape_trans; [exact S|apply shape_set].
    + exact Z.
    + intros k Vk Mk. unfold valid in Vk. cbn [te_gw te_gh set_tile] in Vk.
      destruct (Nat.eq_dec (tile_index a j) (tile_index a k)) as [E|E].
      * apply index_inj in E; [|assumption|assumption]. subst k. rewrite !get_set_same by assumption. reflexivity.
      * assert (j <> k) by congruence. rewrite !get_set_other; try assumption.
        -- apply T; assumption.
        -- apply (shape_valid a); assumption.
Qed.

Lemma step_other : forall f i a j a', well_formed a -> valid a j -> 0 <= i -> fst j mod 4 <> i ->
  work_on f a j = Ok a' -> part_eq i a' a.
Proof.
  intros f i a j a' W V I M H. pose proof (work_on_shape _ _ _ _ H) as S.
  unfold Tight_Model.work_on in H. destruct (get_tile a j) as [t|]; cbn [bind] in H; [|discriminate].
  destruct (tt_state t); try (injection H as <-; apply part_refl).
  unfold tight_encode_tile in H. cbv zeta in H.
  pose proof (Z.mod_pos_bound (fst j) 4 ltac:(lia)) as B.
  destruct (negb have_jpeg || _).
  - destruct (nth_error (te_zs a) _) as [zs|] eqn:En; [|discriminate].
    destruct (encode_tile_basic _ _ _ _ _ _ _ _) as [r|]; cbn [bind] in *; [|discriminate].
    apply ok_inj in H as <-. split; [apply shape_sym; exact S|]. split.
    + cbn [te_zs set_tile]. apply set_nth_other. lia.
    + intros k Vk Mk. unfold valid in Vk. cbn [te_gw te_gh set_tile] in Vk.
      unfold get_tile, set_tile, tile_index. cbn [te_grid te_gw]. rewrite set_nth_other; [reflexivity|].
      intros E. apply (index_inj a j k V Vk) in E. congruence.
  - destruct (encode_tile_jpeg _ _ _ _ _ _) as [r|]; cbn [bind] in *; [|discriminate].
    apply ok_inj in H as <-. split; [apply shape_sym; exact S|]. split; [reflexivity|].
    intros k Vk Mk. unfold valid in Vk. cbn [te_gw te_gh set_tile] in Vk.
    apply get_set_other; [exact V|exact Vk|congruence].
Qed.

Lemma work_part : forall f i l a b a', 0 <= i -> well_formed a -> Forall (valid a) l -> part_eq i a b ->
  work f a l = Ok a' -> exists b', work f b (filter (colmod i) l) = Ok b' /\ part_eq i a' b'.
Proof.
  induction l as [|j l IH]; intros a b a' I W V P H; cbn [Tight_Model.work filter] in *.
  - injection H as <-. eauto.
  - destruct (work_on f a j) as [a1|] eqn:E; cbn [bind] in H; [|discriminate].
    inversion V as [|? ? V1 V2]; subst. pose proof (work_on_shape _ _ _ _ E) as S.
    assert (W1 : well_formed a1) by (apply (shape_wf a); assumption).
    assert (V3 : Forall (valid a1) l) by (eapply Forall_impl; [|exact V2]; intros k; apply shape_valid; exact S).
    destruct (colmod i j) eqn:C; unfold colmod in C.
    + destruct (step_mine f i a b j a1 W V1 ltac:(lia) P E) as [b1 [E1 P1]].
      cbn [Tight_Model.work]. rewrite E1. cbn [bind]. apply (IH a1); assumption.
    + apply (IH a1); try assumption. eapply part_trans; [|exact P].
      apply (step_other f i a j); try assumption. lia.
Qed.

Lemma work_from_parts : forall f l a, well_formed a -> Forall (valid a) l ->
  (forall i, 0 <= i < 4 -> exists b b', part_eq i a b /\ work f b (filter (colmod i) l) = Ok b') ->
  exists a', work f a l = Ok a'.
Proof.
  induction l as [|j l IH]; intros a W V H; cbn [Tight_Model.work]; [eauto|].
  inversion V as [|? ? V1 V2]; subst.
  pose proof (Z.mod_pos_bound (fst j) 4 ltac:(lia)) as B.
  destruct (H (fst j mod 4) B) as [b [b' [P E]]]. cbn [filter] in E.
  unfold colmod in E at 1. rewrite Z.eqb_refl in E. cbn [Tight_Model.work] in E.
  destruct (work_on f b j) as [b1|] eqn:E1; cbn [bind] in E; [|discriminate].
  assert (Vb : valid b j) by (apply (shape_valid a); [apply P|exact V1]).
  assert (Wb : well_formed b) by (apply (shape_wf a); [apply P|exact W]).
  destruct (step_mine f _ b a j b1 Wb Vb eq_refl (part_sym _ _ _ P) E1) as [a1 [Ea P1]].
  rewrite Ea. cbn [bind]. pose proof (work_on_shape _ _ _ _ Ea) as S.
  apply IH; [apply (shape_wf a); assumption| |].
  - eapply Forall_impl; [|exact V2]. intros k. apply shape_valid. exact S.
  - intros i Hi. destruct (Z.eq_dec i (fst j mod 4)) as [->|D].
    + exists b1, b'. split; [apply part_sym; exact P1|exact E].
    + destruct (H i Hi) as [c [c' [Pc Ec]]]. exists c, c'. split.
      * eapply part_trans; [|exact Pc]. apply (step_other f i a j); try assumption; lia.
      * cbn [filter] in Ec. unfold colmod in Ec at 1.
        replace (fst j mod 4 =? i) with false in Ec by lia. exact Ec.
Qed.

Lemma parts_all : forall a b, well_formed a -> (forall i, 0 <= i < 4 -> part_eq i a b) -> a = b.
Proof.
  clear tj.
  intros a b W P. pose proof (P 0 ltac:(lia)) as [[Sw [Sh [Sgw [Sgh [Sg Sz]]]]] _].
  assert (Eg : te_grid a = te_grid b).
  { apply nth_error_ext; [exact Sg|]. intros n N. pose proof W as [Wg [Wh [Wl Wz]]].
    assert (Gn : 0 <= te_gw a) by (rewrite Wg; unfold UDIV_UP; apply Z.div_pos; lia).
    assert (Gp : 0 < te_gw a) by (destruct (Z.eq_dec (te_gw a) 0) as [E|]; [rewrite E in Wl; lia|lia]).
    set (j := (Z.of_nat n mod te_gw a, Z.of_nat n / te_gw a)).
    assert (V : valid a j).
    { unfold valid, j. cbn [fst snd]. split; [apply Z.mod_pos_bound; lia|].
      split; [apply Z.div_pos; lia|]. apply Z.div_lt_upper_bound; lia. }
    assert (I : tile_index a j = n).
    { unfold tile_index, j. cbn [fst snd]. pose proof (Z.div_mod (Z.of_nat n) (te_gw a) ltac:(lia)). lia. }
    destruct (P (fst j mod 4) ltac:(apply Z.mod_pos_bound; lia)) as [S [_ T]].
    specialize (T j V eq_refl). unfold get_tile in T.
    assert (I' : tile_index b j = n) by (unfold tile_index in *; rewrite <- Sgw; exact I).
    rewrite I, I' in T. destruct (nth_error (te_grid a) n), (nth_error (te_grid b) n); congruence. }
  assert (Ez : te_zs a = te_zs b).
  { apply nth_error_ext; [exact Sz|]. intros n N. destruct W as [_ [_ [_ Wz]]].
    destruct (P (Z.of_nat n) ltac:(lia)) as [_ [T _]]. rewrite Nat2Z.id in T. exact T. }
  destruct a, b. cbn in *. congruence.
Qed.

Lemma work_order : forall f l l' a a', well_formed a -> Forall (valid a) l -> Forall (valid a) l' ->
  (forall i, 0 <= i < 4 -> filter (colmod i) l = filter (colmod i) l') ->
  work f a l = Ok a' -> work f a l' = Ok a'.
Proof.
  intros f l l' a a' W V V' F H.
  assert (P : forall i, 0 <= i < 4 -> exists b, work f a (filter (colmod i) l') = Ok b /\ part_eq i a' b).
  { intros i Hi. destruct (work_part f i l a a a' ltac:(lia) W V (part_refl i a) H) as [b [E P]].
    rewrite F in E by exact Hi. eauto. }
  destruct (work_from_parts f l' a W V') as [a2 E2].
  { intros i Hi. destruct (P i Hi) as [b [E _]]. exists a, b. split; [apply part_refl|exact E]. }
  rewrite E2. f_equal. symmetry. apply parts_all; [apply (shape_wf a); [eapply work_shape; exact H|exact W]|].
  intros i Hi. destruct (P i Hi) as [b [E Pb]].
  destruct (work_part f i l' a a a2 ltac:(lia) W V' (part_refl i a) E2) as [b2 [E3 P3]].
  assert (b = b2) by congruence. subst. eapply part_trans; [exact Pb|apply part_sym; exact P3].
Qed.
End T.
