From Coq Require Import String Permutation Sorted.
From Verif Require Import Common CommonProofs Pixels_Model Probe_Model Probe_Spec.
Open Scope string_scope.
Open Scope list_scope.
Open Scope Z_scope.

Lemma bind_ok A B (e : res A) (k : A -> res B) b : bind e k = Ok b -> exists a, e = Ok a /\ k a = Ok b.
Proof. destruct e; cbn; [eauto|discriminate]. Qed.
Lemma ok_inj A (a b : A) : Ok a = Ok b -> a = b.
Proof. congruence. Qed.

Lemma same_eq a : forall b, same a b = true <-> a = b.
Proof.
  induction a as [|x a IH]; intros [|y b]; cbn [same]; try (split; [discriminate|congruence]); [split; reflexivity|].
  rewrite andb_true_iff, Z.eqb_eq, IH. split; [intros [-> ->]; reflexivity|intros [= -> ->]; auto].
Qed.

(** * Sorting and searching *)
Lemma insert_perm v l : Permutation (insert v l) (v :: l).
Proof.
  induction l as [|a l IH]; cbn [insert]; [reflexivity|]. destruct (v <=? a); [reflexivity|].
  rewrite IH. apply perm_swap.
Qed.
Lemma sort_perm l : Permutation (sort l) l.
Proof. induction l as [|a l IH]; [reflexivity|]. cbn [sort fold_right]. fold (sort l). rewrite insert_perm. now apply perm_skip. Qed.

Definition ascending (l : list Z) : Prop := forall i j, (i <= j < length l)%nat -> nth i l 0 <= nth j l 0.

Lemma ascending_cons a l : (forall x, In x l -> a <= x) -> ascending l -> ascending (a :: l).
Proof.
  intros H A i j [I0 J]. destruct i as [|i], j as [|j]; cbn [nth length] in *; [lia| |lia|apply A; lia].
  apply H, nth_In. lia.
Qed.
Lemma ascending_inv a l : ascending (a :: l) -> (forall x, In x l -> a <= x) /\ ascending l.
Proof.
  intros A. split.
  - intros x X. apply (In_nth _ _ 0) in X as (j & J & <-). apply (A 0%nat (S j)). cbn [length]. lia.
  - intros i j J. apply (A (S i) (S j)). cbn [length]. lia.
Qed.
Lemma insert_ascending v l : ascending l -> ascending (insert v l).
Proof.
  induction l as [|a l IH]; intros A; cbn [insert].
  - apply ascending_cons; [intros x []|intros i j; cbn; lia].
  - apply ascending_inv in A as [H A]. destruct (Z.leb_spec v a) as [L|L].
    + apply ascending_cons; [|apply ascending_cons; assumption]. intros x [<-|X]; [exact L|]. specialize (H x X). lia.
    + apply ascending_cons; [|apply IH, A]. intros x X. apply (Permutation_in _ (insert_perm v l)) in X as [<-|X]; [lia|auto].
Qed.
Lemma sort_ascending l : ascending (sort l).
Proof. induction l as [|a l IH]; [intros i j; cbn; lia|]. apply insert_ascending, IH. Qed.

Lemma search_right l v : ascending l -> forall fuel lo hi, (hi - lo < fuel)%nat -> (hi <= length l)%nat ->
  search fuel l lo hi v = true <-> exists i, (lo <= i < hi)%nat /\ nth i l 0 = v.
Proof.
  intros A. induction fuel as [|fuel IH]; intros lo hi F H; [lia|]. cbn [search].
  destruct (Nat.leb_spec hi lo) as [L|L]; [split; [discriminate|intros (i & I0 & _); lia]|].
  set (mid := ((lo + hi) / 2)%nat).
  assert (M : (lo <= mid < hi)%nat).
  { subst mid. split; [apply Nat.div_le_lower_bound; lia|apply Nat.div_lt_upper_bound; lia]. }
  clearbody mid. cbv zeta. destruct (Z.ltb_spec v (nth mid l 0)) as [V|V].
  - rewrite IH by lia. split; intros (i & I0 & E); exists i; (split; [|exact E]); [lia|].
    destruct (le_lt_dec mid i); [|lia]. specialize (A mid i ltac:(lia)). lia.
  - destruct (Z.ltb_spec (nth mid l 0) v) as [W|W].
    + rewrite IH by lia. split; intros (i & I0 & E); exists i; (split; [|exact E]); [lia|].
      destruct (le_lt_dec i mid); [|lia]. specialize (A i mid ltac:(lia)). lia.
    + split; [intros _; exists mid; split; [exact M|lia]|reflexivity].
Qed.

Lemma have_right l v : ascending l -> have_v4l2_format l v = true <-> In v l.
Proof.
  intros A. unfold have_v4l2_format. rewrite search_right by (auto; lia). split.
  - intros (i & I0 & <-). apply nth_In. lia.
  - intros I0. apply (In_nth _ _ 0) in I0 as (i & I0 & E). exists i. split; [lia|exact E].
Qed.
Lemma have_sorted l v : have_v4l2_format (sort l) v = true <-> In v l.
Proof.
  rewrite have_right by apply sort_ascending. split; apply Permutation_in; [|symmetry]; apply sort_perm.
Qed.

Lemma fill_ok : forall l i, Z.of_nat (length l) + i <= 256 -> fill i l = Ok l.
Proof.
  induction l as [|f l IH]; intros i L; [reflexivity|]. cbn [fill length] in *. destruct (Z.leb_spec 256 i); [lia|].
  rewrite IH by lia. reflexivity.
Qed.
Lemma fill_is : forall l i r, fill i l = Ok r -> r = l.
Proof.
  induction l as [|f l IH]; intros i r; cbn [fill]; [intros [= <-]; reflexivity|].
  destruct (_ <=? _); [discriminate|]. intros H. apply bind_ok in H as (s & H & H2). injection H2 as <-. f_equal. eauto.
Qed.
Lemma fill_over : forall l i, 0 <= i <= 256 -> 256 < Z.of_nat (length l) + i -> fill i l = Fault OobWrite.
Proof.
  induction l as [|f l IH]; intros i B L; [cbn in L; lia|]. cbn [fill length] in *. destruct (Z.leb_spec 256 i); [reflexivity|].
  rewrite IH by lia. reflexivity.
Qed.

Lemma try_some l t : try_formats (sort l) t <> 0 -> In (try_formats (sort l) t) t /\ In (try_formats (sort l) t) l.
Proof.
  induction t as [|f t IH]; cbn [try_formats]; [congruence|]. destruct (have_v4l2_format (sort l) f) eqn:H.
  - intros _. apply have_sorted in H. split; [left; reflexivity|exact H].
  - intros N. destruct (IH N). split; [right|]; assumption.
Qed.
Lemma try_found l t f : In f t -> In f l -> ~ In 0 t -> try_formats (sort l) t <> 0.
Proof.
  induction t as [|g t IH]; [intros []|]. cbn [try_formats]. intros I0 L Z0.
  destruct (have_v4l2_format (sort l) g) eqn:H; [intros ->; apply Z0; left; reflexivity|].
  destruct I0 as [->|I0]; [apply have_sorted in L; congruence|]. apply IH; auto. intros X. apply Z0. right. exact X.
Qed.

Lemma from_drm l drm : v4l2_format_from_drm l drm = try_formats l (tries drm).
Proof.
  unfold v4l2_format_from_drm, tries. cbn [existsb]. rewrite !orb_false_r.
  destruct (_ || _); [reflexivity|]. destruct (_ || _); [reflexivity|]. destruct (_ || _); [reflexivity|].
  destruct (_ || _); reflexivity.
Qed.
Lemma tries_no_zero drm : ~ In 0 (tries drm).
Proof.
  unfold tries. intros H.
  repeat match type of H with In _ (if ?b then _ else _) => destruct b end;
  cbn [In] in H; repeat (destruct H as [H|H]; [vm_compute in H; discriminate H|]); exact H.
Qed.

Lemma src_format d w h drm l : set_src_fmt d w h drm = Ok (true, l) ->
  exists f, l = [SrcFormat f (align16 w) (align16 h)] /\ f <> 0 /\ (ordinary d -> In f (tries drm) /\ In f (d_out d)) /\
    (~ ordinary d -> f = v4l2_format_from_drm_bcm2835 drm).
Proof.
  unfold set_src_fmt, get_supported_formats. intros H. apply bind_ok in H as (fs & H & H2).
  apply bind_ok in H as (o & H & H1). apply ok_inj in H1. apply fill_is in H. subst o fs.
  destruct (_ =? 0) eqn:N in H2; [discriminate|]. apply Z.eqb_neq in N.
  destruct (negb _) in H2; [discriminate|]. destruct (negb _) in H2; [discriminate|].
  injection H2 as <-. eexists. split; [reflexivity|]. split; [exact N|]. rewrite from_drm in *.
  split.
  - intros OD. destruct (is_bcm2835 d) eqn:B; [|apply try_some in N; tauto].
    apply same_eq in B. contradiction.
  - intros OD. destruct (is_bcm2835 d) eqn:B; [reflexivity|]. exfalso. apply OD. intros X. apply same_eq in X.
    unfold is_bcm2835 in B. congruence.
Qed.

(** * Devices *)
Lemma caps_right caps : (Z.land caps required_caps =? required_caps) = true <-> Z.testbit caps 14 = true /\ Z.testbit caps 26 = true.
Proof.
  rewrite Z.eqb_eq. split.
  - intros H. assert (T : forall n, Z.testbit (Z.land caps required_caps) n = Z.testbit required_caps n) by (intros n; rewrite H; reflexivity).
    split; [specialize (T 14)|specialize (T 26)]; rewrite Z.land_spec in T; vm_compute (Z.testbit required_caps _) in T; rewrite andb_true_r in T; exact T.
  - intros [A B]. apply Z.bits_inj'. intros n N. rewrite Z.land_spec.
    change required_caps with (Z.lor (2 ^ 14) (2 ^ 26)). rewrite Z.lor_spec, !Z.pow2_bits_eqb by lia.
    destruct (Z.eqb_spec 14 n) as [<-|]; [rewrite A; reflexivity|]. destruct (Z.eqb_spec 26 n) as [<-|]; [rewrite B; reflexivity|].
    apply andb_false_r.
Qed.

Lemma size_right w h : forall l b, can_handle_frame_size l w h = Ok b -> (b = true <-> exists s, In s l /\ takes_size s w h).
Proof.
  induction l as [|s l IH]; intros b; cbn [can_handle_frame_size].
  { intros [= <-]. split; [discriminate|intros (s & [] & _)]. }
  assert (SKIP : ~ takes_size s w h -> can_handle_frame_size l w h = Ok b -> (b = true <-> exists s0, In s0 (s :: l) /\ takes_size s0 w h)).
  { intros N H. rewrite (IH b H). split; intros (s0 & I0 & T); exists s0; (split; [|exact T]); [right; exact I0|].
    destruct I0 as [<-|I0]; [contradiction|exact I0]. }
  assert (TAKE : takes_size s w h -> Ok true = Ok b -> (b = true <-> exists s0, In s0 (s :: l) /\ takes_size s0 w h)).
  { intros T [= <-]. split; [|reflexivity]. intros _. exists s. split; [left; reflexivity|exact T]. }
  destruct s as [a c|a c st e f su|]; cbn [takes_size] in *.
  - destruct (_ && _) eqn:C; [apply TAKE|apply SKIP]; lia.
  - destruct ((a <=? w) && (w <=? c) && (e <=? h) && (h <=? f)) eqn:C; [|apply SKIP; lia].
    destruct (Z.eqb_spec st 0) as [|S0]; [discriminate|].
    destruct (Z.eqb_spec (16 mod st) 0) as [M|M].
    + destruct (Z.eqb_spec su 0) as [|S1]; [discriminate|].
      destruct (Z.eqb_spec (16 mod su) 0) as [M1|M1].
      * apply TAKE. apply Z.mod_divide in M; [|exact S0]. apply Z.mod_divide in M1; [|exact S1]. split; [lia|]. split; [lia|]. auto.
      * apply SKIP. intros (_ & _ & _ & D). apply M1. apply Z.mod_divide; assumption.
    + apply SKIP. intros (_ & _ & D & _). apply M. apply Z.mod_divide; assumption.
  - apply SKIP. auto.
Qed.
Lemma size_total w h : forall l, (forall a b s c e t, In (Stepwise a b s c e t) l -> s <> 0 /\ t <> 0) ->
  exists b, can_handle_frame_size l w h = Ok b.
Proof.
  induction l as [|s l IH]; intros G; cbn [can_handle_frame_size]; [eauto|].
  assert (I0 : exists b, can_handle_frame_size l w h = Ok b) by (apply IH; intros; apply (G a b s0 c e t); right; assumption).
  destruct s as [a c|a c st e f su|]; [destruct (_ && _); eauto| |exact I0].
  destruct (G a c st e f su (or_introl eq_refl)) as [S0 S1].
  destruct (_ && _ && _ && _); [|exact I0].
  destruct (Z.eqb_spec st 0); [contradiction|]. destruct (_ =? 0); [|exact I0].
  destruct (Z.eqb_spec su 0); [contradiction|]. destruct (_ =? 0); eauto.
Qed.

Lemma capable_right d w h b : is_device_capable d w h = Ok b -> (b = true <-> capable d w h).
Proof.
  unfold is_device_capable, capable. destruct (d_caps d) as [caps|].
  2: { intros [= <-]. split; [discriminate|intros ((? & [=] & _) & _)]. }
  destruct (Z.land caps required_caps =? required_caps) eqn:C; cbn [negb].
  2: { intros [= <-]. split; [discriminate|]. intros ((k & [= <-] & K) & _). apply caps_right in K. congruence. }
  apply caps_right in C. unfold can_encode_to_h264. destruct (existsb _ _) eqn:E; cbn [negb].
  2: { intros [= <-]. split; [discriminate|]. intros (_ & K & _). assert (X : existsb (Z.eqb V4L2_H264) (d_capture d) = true); [|congruence].
       apply existsb_exists. exists (fourcc "H264"). split; [exact K|apply Z.eqb_refl]. }
  apply existsb_exists in E as (x & X & E). apply Z.eqb_eq in E. subst x.
  intros H. rewrite (size_right w h _ _ H). split; [intros S0; split; [eauto|]; split; [exact X|exact S0]|tauto].
Qed.
Lemma capable_total d w h : steps_given d -> exists b, is_device_capable d w h = Ok b.
Proof.
  intros G. unfold is_device_capable. destruct (d_caps d); [|eauto]. destruct (negb _); [eauto|]. destruct (negb _); [eauto|].
  apply size_total. exact G.
Qed.

Lemma video_name e : same (firstn 5 (e_name e)) (codes "video") = true <-> exists rest, e_name e = codes "video" ++ rest.
Proof.
  rewrite same_eq. split.
  - intros H. exists (skipn 5 (e_name e)). rewrite <- H. symmetry. apply firstn_skipn.
  - intros [rest ->]. reflexivity.
Qed.

Lemma files_app l m : files (l ++ m) = fold_left (fun open e => match e with
    | Opened fd => fd :: open | Closed fd => remove_one fd open | _ => open end) m (files l).
Proof. apply fold_left_app. Qed.

Definition quiet (l : list event) : Prop := Forall (fun e => match e with Opened _ | Closed _ => False | _ => True end) l.
Lemma files_quiet m : forall o, quiet m -> fold_left (fun open e => match e with
    | Opened fd => fd :: open | Closed fd => remove_one fd open | _ => open end) m o = o.
Proof. induction m as [|e m IH]; intros o Q; [reflexivity|]. inversion Q; subst. cbn [fold_left]. destruct e; try contradiction; auto. Qed.
Lemma files_more l m : quiet m -> files (l ++ m) = files l.
Proof. intros Q. rewrite files_app. apply files_quiet, Q. Qed.
Lemma files_close l fd : files l = [fd] -> files (l ++ [Closed fd]) = [].
Proof. intros H. rewrite files_app, H. cbn. rewrite Z.eqb_refl. reflexivity. Qed.

Definition unmapped (l : list event) : Prop := Forall (fun e => match e with Mapped _ | Unmapped _ => False | _ => True end) l.
Lemma mappings_none m : forall o, unmapped m -> fold_left (fun open e => match e with
    | Mapped i => i :: open | Unmapped i => remove_one i open | _ => open end) m o = o.
Proof. induction m as [|e m IH]; intros o Q; [reflexivity|]. inversion Q; subst. cbn [fold_left]. destruct e; try contradiction; auto. Qed.

Lemma find_right w h : forall dev r l, find_capable_device dev w h = Ok (r, l) ->
  files l = (match r with Some (fd, _) => [fd] | None => [] end) /\ unmapped l /\
  match r with
  | Some (fd, d) => first_capable dev w h fd d
  | None => forall e fd d, In e dev -> video e fd d -> ~ capable d w h
  end.
Proof.
  induction dev as [|e dev IH]; intros r l; cbn [find_capable_device].
  { intros [= <- <-]. split; [reflexivity|]. split; [constructor|]. intros e fd d []. }
  assert (SKIP : (forall fd d, video e fd d -> ~ capable d w h) -> match r with
     | Some (fd, d) => first_capable dev w h fd d
     | None => forall e fd d, In e dev -> video e fd d -> ~ capable d w h end ->
     match r with
     | Some (fd, d) => first_capable (e :: dev) w h fd d
     | None => forall e0 fd d, In e0 (e :: dev) -> video e0 fd d -> ~ capable d w h end).
  { intros N K. destruct r as [[fd d]|].
    - destruct K as (pre & e1 & post & -> & V & C & F). exists (e :: pre), e1, post. split; [reflexivity|]. split; [exact V|]. split; [exact C|].
      intros e' fd' d' [<-|I0]; [apply N|apply F, I0].
    - intros e0 fd d [<-|I0]; [apply N|apply K, I0]. }
  destruct (same _ _) eqn:NM; cbn [negb].
  2: { intros H. apply IH in H as (A & B & C). split; [exact A|]. split; [exact B|]. apply SKIP; [|exact C].
       intros fd d [V _]. apply video_name in V. congruence. }
  destruct (e_open e) as [[fd d]|] eqn:O.
  2: { intros H. apply IH in H as (A & B & C). split; [exact A|]. split; [exact B|]. apply SKIP; [|exact C].
       intros fd d [_ V]. congruence. }
  intros H. apply bind_ok in H as (ok & K & H). apply capable_right in K. destruct ok.
  - injection H as <- <-. split; [reflexivity|]. split; [repeat constructor|].
    exists [], e, dev. split; [reflexivity|]. split; [split; [apply video_name, NM|exact O]|]. split; [apply K; reflexivity|]. intros e' fd' d' [].
  - apply bind_ok in H as ([r0 l0] & H & H2). cbn [fst snd] in H2. injection H2 as -> <-.
    apply IH in H as (A & B & C). split; [|split].
    + unfold files in *. cbn [fold_left remove_one]. rewrite Z.eqb_refl. exact A.
    + apply Forall_cons; [exact I|]. apply Forall_cons; [exact I|]. exact B.
    + apply SKIP; [|exact C]. intros fd' d' [_ V] X. rewrite O in V. injection V as <- <-. apply K in X. discriminate.
Qed.

Lemma find_total w h : forall dev, (forall e fd d, In e dev -> video e fd d -> steps_given d) ->
  exists r l, find_capable_device dev w h = Ok (r, l).
Proof.
  induction dev as [|e dev IH]; intros G; cbn [find_capable_device]; [eauto|].
  destruct IH as (r & l & E); [intros; eapply G; [right|]; eassumption|].
  destruct (same _ _) eqn:NM; cbn [negb]; [|eauto]. destruct (e_open e) as [[fd d]|] eqn:O; [|eauto].
  destruct (capable_total d w h) as [b B].
  { apply (G e fd d); [left; reflexivity|]. split; [apply video_name, NM|exact O]. }
  rewrite B. cbn [bind]. destruct b; [eauto|]. rewrite E. cbn [bind]. eauto.
Qed.

(** * Buffers *)
Definition upto (n : nat) (i : Z) : list Z := map (fun k => i + Z.of_nat k) (seq 0 n).

Lemma map_dst_events d : forall n i b l, map_dst d n i = Ok (b, l) ->
  quiet l /\ (b = true -> i + Z.of_nat n <= 3 \/ n = 0%nat) /\
  exists m, (m <= n)%nat /\ l = map Mapped (upto m i) /\ (b = true -> m = n).
Proof.
  induction n as [|n IH]; intros i b l; cbn [map_dst].
  { intros [= <- <-]. split; [constructor|]. split; [auto|]. exists 0%nat. auto. }
  destruct (Z.leb_spec 3 i); [discriminate|].
  assert (STOP : Ok (false, []) = Ok (b, l) -> quiet l /\ (b = true -> i + Z.of_nat (S n) <= 3 \/ S n = 0%nat) /\
    exists m, (m <= S n)%nat /\ l = map Mapped (upto m i) /\ (b = true -> m = S n)).
  { intros [= <- <-]. split; [constructor|]. split; [discriminate|]. exists 0%nat. split; [lia|]. split; [reflexivity|discriminate]. }
  destruct (negb _); [exact STOP|]. destruct (negb _); [exact STOP|]. clear STOP.
  intros K. apply bind_ok in K as ([b0 l0] & K & K2). cbn [fst snd] in K2. injection K2 as <- <-.
  apply IH in K as (Q & B & m & M & -> & E). split; [apply Forall_cons; [exact I|exact Q]|]. split.
  - intros X. left. destruct (B X) as [Y|Y]; lia.
  - exists (S m). split; [lia|]. split; [|intros X; rewrite (E X); reflexivity].
    unfold upto. cbn [seq map]. rewrite Z.add_0_r. f_equal. rewrite <- seq_shift, (map_map S). f_equal. apply map_ext. intros k. lia.
Qed.
Lemma map_dst_total d n : forall i, i + Z.of_nat n <= 3 -> exists r, map_dst d n i = Ok r.
Proof.
  induction n as [|n IH]; intros i L; cbn [map_dst]; [eauto|]. destruct (Z.leb_spec 3 i); [lia|].
  destruct (negb _); [eauto|]. destruct (negb _); [eauto|]. destruct (IH (i + 1)) as [r E]; [lia|]. rewrite E. cbn [bind]. eauto.
Qed.

Lemma enqueue_events d : forall n i l, enqueue_dst d n i = Ok l -> quiet l /\ unmapped l /\
  (n = 0%nat \/ exists k, d_dst_count d = Some k /\ i + Z.of_nat n <= k).
Proof.
  induction n as [|n IH]; intros i l; cbn [enqueue_dst]; [intros [= <-]; split; [constructor|]; split; [constructor|auto]|].
  destruct (d_dst_count d) as [k|] eqn:K; [|discriminate].
  destruct (Z.ltb_spec i k); cbn [andb]; [|discriminate]. destruct (d_qbuf d i); [|discriminate].
  intros E. apply bind_ok in E as (r & E & E2). injection E2 as <-. apply IH in E as (Q & U & C).
  split; [apply Forall_cons; [exact I|exact Q]|]. split; [apply Forall_cons; [exact I|exact U]|].
  right. exists k. split; [reflexivity|]. destruct C as [->|(k' & [= <-] & C)]; lia.
Qed.

(** * The whole *)
Lemma src_quiet d w h drm b l : set_src_fmt d w h drm = Ok (b, l) -> quiet l /\ unmapped l.
Proof.
  unfold set_src_fmt. intros H. apply bind_ok in H as (fs & H & H2).
  destruct (_ =? 0) in H2; [injection H2 as <- <-; split; constructor|].
  destruct (negb _) in H2; [injection H2 as <- <-; split; constructor|].
  destruct (negb _) in H2; injection H2 as <- <-; split; repeat constructor.
Qed.
Lemma dst_quiet d w h : quiet (snd (set_dst_fmt d w h)) /\ unmapped (snd (set_dst_fmt d w h)).
Proof. unfold set_dst_fmt. destruct (_ && _); split; repeat constructor. Qed.
Lemma quiet_app l m : quiet l -> quiet m -> quiet (l ++ m).
Proof. intros. apply Forall_app. auto. Qed.

Lemma create_right dev w h drm r l : create dev w h drm = Ok (r, l) ->
  (r = None /\ (forall e fd d, In e dev -> video e fd d -> ~ capable d w h) /\ files l = [] /\ mappings l = []) \/
  exists fd d l0 l1, first_capable dev w h fd d /\ files l0 = [fd] /\ unmapped l0 /\ quiet l1 /\
    (r = None /\ l = l0 ++ l1 ++ [Closed fd] \/
     r = Some (fd, d) /\ l = l0 ++ l1 /\ exists f q, (f <> 0 /\ (ordinary d -> In f (tries drm) /\ In f (d_out d)) /\
        (~ ordinary d -> f = v4l2_format_from_drm_bcm2835 drm)) /\ unmapped q /\
        l1 = [SrcFormat f (align16 w) (align16 h); DstFormat w h; Mapped 0; Mapped 1; Mapped 2] ++ q).
Proof.
  unfold create. intros H. apply bind_ok in H as ([found l0] & F & H). apply find_right in F as (A & B & C).
  destruct found as [[fd d]|].
  2: { injection H as <- <-. left. split; [reflexivity|]. split; [exact C|]. split; [exact A|]. apply mappings_none, B. }
  right. exists fd, d, l0.
  assert (UP : forall x, quiet x -> give_up fd (l0 ++ x) = Ok (r, l) -> exists l1, first_capable dev w h fd d /\ files l0 = [fd] /\ unmapped l0 /\ quiet l1 /\
    (r = None /\ l = l0 ++ l1 ++ [Closed fd] \/
     r = Some (fd, d) /\ l = l0 ++ l1 /\ exists f q, (f <> 0 /\ (ordinary d -> In f (tries drm) /\ In f (d_out d)) /\
        (~ ordinary d -> f = v4l2_format_from_drm_bcm2835 drm)) /\ unmapped q /\
        l1 = [SrcFormat f (align16 w) (align16 h); DstFormat w h; Mapped 0; Mapped 1; Mapped 2] ++ q)).
  { intros x Q G. injection G as <- <-. exists x. split; [exact C|]. split; [exact A|]. split; [exact B|]. split; [exact Q|]. left.
    rewrite app_assoc. auto. }
  apply bind_ok in H as ([b1 s1] & H1 & H). cbn [fst snd] in H. pose proof (src_quiet _ _ _ _ _ _ H1) as [Q1 _].
  destruct b1; cbn [negb] in H; [|apply (UP s1); assumption].
  cbv zeta in H. destruct (dst_quiet d w h) as [Q2 _]. destruct (set_dst_fmt d w h) as [b2 s2] eqn:D2. cbn [fst snd] in *.
  rewrite <- app_assoc in H.
  destruct b2; cbn [negb] in H; [|apply (UP (s1 ++ s2)); [apply quiet_app; assumption|exact H]].
  apply bind_ok in H as ([b3 s3] & H3 & H). cbn [fst snd] in H. unfold alloc_dst_buffers in H3.
  assert (M3 : quiet s3 /\ (b3 = true -> exists k, d_dst_count d = Some k /\ (Z.to_nat k <= 3)%nat /\ s3 = map Mapped (upto (Z.to_nat k) 0))).
  { destruct (d_dst_count d) as [k|]; [|injection H3 as <- <-; split; [constructor|discriminate]].
    apply map_dst_events in H3 as (Q & L & m & M & -> & E). split; [exact Q|]. intros X. exists k. split; [reflexivity|].
    split; [destruct (L X); lia|]. rewrite (E X). reflexivity. }
  clear H3. destruct M3 as [Q3 M3].
  rewrite <- app_assoc in H. assert (Q123 : quiet ((s1 ++ s2) ++ s3)) by (repeat apply quiet_app; assumption).
  destruct b3; cbn [negb] in H; [|apply (UP ((s1 ++ s2) ++ s3)); assumption].
  destruct (alloc_src_buffers d); cbn [negb] in H; [|apply (UP ((s1 ++ s2) ++ s3)); assumption].
  apply bind_ok in H as (q & Q4 & H). apply enqueue_events in Q4 as (Q4 & U4 & E4).
  rewrite <- app_assoc in H. assert (QQ : quiet (((s1 ++ s2) ++ s3) ++ q)) by (apply quiet_app; assumption).
  destruct (d_stream_on d); cbn [negb] in H; [|apply (UP (((s1 ++ s2) ++ s3) ++ q)); assumption].
  destruct (d_start d); cbn [negb] in H; [|apply (UP (((s1 ++ s2) ++ s3) ++ q)); assumption].
  injection H as <- <-. exists (((s1 ++ s2) ++ s3) ++ q). split; [exact C|]. split; [exact A|]. split; [exact B|]. split; [exact QQ|]. right.
  split; [reflexivity|]. split; [reflexivity|].
  apply src_format in H1 as (f & -> & F). exists f, q. split; [exact F|]. split; [exact U4|].
  unfold set_dst_fmt in D2. destruct (_ && _); [|discriminate]. injection D2 as <-.
  destruct (M3 eq_refl) as (k & K1 & K2 & ->). destruct E4 as [E4|(k' & K' & E4)]; [discriminate|].
  rewrite K1 in K'. injection K' as <-. replace (Z.to_nat k) with 3%nat by lia. reflexivity.
Qed.

Lemma map_dst_all d n : forall i, i + Z.of_nat n <= 3 ->
  (forall j, i <= j < i + Z.of_nat n -> d_query_dst d j = true /\ d_mmap d j = true) -> exists l, map_dst d n i = Ok (true, l).
Proof.
  induction n as [|n IH]; intros i L A; cbn [map_dst]; [eauto|]. destruct (Z.leb_spec 3 i); [lia|].
  destruct (A i) as [-> ->]; [lia|]. cbn [negb]. destruct (IH (i + 1)) as [l E]; [lia|intros j J; apply A; lia|].
  rewrite E. cbn [bind fst snd]. eauto.
Qed.

Lemma enqueue_total d n : forall i, (exists k, d_dst_count d = Some k /\ i + Z.of_nat n <= k) ->
  (forall j, i <= j < i + Z.of_nat n -> d_qbuf d j = true) -> exists r, enqueue_dst d n i = Ok r.
Proof.
  induction n as [|n IH]; intros i (k & K & L) Q; cbn [enqueue_dst]; [eauto|]. rewrite K.
  destruct (Z.ltb_spec i k); [|lia]. rewrite Q by lia. cbn [andb].
  destruct (IH (i + 1)) as [r E]; [exists k; split; [exact K|lia]|intros j J; apply Q; lia|]. rewrite E. cbn [bind]. eauto.
Qed.

Lemma first_found dev w h fd d : (forall e fd d, In e dev -> video e fd d -> steps_given d) ->
  first_capable dev w h fd d -> exists l, find_capable_device dev w h = Ok (Some (fd, d), l).
Proof.
  intros G F. destruct (find_total w h dev G) as (r & l & E). pose proof E as E'. apply find_right in E as (_ & _ & R).
  destruct r as [[fd' d']|].
  - exists l. rewrite E'. do 2 f_equal.
    destruct F as (pre & e & post & -> & V & C & N), R as (pre' & e' & post' & D & V' & C' & N').
    assert (X : pre = pre' /\ e = e').
    { clear - D V V' C C' N N'. revert pre' D N'. induction pre as [|a pre IH]; intros [|a' pre'] D N'; cbn [app] in D; injection D as D0 D.
      - auto.
      - exfalso. apply (N' e fd d); [left; symmetry; exact D0|exact V|exact C].
      - exfalso. apply (N e' fd' d'); [left; exact D0|exact V'|exact C'].
      - subst a'. destruct (IH (fun x y z I0 => N x y z (or_intror I0)) pre' D (fun x y z I0 => N' x y z (or_intror I0))) as [-> ->]. auto. }
    destruct X as [-> <-]. destruct V as [_ V], V' as [_ V']. congruence.
  - exfalso. destruct F as (pre & e & post & -> & V & C & _). apply (R e fd d); [apply in_or_app; right; left; reflexivity|exact V|exact C].
Qed.

Lemma create_willing dev w h drm fd d : (forall e fd d, In e dev -> video e fd d -> steps_given d) ->
  first_capable dev w h fd d -> willing d -> ordinary d -> (exists f, In f (tries drm) /\ In f (d_out d)) ->
  exists l, create dev w h drm = Ok (Some (fd, d), l).
Proof.
  intros G F (W1 & W2 & W3 & W4 & W5 & W6 & W7 & W8) OD (f & T & O).
  destruct (first_found _ _ _ _ _ G F) as [l0 E]. unfold create. rewrite E. cbn [bind].
  assert (B : is_bcm2835 d = false).
  { destruct (is_bcm2835 d) eqn:B; [|reflexivity]. apply same_eq in B. contradiction. }
  unfold set_src_fmt, get_supported_formats. rewrite fill_ok by lia. cbn [bind]. rewrite B, W2, from_drm.
  pose proof (try_found _ _ _ T O (tries_no_zero drm)) as N. apply Z.eqb_neq in N. rewrite N. cbn [fst snd negb bind].
  unfold set_dst_fmt. rewrite W3. cbn [fst snd andb negb]. unfold alloc_dst_buffers. rewrite W4.
  change (Z.to_nat 3) with 3%nat.
  destruct (map_dst_all d 3 0) as [m M]; [cbn; lia|intros j J; split; apply W5; cbn in J; lia|]. rewrite M. cbn [bind fst snd negb].
  destruct (W5 0) as (_ & _ & C0 & _); [lia|]. destruct (W5 1) as (_ & _ & C1 & _); [lia|]. destruct (W5 2) as (_ & _ & C2 & _); [lia|].
  unfold alloc_src_buffers. rewrite W6, C0, C1, C2. cbn [andb negb].
  destruct (enqueue_total d 3 0) as [q Q]; [exists 3; split; [exact W4|cbn; lia]|intros j J; apply W5; cbn in J; lia|].
  rewrite Q. cbn [bind]. rewrite W7, W8. cbn [negb]. eauto.
Qed.

Lemma create_total dev w h drm : (forall e fd d, In e dev -> video e fd d -> steps_given d) ->
  (forall fd d, first_capable dev w h fd d -> modest d) -> exists r, create dev w h drm = Ok r.
Proof.
  intros G M. unfold create. destruct (find_total w h dev G) as (r & l & E). rewrite E. cbn [bind].
  destruct r as [[fd d]|]; [|eauto]. apply find_right in E as (_ & _ & F). destruct (M fd d F) as (M1 & M2 & M3).
  assert (exists b s, set_src_fmt d w h drm = Ok (b, s)) as (b & s & ->).
  { unfold set_src_fmt, get_supported_formats. rewrite fill_ok by lia. cbn [bind]. cbv zeta.
    destruct (_ =? 0); [eauto|]. destruct (negb _); [eauto|]. destruct (negb _); eauto. }
  cbn [bind fst snd]. unfold give_up. destruct (negb b); [eauto|]. destruct (negb _); [eauto|].
  unfold alloc_dst_buffers. destruct (d_dst_count d) as [k|] eqn:K; [|cbn [bind fst snd negb]; eauto].
  pose proof (M2 k eq_refl) as ->. destruct (map_dst_total d (Z.to_nat 3) 0) as [[b3 s3] ->]; [cbn; lia|]. cbn [bind fst snd].
  destruct (negb b3); [eauto|]. destruct (negb _); [eauto|].
  destruct (enqueue_total d 3 0) as [q ->]; [exists 3; split; [exact K|cbn; lia]|intros j J; apply M3; cbn in J; lia|]. cbn [bind].
  destruct (negb _); [eauto|]. destruct (negb _); eauto.
Qed.

Lemma create_formats dev w h drm fd d : (forall e fd d, In e dev -> video e fd d -> steps_given d) ->
  first_capable dev w h fd d -> 256 < Z.of_nat (length (d_out d)) -> create dev w h drm = Fault OobWrite.
Proof.
  intros G F L. destruct (first_found _ _ _ _ _ G F) as [l0 E]. unfold create. rewrite E. cbn [bind].
  unfold set_src_fmt, get_supported_formats. rewrite fill_over by lia. reflexivity.
Qed.

Lemma create_no_steps e fd d post w h a b c f t drm : video e fd d ->
  (exists caps, d_caps d = Some caps /\ Z.testbit caps 14 = true /\ Z.testbit caps 26 = true) -> In (fourcc "H264") (d_capture d) ->
  d_sizes d = [Stepwise a b 0 c f t] -> a <= w <= b -> c <= h <= f -> create (e :: post) w h drm = Fault DivByZero.
Proof.
  intros [V O] (caps & C1 & C2) H S0 A B. unfold create. cbn [find_capable_device].
  apply video_name in V. rewrite V, O. cbn [negb]. unfold is_device_capable. rewrite C1. apply caps_right in C2. rewrite C2. cbn [negb].
  assert (X : can_encode_to_h264 d = true) by (apply existsb_exists; exists (fourcc "H264"); split; [exact H|apply Z.eqb_refl]).
  rewrite X, S0. cbn [negb can_handle_frame_size].
  replace ((a <=? w) && (w <=? b) && (c <=? h) && (h <=? f)) with true by lia. reflexivity.
Qed.

Lemma align16_right v : 0 <= v < 2 ^ 32 - 15 -> (16 | align16 v) /\ v <= align16 v < v + 16.
Proof.
  intros B. unfold align16. rewrite (Z.mod_small (v + 15)) by lia.
  pose proof (Z.div_mod (v + 15) 16 ltac:(lia)). pose proof (Z.mod_pos_bound (v + 15) 16 ltac:(lia)).
  rewrite Z.mod_small by lia. split; [exists ((v + 15) / 16); lia|lia].
Qed.

Lemma tries_reversed drm f : In f (tries drm) -> exists b, drm_bytes drm = Some b /\ v4l2_bytes f = Some (rev b) /\ b <> rev b.
Proof.
  unfold tries, drm_bytes.
  assert (NE : forall x y z u v w : channel, x <> u -> [x; y; z; u] <> [u; v; w; x]) by congruence.
  destruct (existsb (Z.eqb drm) [fourcc "RX24"; fourcc "RA24"]) eqn:E1.
  { cbn [existsb] in E1. rewrite orb_false_r in E1. apply orb_prop in E1.
    intros F. assert (X : existsb (Z.eqb drm) [fourcc "XR24"; fourcc "AR24"] = false /\ existsb (Z.eqb drm) [fourcc "XB24"; fourcc "AB24"] = false).
    { destruct E1 as [E|E]; apply Z.eqb_eq in E; subst drm; split; reflexivity. }
    destruct X as [-> ->]. eexists. split; [reflexivity|].
    cbn [In] in F. destruct F as [<-|[<-|[]]]; (split; [reflexivity|cbn [rev app]; congruence]). }
  destruct (existsb (Z.eqb drm) [fourcc "XR24"; fourcc "AR24"]).
  { intros F. eexists. split; [reflexivity|]. cbn [In] in F. destruct F as [<-|[<-|[<-|[]]]]; (split; [reflexivity|cbn [rev app]; congruence]). }
  destruct (existsb (Z.eqb drm) [fourcc "BX24"; fourcc "BA24"]) eqn:E3.
  { cbn [existsb] in E3. rewrite orb_false_r in E3. apply orb_prop in E3.
    intros F. assert (X : existsb (Z.eqb drm) [fourcc "XB24"; fourcc "AB24"] = false).
    { destruct E3 as [E|E]; apply Z.eqb_eq in E; subst drm; reflexivity. }
    rewrite X. eexists. split; [reflexivity|].
    cbn [In] in F. destruct F as [<-|[<-|[<-|[]]]]; (split; [reflexivity|cbn [rev app]; congruence]). }
  destruct (existsb (Z.eqb drm) [fourcc "XB24"; fourcc "AB24"]); [|intros []].
  intros F. eexists. split; [reflexivity|]. cbn [In] in F. destruct F as [<-|[<-|[]]]; (split; [reflexivity|cbn [rev app]; congruence]).
Qed.
