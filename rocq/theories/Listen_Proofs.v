(** Proofs about listening sockets. *)
From Coq Require Import FinFun.
From Verif Require Import Common CommonProofs Listen_Model Listen_Spec.

Lemma ask_same w b w' : ask w = (b, w') -> untouched w w' /\ w_next w' = w_next w.
Proof. unfold ask. destruct (w_ans w) as [|x l]; intros [= <- <-]; repeat split. Qed.

Lemma lowest_ge fuel : forall n l, n <= lowest fuel n l.
Proof. induction fuel as [|f IH]; intros n l; cbn [lowest]; [lia|]. destruct (existsb _ l); [|lia]. specialize (IH (n + 1) l). lia. Qed.
Lemma lowest_free fuel : forall n l m, n <= m <= n + Z.of_nat fuel -> ~ In m l -> ~ In (lowest fuel n l) l.
Proof.
  induction fuel as [|f IH]; intros n l m M N; cbn [lowest]; [replace n with m by lia; exact N|].
  destruct (existsb (Z.eqb n) l) eqn:E.
  - apply (IH (n + 1) l m); [|exact N]. assert (n <> m); [|lia]. intros ->.
    apply existsb_exists in E as (x & X & E). apply N. replace m with x by lia. exact X.
  - intros I. assert (existsb (Z.eqb n) l = true); [|congruence]. apply existsb_exists. exists n. split; [exact I|apply Z.eqb_refl].
Qed.
Lemma some_free l : exists m, 0 <= m <= Z.of_nat (length l) /\ ~ In m l.
Proof.
  set (c := map Z.of_nat (seq 0 (S (length l)))).
  destruct (Forall_Exists_dec (fun m => In m l) (fun m => in_dec Z.eq_dec m l) c) as [A|E].
  - exfalso. assert (L : (length c <= length l)%nat).
    { apply NoDup_incl_length; [|intros m M; rewrite Forall_forall in A; auto].
      apply Injective_map_NoDup; [intros a b; lia|apply seq_NoDup]. }
    subst c. rewrite map_length, seq_length in L. lia.
  - apply Exists_exists in E as (m & M & N). subst c. apply in_map_iff in M as (k & <- & K). apply in_seq in K.
    exists (Z.of_nat k). split; [lia|exact N].
Qed.

Lemma socket_inv w fd w' : sys_socket w = (fd, w') ->
  (fd = -1 /\ untouched w w') \/
  (0 <= fd /\ ~ In fd (map fst (w_fds w)) /\ w_fds w' = (fd, Unbound) :: w_fds w /\ w_files w' = w_files w /\ w_bad w' = w_bad w).
Proof.
  unfold sys_socket. destruct (ask w) as [ok w1] eqn:A. apply ask_same in A as [(A1 & A2 & A3) _]. destruct ok; intros [= <- <-].
  - right. cbn [w_fds w_files w_bad]. rewrite A1, A2, A3. split; [apply lowest_ge|]. split; [|auto].
    destruct (some_free (map fst (w_fds w))) as (m & M & N). apply (lowest_free _ _ _ m); [lia|exact N].
  - left. split; [reflexivity|]. repeat split; assumption.
Qed.

Lemma lookup_head fd a l w : w_fds w = (fd, a) :: l -> lookup fd w = Some a.
Proof. intros H. unfold lookup. rewrite H. cbn [find fst]. now rewrite Z.eqb_refl. Qed.
Lemma filter_out {B} fd (l : list (Z * B)) : ~ In fd (map fst l) -> filter (fun p => negb (fst p =? fd)) l = l.
Proof.
  induction l as [|[x b] l IH]; intros N; [reflexivity|]. cbn [filter fst map] in *. cbn [In] in N.
  replace (x =? fd) with false by (symmetry; apply Z.eqb_neq; tauto). cbn [negb]. rewrite IH by tauto. reflexivity.
Qed.
Lemma close_head fd a l w : w_fds w = (fd, a) :: l -> ~ In fd (map fst l) ->
  w_fds (sys_close fd w) = l /\ w_files (sys_close fd w) = w_files w /\ w_bad (sys_close fd w) = w_bad w.
Proof.
  intros H N. unfold sys_close. rewrite (lookup_head fd a l w H). cbn [w_fds w_files w_bad]. rewrite H. cbn [filter fst].
  rewrite Z.eqb_refl. cbn [negb]. rewrite filter_out by exact N. auto.
Qed.
Lemma set_head fd a b l w : w_fds w = (fd, a) :: l -> ~ In fd (map fst l) -> w_fds (set_addr fd b w) = (fd, b) :: l.
Proof.
  intros H N. unfold set_addr. cbn [w_fds]. rewrite H. cbn [map fst]. rewrite Z.eqb_refl. f_equal.
  induction l as [|[x c] l IH]; [reflexivity|]. cbn [map fst In] in *. replace (x =? fd) with false by (symmetry; apply Z.eqb_neq; tauto). f_equal. 
  clear - N. induction l as [|[x' c'] l IH]; [reflexivity|]. cbn [map fst In] in *. replace (x' =? fd) with false by (symmetry; apply Z.eqb_neq; tauto). f_equal. apply IH. tauto.
Qed.

Lemma untouched_trans a b c : untouched a b -> untouched b c -> untouched a c.
Proof. unfold untouched. intuition congruence. Qed.
Lemma untouched_refl a : untouched a a.
Proof. repeat split. Qed.

Lemma try_inv l : forall w fd w', try_addresses l w = (fd, w') ->
  (fd = -1 /\ untouched w w') \/
  (exists a, In a l /\ 0 <= fd /\ ~ In fd (map fst (w_fds w)) /\ w_fds w' = (fd, Inet a) :: w_fds w /\ w_files w' = w_files w /\ w_bad w' = w_bad w).
Proof.
  induction l as [|a l IH]; intros w fd w' H; cbn [try_addresses] in H; [injection H as <- <-; left; split; [reflexivity|apply untouched_refl]|].
  assert (G : forall w1, untouched w w1 -> try_addresses l w1 = (fd, w') -> (fd = -1 /\ untouched w w') \/
     (exists a', In a' (a :: l) /\ 0 <= fd /\ ~ In fd (map fst (w_fds w)) /\ w_fds w' = (fd, Inet a') :: w_fds w /\ w_files w' = w_files w /\ w_bad w' = w_bad w)).
  { intros w1 U T. destruct (IH w1 fd w' T) as [[F U']|(x & X & P & N & F & Fi & B)]; [left; split; [exact F|eapply untouched_trans; eauto]|].
    destruct U as (U1 & U2 & U3). right. exists x. rewrite U1 in *. repeat split; try assumption; try congruence. now right. }
  destruct (sys_socket w) as [f w1] eqn:Sk. apply socket_inv in Sk as [[-> U]|(P & N & F & Fi & Bd)]; [exact (G w1 U H)|].
  replace (f <? 0) with false in H by lia. destruct (ask w1) as [reuse w2] eqn:A. apply ask_same in A as [(A1 & A2 & A3) _].
  assert (F2 : w_fds w2 = (f, Unbound) :: w_fds w) by congruence.
  destruct reuse; cbn [negb] in H.
  2:{ apply (G (sys_close f w2)); [|exact H]. destruct (close_head f _ _ w2 F2 N) as (C1 & C2 & C3). repeat split; congruence. }
  unfold bind_inet in H. destruct (ask w2) as [ok w3] eqn:A'. apply ask_same in A' as [(B1 & B2 & B3) _].
  assert (F3 : w_fds w3 = (f, Unbound) :: w_fds w) by congruence. destruct ok.
  - injection H as <- <-. right. exists a. split; [now left|]. split; [exact P|]. split; [exact N|].
    split; [apply (set_head f Unbound _ _ w3 F3 N)|]. cbn [set_addr w_files w_bad]. split; congruence.
  - apply (G (sys_close f w3)); [|exact H]. destruct (close_head f _ _ w3 F3 N) as (C1 & C2 & C3). repeat split; congruence.
Qed.

Lemma listen_inv fd t w r w' : nvnc__listen fd t w = (r, w') -> untouched w w' /\
  match r with Some k => k_fd k = fd /\ k_type k = t /\ k_ext k = true | None => True end.
Proof.
  unfold nvnc__listen. intros H.
  repeat match type of H with (let '(_, _) := ask ?w in _) = _ => let A := fresh "A" in destruct (ask w) as [[] ?] eqn:A; apply ask_same in A as [A _]; cbn [negb] in H
  end; injection H as <- <-; (split; [repeat (eapply untouched_trans; [eassumption|]); apply untouched_refl|cbn; auto]).
Qed.

Lemma tcp_inv s l t w rc s' w' : nvnc_listen_tcp s l t w = (rc, s', w') ->
  (rc = -1 /\ s' = s /\ untouched w w') \/
  (rc = 0 /\ exists k a addrs, l = Some addrs /\ In a addrs /\ s' = k :: s /\ k_type k = t /\ k_ext k = false /\ ~ In (k_fd k) (map fst (w_fds w)) /\
     w_fds w' = (k_fd k, Inet a) :: w_fds w /\ w_files w' = w_files w /\ w_bad w' = w_bad w).
Proof.
  unfold nvnc_listen_tcp, bind_address_tcp. destruct l as [l|]; [|intros [= <- <- <-]; left; repeat split].
  destruct (try_addresses l w) as [fd w1] eqn:T. apply try_inv in T as [[-> U]|(a & A & P & N & F & Fi & B)].
  { intros [= <- <- <-]. left. auto. }
  replace (fd <? 0) with false by lia. destruct (nvnc__listen fd t w1) as [r w2] eqn:L. apply listen_inv in L as [(U1 & U2 & U3) K].
  destruct r as [k|]; intros [= <- <- <-].
  - destruct K as (K1 & K2 & K3). right. split; [reflexivity|]. eexists _, a, l. split; [reflexivity|]. split; [exact A|]. split; [reflexivity|].
    cbn [k_fd k_type k_ext]. rewrite K1. repeat split; try congruence.
  - left. split; [reflexivity|]. split; [reflexivity|]. assert (F2 : w_fds w2 = (fd, Inet a) :: w_fds w) by congruence.
    destruct (close_head fd _ _ w2 F2 N) as (C1 & C2 & C3). repeat split; congruence.
Qed.

Lemma same_true a b : same a b = true <-> a = b.
Proof. unfold same. destruct (list_eq_dec Z.eq_dec a b); split; intros; congruence. Qed.
Lemma filter_names name (l : list (list Z * Z)) : ~ In name (map fst l) -> filter (fun p => negb (same (fst p) name)) l = l.
Proof.
  induction l as [|[x b] l IH]; intros N; [reflexivity|]. cbn [filter fst map In] in *.
  destruct (same x name) eqn:E; [apply same_true in E; tauto|]. cbn [negb]. rewrite IH by tauto. reflexivity.
Qed.

(* what a Unix socket adds to the names *)
Definition entry (a : addr) : list (list Z * Z) := match a with Path n f => [(n, f)] | _ => [] end.

Lemma bind_unix_inv name w fd w' : bind_address_unix name w = (fd, w') ->
  (fd = -1 /\ untouched w w') \/
  (exists a, zlen name < 108 /\ 0 <= fd /\ ~ In fd (map fst (w_fds w)) /\ w_fds w' = (fd, a) :: w_fds w /\ w_files w' = entry a ++ w_files w /\ w_bad w' = w_bad w /\
     ((name = [] /\ a = Abstract) \/ (name <> [] /\ ~ In name (map fst (w_files w)) /\ exists f, a = Path name f))).
Proof.
  unfold bind_address_unix. destruct (108 <=? zlen name) eqn:Ln; [intros [= <- <-]; left; repeat split|].
  destruct (sys_socket w) as [f w1] eqn:Sk. apply socket_inv in Sk as [[-> U]|(P & N & F & Fi & Bd)]; [intros [= <- <-]; left; auto|].
  replace (f <? 0) with false by lia. unfold bind_unix. destruct (ask w1) as [ok w2] eqn:A. apply ask_same in A as [(A1 & A2 & A3) A4].
  assert (F2 : w_fds w2 = (f, Unbound) :: w_fds w) by congruence.
  destruct (close_head f _ _ w2 F2 N) as (C1 & C2 & C3).
  destruct ok; cbn [negb].
  2:{ intros [= <- <-]. left. split; [reflexivity|]. repeat split; congruence. }
  destruct name as [|x name].
  - intros [= <- <-]. right. exists Abstract. split; [lia|]. split; [exact P|]. split; [exact N|]. split; [apply (set_head f Unbound _ _ w2 F2 N)|].
    cbn [set_addr w_files w_bad entry app]. split; [congruence|]. split; [congruence|]. left; auto.
  - destruct (existsb _ (w_files w2)) eqn:E; intros [= <- <-].
    + left. split; [reflexivity|]. repeat split; congruence.
    + right. exists (Path (x :: name) (w_next w2)). split; [lia|]. split; [exact P|]. split; [exact N|].
      cbn [w_fds w_files w_bad entry app]. split; [apply (set_head f Unbound _ _ w2 F2 N)|]. cbn [set_addr w_files w_bad].
      split; [congruence|]. split; [congruence|]. right. split; [discriminate|]. split; [|eexists; reflexivity].
      intros I. assert (existsb (fun p => same (fst p) (x :: name)) (w_files w2) = true); [|congruence].
      apply in_map_iff in I as (p & Pe & I). apply existsb_exists. exists p. rewrite A2, Fi. split; [exact I|]. now apply same_true.
Qed.

Lemma unix_inv s name t w rc s' w' : ~ In [] (map fst (w_files w)) -> nvnc_listen_unix s name t w = (rc, s', w') ->
  (rc = -1 /\ s' = s /\ w_fds w' = w_fds w /\ w_bad w' = w_bad w /\
     (w_files w' = w_files w \/ (t = NORMAL /\ exists f, w_files w' = (name, f) :: w_files w))) \/
  (rc = 0 /\ exists k a, s' = k :: s /\ k_type k = t /\ k_ext k = false /\ ~ In (k_fd k) (map fst (w_fds w)) /\ zlen name < 108 /\
     w_fds w' = (k_fd k, a) :: w_fds w /\ w_files w' = entry a ++ w_files w /\ w_bad w' = w_bad w /\
     ((name = [] /\ a = Abstract) \/ (name <> [] /\ ~ In name (map fst (w_files w)) /\ exists f, a = Path name f))).
Proof.
  intros NN. unfold nvnc_listen_unix. destruct (bind_address_unix name w) as [fd w1] eqn:T.
  apply bind_unix_inv in T as [[-> (U1 & U2 & U3)]|(a & Ln & P & N & F & Fi & B & Nm)].
  { intros [= <- <- <-]. left. auto 7. }
  replace (fd <? 0) with false by lia. destruct (nvnc__listen fd t w1) as [r w2] eqn:L. apply listen_inv in L as [(U1 & U2 & U3) K].
  destruct r as [k|]; intros [= <- <- <-].
  - destruct K as (K1 & K2 & K3). right. split; [reflexivity|]. eexists _, a. split; [reflexivity|].
    cbn [k_fd k_type k_ext]. rewrite K1. repeat split; try congruence.
  - left. split; [reflexivity|]. split; [reflexivity|]. assert (F2 : w_fds w2 = (fd, a) :: w_fds w) by congruence.
    destruct t.
    + destruct (close_head fd _ _ w2 F2 N) as (C1 & C2 & C3). rewrite C1, C2, C3. split; [reflexivity|]. split; [congruence|].
      destruct Nm as [[-> ->]|(NE & Nn & f & ->)]; [left; cbn in Fi; congruence|]. right. split; [reflexivity|]. exists f. cbn in Fi. congruence.
    + destruct (close_head fd _ _ (sys_unlink name w2) F2 N) as (C1 & C2 & C3). rewrite C1, C2, C3. cbn [sys_unlink w_files w_bad].
      split; [reflexivity|]. split; [congruence|]. left. rewrite U2, Fi.
      destruct Nm as [[-> ->]|(NE & Nn & f & ->)]; cbn [entry app].
      * now apply filter_names.
      * cbn [filter fst]. replace (same name name) with true by (symmetry; now apply same_true). cbn [negb]. now apply filter_names.
Qed.

Lemma nodup_app_r {B} (a b : list B) : NoDup (a ++ b) -> NoDup b.
Proof. induction a as [|x a IH]; intros H; [exact H|]. apply IH. inversion H; assumption. Qed.

(* the state after some calls: the server's sockets first *)
Definition inv (w0 : world) (own : list (lsock * addr)) (w : world) : Prop :=
  w_fds w = map (fun p => (k_fd (fst p), snd p)) own ++ w_fds w0 /\
  w_files w = flat_map (fun p => entry (snd p)) own ++ w_files w0 /\
  w_bad w = w_bad w0 /\ kernel_ok w /\ Forall (fun p => k_ext (fst p) = false) own.

Lemma inv_start w : kernel_ok w -> inv w [] w.
Proof. intros K. repeat split; try apply K. constructor. Qed.

Lemma inv_untouched w0 own w w' : inv w0 own w -> untouched w w' -> inv w0 own w'.
Proof. intros (A & B & C & K & E) (U1 & U2 & U3). unfold inv, kernel_ok in *. rewrite U1, U2, U3. auto. Qed.

Lemma inv_step w0 own w c rc s' w' : inv w0 own w -> cleans_up c ->
  make c (map fst own) w = (rc, s', w') -> exists own', s' = map fst own' /\ inv w0 own' w'.
Proof.
  intros I CU H. destruct c as [l t|name t]; cbn [make] in H.
  - apply tcp_inv in H as [(_ & -> & U)|(_ & k & a & addrs & _ & _ & -> & _ & X & N & F & Fi & B)].
    + exists own. split; [reflexivity|]. eapply inv_untouched; eauto.
    + exists ((k, Inet a) :: own). split; [reflexivity|]. destruct I as (I1 & I2 & I3 & (K1 & K2 & K3) & E). unfold inv, kernel_ok.
      cbn [map flat_map entry fst snd app]. rewrite F, Fi, B, I1, I3. repeat split; try assumption; try congruence.
      * cbn [map fst]. rewrite I1 in K1, N. constructor; assumption.
      * constructor; assumption.
  - destruct I as (I1 & I2 & I3 & (K1 & K2 & K3) & E).
    apply unix_inv in H as [(_ & -> & F & B & Fi)|(_ & k & a & -> & _ & X & N & _ & F & Fi & B & Nm)]; [| |exact K3].
    + exists own. split; [reflexivity|]. destruct Fi as [Fi|[-> _]]; [|contradiction CU].
      unfold inv, kernel_ok. rewrite F, Fi, B. repeat split; try assumption.
    + exists ((k, a) :: own). split; [reflexivity|]. unfold inv, kernel_ok. cbn [map flat_map fst snd app]. rewrite F, Fi, B.
      split; [rewrite I1; reflexivity|]. split; [rewrite I2; now rewrite app_assoc|]. split; [congruence|]. split; [split; [|split]|].
      * cbn [map fst]. constructor; assumption.
      * destruct Nm as [[_ ->]|(_ & Nn & f & ->)]; [exact K2|]. cbn [entry app map fst]. constructor; assumption.
      * destruct Nm as [[_ ->]|(NE & Nn & f & ->)]; [exact K3|]. cbn [entry app map fst In]. intros [H|H]; [congruence|contradiction].
      * constructor; assumption.
Qed.

Lemma inv_all w0 l : forall own w s' w', inv w0 own w -> Forall cleans_up l ->
  make_all l (map fst own) w = (s', w') -> exists own', s' = map fst own' /\ inv w0 own' w'.
Proof.
  induction l as [|c l IH]; intros own w s' w' I CU H; cbn [make_all] in H.
  - injection H as <- <-. eauto.
  - inversion CU; subst. destruct (make c (map fst own) w) as [[rc s1] w1] eqn:M.
    destruct (inv_step w0 own w c rc s1 w1 I H2 M) as (own1 & -> & I1). eapply IH; eauto.
Qed.

Lemma inv_close w0 own : forall w, inv w0 own w -> untouched w0 (close_sockets (map fst own) w).
Proof.
  induction own as [|[k a] own IH]; intros w (I1 & I2 & I3 & (K1 & K2 & K3) & E); cbn [map close_sockets fst].
  - repeat split; assumption.
  - inversion E as [|? ? X E']; subst. cbn [fst] in X. rewrite X. cbn [map flat_map fst snd app] in I1, I2.
    assert (N : ~ In (k_fd k) (map fst (map (fun p => (k_fd (fst p), snd p)) own ++ w_fds w0))).
    { rewrite I1 in K1. inversion K1; assumption. }
    assert (U : w_fds (unlink_fd_path (k_fd k) w) = w_fds w /\ w_bad (unlink_fd_path (k_fd k) w) = w_bad w /\
       w_files (unlink_fd_path (k_fd k) w) = flat_map (fun p => entry (snd p)) own ++ w_files w0).
    { unfold unlink_fd_path. rewrite (lookup_head _ _ _ w I1). destruct a as [|x|n f|]; cbn [entry app] in I2; try (repeat split; assumption).
      cbn [sys_unlink w_fds w_bad w_files]. rewrite I2 in *. cbn [filter fst map app] in *. replace (same n n) with true by (symmetry; now apply same_true). cbn [negb].
      split; [reflexivity|]. split; [reflexivity|]. apply filter_names. inversion K2; assumption. }
    destruct U as (U1 & U2 & U3). rewrite <- U1 in I1.
    destruct (close_head (k_fd k) a _ _ I1 N) as (C1 & C2 & C3).
    apply IH. unfold inv, kernel_ok. rewrite C1, C2, C3, U3, U2. repeat split; try assumption.
    + rewrite U1 in I1. rewrite I1 in K1. inversion K1; assumption.
    + rewrite I2 in K2. rewrite <- app_assoc, map_app in K2. now apply nodup_app_r in K2.
    + intros H. apply K3. rewrite I2. rewrite <- app_assoc, map_app. apply in_or_app. now right.
Qed.
