(** Proofs about credentials. *)
From Coq Require Import Permutation.
From Verif Require Import Common Creds_Model Creds_Spec.

Definition opt_list {A : Type} (a : option A) : list A := match a with Some x => [x] | None => [] end.

Definition server_ok (h : list (op * Z)) (cs : list cred) (v : server) : Prop :=
  (match v_tls v with
   | Some a => exists f, accepted (v_id v) h = Some f /\ In (mk_cred a (Some f)) cs
   | None => accepted (v_id v) h = None
   end) /\
  keyed (v_id v) h = is_some (v_rsa v) /\
  (forall s, In s (v_sessions v) -> v_tls v = Some (s_cred s)).

Record inv (l : list nat) (h : list (op * Z)) (w : world) : Prop := {
  i_ids : map v_id (servers w) = l;
  i_nodup : NoDup l;
  i_servers : Forall (server_ok h (creds w)) (servers w);
  i_creds : Permutation (map c_at (creds w)) (flat_map (fun v => opt_list (v_tls v)) (servers w));
  i_creds_nd : NoDup (map c_at (creds w));
  i_creds_old : Forall (fun a => (a < fresh w)%nat) (map c_at (creds w));
  i_keys : Permutation (keys w) (flat_map (fun v => opt_list (v_rsa v)) (servers w));
  i_keys_nd : NoDup (keys w);
  i_keys_old : Forall (fun a => (a < fresh w)%nat) (keys w);
  i_depth : depth w = Z.of_nat (length (creds w)) }.

Lemma found l h w id : inv l h w -> In id l -> exists v before after,
  find id w = Some v /\ v_id v = id /\ servers w = before ++ v :: after /\
  Forall (fun x => v_id x <> id) before /\ Forall (fun x => v_id x <> id) after.
Proof.
  intros I K. pose proof (i_ids _ _ _ I) as E. pose proof (i_nodup _ _ _ I) as N. subst l. unfold find.
  clear I. induction (servers w) as [|v vs IH]; [contradiction|]. cbn [map] in K, N. inversion N; subst.
  cbn [List.find]. destruct (Nat.eqb (v_id v) id) eqn:Q.
  - apply Nat.eqb_eq in Q. exists v, [], vs. repeat split; try reflexivity; try assumption; [constructor|].
    apply Forall_forall. intros x X Y. subst. apply H1. rewrite <- Y. apply in_map. exact X.
  - apply Nat.eqb_neq in Q. destruct K as [K|K]; [congruence|]. destruct (IH K H2) as (x & b & a & F & J & S & B & A).
    exists x, (v :: b), a. split; [exact F|]. split; [exact J|]. split; [rewrite S; reflexivity|].
    split; [constructor; assumption|exact A].
Qed.

Lemma map_store (v' : server) l : Forall (fun x => v_id x <> v_id v') l ->
  map (fun x => if Nat.eqb (v_id x) (v_id v') then v' else x) l = l.
Proof.
  induction 1 as [|x l N _ IH]; [reflexivity|]. cbn [map]. rewrite IH.
  destruct (Nat.eqb (v_id x) (v_id v')) eqn:Q; [apply Nat.eqb_eq in Q; congruence|reflexivity].
Qed.

Lemma stored (v v' : server) before after : v_id v = v_id v' ->
  Forall (fun x => v_id x <> v_id v') before -> Forall (fun x => v_id x <> v_id v') after ->
  map (fun x => if Nat.eqb (v_id x) (v_id v') then v' else x) (before ++ v :: after) = before ++ v' :: after.
Proof.
  intros E B A. rewrite map_app. cbn [map]. rewrite E, Nat.eqb_refl, !map_store by assumption. reflexivity.
Qed.

Lemma filter_keep {A} (p : A -> bool) l : Forall (fun x => p x = true) l -> filter p l = l.
Proof. induction 1 as [|x l N _ IH]; [reflexivity|]. cbn [filter]. rewrite N, IH. reflexivity. Qed.

Lemma without (v : server) before after id : v_id v = id ->
  Forall (fun x => v_id x <> id) before -> Forall (fun x => v_id x <> id) after ->
  filter (fun x => negb (Nat.eqb (v_id x) id)) (before ++ v :: after) = before ++ after.
Proof.
  intros E B A. rewrite filter_app. cbn [filter]. rewrite E, Nat.eqb_refl. cbn [negb].
  rewrite !filter_keep; [reflexivity| |]; (eapply Forall_impl; [|eassumption]); cbn beta; intros x X;
    (destruct (Nat.eqb (v_id x) id) eqn:Q; [apply Nat.eqb_eq in Q; congruence|reflexivity]).
Qed.

Lemma remove_map (v : server) before after id : v_id v = id ->
  Forall (fun x => v_id x <> id) before -> Forall (fun x => v_id x <> id) after ->
  remove Nat.eq_dec id (map v_id (before ++ v :: after)) = map v_id (before ++ after).
Proof.
  intros E B A. rewrite !map_app. cbn [map]. rewrite E, remove_app, remove_cons.
  rewrite !notin_remove; [reflexivity| |]; intros X; apply in_map_iff in X as (x & X & Y).
  - rewrite Forall_forall in A. exact (A x Y X).
  - rewrite Forall_forall in B. exact (B x Y X).
Qed.

Lemma perm_filter (p : nat -> bool) l l' : Permutation l l' -> Permutation (filter p l) (filter p l').
Proof.
  induction 1; cbn [filter]; [constructor| | |etransitivity; eassumption].
  - destruct (p x); [constructor|]; assumption.
  - destruct (p x), (p y); try apply perm_swap; reflexivity.
Qed.

Lemma taken (a : nat) (cs l1 l2 : list nat) : NoDup cs -> Permutation cs (l1 ++ a :: l2) ->
  Permutation (filter (fun x => negb (Nat.eqb a x)) cs) (l1 ++ l2).
Proof.
  intros N P. rewrite (perm_filter _ _ _ P), filter_app. cbn [filter]. rewrite Nat.eqb_refl. cbn [negb].
  pose proof (Permutation_NoDup P N) as N2. apply NoDup_remove_2 in N2.
  rewrite !filter_keep; [reflexivity| |]; apply Forall_forall; intros x X;
    (destruct (Nat.eqb a x) eqn:Q; [apply Nat.eqb_eq in Q; subst; exfalso; apply N2, in_or_app; tauto|reflexivity]).
Qed.

Lemma filter_map_at (a : nat) cs :
  map c_at (filter (fun c => negb (Nat.eqb (c_at c) a)) cs) = filter (fun x => negb (Nat.eqb a x)) (map c_at cs).
Proof.
  induction cs as [|c cs IH]; [reflexivity|]. cbn [filter map]. rewrite (Nat.eqb_sym a).
  destruct (Nat.eqb (c_at c) a); cbn [negb map]; rewrite IH; reflexivity.
Qed.

Lemma accepted_add id h o r : accepted id (h ++ [(o, r)]) =
  match o with
  | SetTls i file _ => if Nat.eqb i id && (r =? 0) then Some file else accepted id h
  | Del i | New i => if Nat.eqb i id then None else accepted id h
  | _ => accepted id h
  end.
Proof. unfold accepted. rewrite fold_left_app. destruct o; reflexivity. Qed.

Lemma keyed_add id h o r : keyed id (h ++ [(o, r)]) =
  match o with
  | SetRsa i _ | AskRsa i => if Nat.eqb i id then true else keyed id h
  | Del i | New i => if Nat.eqb i id then false else keyed id h
  | _ => keyed id h
  end.
Proof. unfold keyed. rewrite fold_left_app. destruct o; reflexivity. Qed.

(** A call about another server changes nothing for this one. *)
Lemma other_ok h cs v o r cs' : server_ok h cs v -> about o <> v_id v ->
  (forall a f, v_tls v = Some a -> In (mk_cred a f) cs -> In (mk_cred a f) cs') ->
  server_ok (h ++ [(o, r)]) cs' v.
Proof.
  intros (T & K & S) N C. unfold server_ok. rewrite accepted_add, keyed_add.
  apply Nat.eqb_neq in N. destruct o; cbn [about] in N; rewrite ?N; cbn [andb]; (split; [|split; [exact K|exact S]]);
    (destruct (v_tls v) as [a|]; [|exact T]; destruct T as (f & T1 & T2); exists f; split; [exact T1|]; apply C; [reflexivity|exact T2]).
Qed.

Lemma others_ok h cs l o r cs' : Forall (server_ok h cs) l -> Forall (fun v => v_id v <> about o) l ->
  (forall a f v, In v l -> v_tls v = Some a -> In (mk_cred a f) cs -> In (mk_cred a f) cs') ->
  Forall (server_ok (h ++ [(o, r)]) cs') l.
Proof.
  intros F N C. rewrite Forall_forall in *. intros v V. eapply other_ok; [apply F, V|apply not_eq_sym, N, V|].
  intros a f. apply C. exact V.
Qed.

Definition allowed (l : list nat) (o : op) : Prop := match o with New id => ~ In id l | _ => In (about o) l end.

Definition told (h : list (op * Z)) (o : op) (r : Z) : Prop :=
  match o with
  | SetTls id _ k => r = if negb (is_some (accepted id h)) && init_ok k && alloc_ok k && load_ok k then 0 else -1
  | _ => True
  end.

Ltac parts I := destruct I as [IDS ND SV CR CN CO KE KN KO DE].

Lemma flat_mid {A : Type} (g : server -> list A) before v after :
  flat_map g (before ++ v :: after) = flat_map g before ++ g v ++ flat_map g after.
Proof. rewrite flat_map_app. reflexivity. Qed.

Lemma ids_mid (v v' : server) before after : v_id v = v_id v' ->
  map v_id (before ++ v' :: after) = map v_id (before ++ v :: after).
Proof. intros E. rewrite !map_app. cbn [map]. rewrite E. reflexivity. Qed.

(** Replacing one server by one that holds the same credentials and key. *)
Lemma replaced l h w before v v' after o r :
  inv l h w -> servers w = before ++ v :: after -> v_id v = v_id v' -> v_id v = about o ->
  Forall (fun x => v_id x <> about o) before -> Forall (fun x => v_id x <> about o) after ->
  v_tls v' = v_tls v -> v_rsa v' = v_rsa v -> server_ok (h ++ [(o, r)]) (creds w) v' ->
  inv l (h ++ [(o, r)]) (mk_world (depth w) (creds w) (keys w) (fresh w) (before ++ v' :: after)).
Proof.
  intros I S E EO B A T R K. parts I. rewrite S in *. apply Forall_app in SV as [SB SV].
  apply Forall_cons_iff in SV as [_ SA].
  constructor; cbn [servers creds keys fresh depth]; try assumption.
  - rewrite (ids_mid v) by exact E. exact IDS.
  - apply Forall_app. split; [eapply others_ok; eauto|]. constructor; [exact K|eapply others_ok; eauto].
  - rewrite flat_mid in *. rewrite T. exact CR.
  - rewrite flat_mid in *. rewrite R. exact KE.
Qed.

Lemma unchanged l h w before v after o r :
  inv l h w -> servers w = before ++ v :: after -> v_id v = about o ->
  Forall (fun x => v_id x <> about o) before -> Forall (fun x => v_id x <> about o) after ->
  server_ok (h ++ [(o, r)]) (creds w) v -> inv l (h ++ [(o, r)]) w.
Proof.
  intros I S E B A K. pose proof (replaced l h w before v v after o r I S eq_refl E B A eq_refl eq_refl K) as R.
  rewrite <- S in R. destruct w; exact R.
Qed.

Lemma ok_after h cs v o r : server_ok h cs v ->
  match o with SetTls _ _ _ => r <> 0 | Upgrade _ _ _ _ | Leave _ _ => True | AskRsa _ => v_rsa v <> None | _ => False end ->
  server_ok (h ++ [(o, r)]) cs v.
Proof.
  intros (T & K & S) H. unfold server_ok. rewrite accepted_add, keyed_add. destruct o; try contradiction.
  - destruct (r =? 0) eqn:Q; [lia|]. rewrite andb_false_r. auto.
  - split; [exact T|]. split; [|exact S]. destruct (Nat.eqb id (v_id v)); [|exact K]. destruct (v_rsa v); [reflexivity|congruence].
  - auto.
  - auto.
Qed.

Lemma in_filter_at a cs c : In c cs -> c_at c <> a -> In c (filter (fun c => negb (Nat.eqb (c_at c) a)) cs).
Proof. intros I N. apply filter_In. split; [exact I|]. apply Nat.eqb_neq in N. rewrite N. reflexivity. Qed.

Lemma NoDup_map_inj (cs : list cred) a f g : NoDup (map c_at cs) -> In (mk_cred a f) cs -> In (mk_cred a g) cs -> f = g.
Proof.
  induction cs as [|c cs IH]; [contradiction|]. cbn [map]. intros N [X|X] [Y|Y]; inversion N; subst.
  - congruence.
  - exfalso. apply H1. change (c_at (mk_cred a f)) with (c_at (mk_cred a g)). apply in_map. exact Y.
  - exfalso. apply H1. change (c_at (mk_cred a g)) with (c_at (mk_cred a f)). apply in_map. exact X.
  - apply IH; assumption.
Qed.

Lemma tls_live l h w v a : inv l h w -> In v (servers w) -> v_tls v = Some a ->
  existsb (fun c => Nat.eqb (c_at c) a) (creds w) = true.
Proof.
  intros I V T. pose proof (i_servers _ _ _ I) as SV. rewrite Forall_forall in SV. destruct (SV v V) as (K & _).
  rewrite T in K. destruct K as (f & _ & K). apply existsb_exists. exists (mk_cred a (Some f)). split; [exact K|].
  apply Nat.eqb_refl.
Qed.

(** The credentials of one server are not those of another. *)
Lemma tls_apart l h w before v after a : inv l h w -> servers w = before ++ v :: after -> v_tls v = Some a ->
  forall x, In x before \/ In x after -> v_tls x <> Some a.
Proof.
  intros I S T x X Q. parts I. rewrite S, flat_mid, T in CR. cbn [opt_list] in CR.
  pose proof (Permutation_NoDup CR CN) as N. apply NoDup_remove_2 in N. apply N. apply in_or_app.
  destruct X as [X|X]; [left|right]; apply in_flat_map; exists x; rewrite Q; (split; [exact X|left; reflexivity]).
Qed.

Lemma fresh_cred cs n : Forall (fun a => (a < n)%nat) (map c_at cs) -> existsb (fun c => Nat.eqb (c_at c) n) cs = false.
Proof.
  intros F. apply not_true_is_false. intros X. apply existsb_exists in X as (c & C & Q). apply Nat.eqb_eq in Q.
  rewrite Forall_forall in F. specialize (F _ (in_map c_at _ _ C)). lia.
Qed.

Lemma older (n : nat) l : Forall (fun a => (a < n)%nat) l -> Forall (fun a => (a < S n)%nat) l.
Proof. apply Forall_impl. intros a. lia. Qed.

Lemma not_old (n : nat) l : Forall (fun a => (a < n)%nat) l -> ~ In n l.
Proof. intros F I. rewrite Forall_forall in F. specialize (F n I). lia. Qed.

Lemma no_sessions l h w before v after a : inv l h w -> servers w = before ++ v :: after ->
  v_tls v = Some a \/ ~ In a (map c_at (creds w)) ->
  existsb (fun x => existsb (fun s => Nat.eqb (s_cred s) a) (v_sessions x)) before = false /\
  existsb (fun x => existsb (fun s => Nat.eqb (s_cred s) a) (v_sessions x)) after = false.
Proof.
  intros I S T.
  assert (G : forall x, In x before \/ In x after -> existsb (fun s => Nat.eqb (s_cred s) a) (v_sessions x) = false).
  { intros x X. apply not_true_is_false. intros E. apply existsb_exists in E as (s & K & Q). apply Nat.eqb_eq in Q.
    pose proof (i_servers _ _ _ I) as SV. rewrite Forall_forall in SV.
    assert (IX : In x (servers w)) by (rewrite S; apply in_or_app; destruct X; [left|right; right]; assumption).
    destruct (SV x IX) as (TL & _ & SS). specialize (SS s K). rewrite Q in SS. destruct T as [T|T].
    - exact (tls_apart l h w before v after a I S T x X SS).
    - rewrite SS in TL. destruct TL as (f & _ & TL). apply T. change a with (c_at (mk_cred a (Some f))).
      apply in_map. exact TL. }
  split; apply not_true_is_false; intros E; apply existsb_exists in E as (x & X & E); rewrite G in E by tauto; discriminate E.
Qed.
