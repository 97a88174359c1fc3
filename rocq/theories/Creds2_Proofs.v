(** One call keeps the credentials in order. *)
From Coq Require Import Permutation.
From Verif Require Import Common Creds_Model Creds_Spec Creds_Proofs.

Definition next (l : list nat) (h : list (op * Z)) (o : op) (w : world) : Prop :=
  exists w' r, step o w = Ok (w', r) /\ inv (opened_from l [o]) (h ++ [(o, r)]) w' /\ told h o r.

Lemma inv_fresh l h w : inv l h w -> inv l h (mk_world (depth w) (creds w) (keys w) (S (fresh w)) (servers w)).
Proof. intros I. parts I. constructor; cbn [servers creds keys fresh depth]; try assumption; apply older; assumption. Qed.

Lemma self v : mk_server (v_id v) (v_tls v) (v_rsa v) (v_sessions v) = v.
Proof. destruct v. reflexivity. Qed.

Lemma opened_same l o : match o with New _ | Del _ => False | _ => True end -> opened_from l [o] = l.
Proof. destruct o; try contradiction; reflexivity. Qed.

Lemma step_new l h w id : inv l h w -> ~ In id l -> next l h (New id) w.
Proof.
  intros I N. unfold next, step, nvnc_new. eexists _, _. split; [reflexivity|]. split; [|exact Logic.I].
  parts I. cbn [opened_from].
  constructor; cbn [servers creds keys fresh depth map flat_map v_tls v_rsa opt_list app]; try assumption.
  - rewrite IDS. reflexivity.
  - constructor; assumption.
  - constructor.
    + unfold server_ok. rewrite accepted_add, keyed_add. cbn [v_id v_tls v_rsa v_sessions]. rewrite Nat.eqb_refl.
      split; [reflexivity|]. split; [reflexivity|]. intros s [].
    + eapply others_ok; [exact SV| |auto]. apply Forall_forall. intros v V Q. apply N. cbn [about] in Q. rewrite <- IDS, <- Q.
      apply in_map. exact V.
Qed.

Lemma step_tls l h w id f k : inv l h w -> In id l -> next l h (SetTls id f k) w.
Proof.
  intros I L. destruct (found _ _ _ _ I L) as (v & before & after & F & E & SE & B & A).
  unfold next, step, nvnc_set_tls_creds. rewrite F.
  assert (OK : server_ok h (creds w) v).
  { pose proof (i_servers _ _ _ I) as SV. rewrite Forall_forall in SV. apply SV. rewrite SE. apply in_or_app. right. left. reflexivity. }
  assert (BAD : inv l (h ++ [(SetTls id f k, -1)]) w).
  { eapply unchanged with (v := v); try eassumption. apply ok_after; [exact OK|cbn; lia]. }
  destruct OK as (T & K & SS).
  destruct (v_tls v) as [a|] eqn:TL.
  { exists w, (-1). split; [reflexivity|]. split; [rewrite opened_same by exact Logic.I; exact BAD|].
    cbn [told]. destruct T as (g & T & _). rewrite E in T. rewrite T. reflexivity. }
  rewrite E in T.
  assert (TB : forall b, told h (SetTls id f k) b <-> b = if init_ok k && alloc_ok k && load_ok k then 0 else -1).
  { intros b. cbn [told]. rewrite T. reflexivity. }
  destruct (init_ok k) eqn:IK; cbn [negb].
  2:{ exists w, (-1). split; [reflexivity|]. split; [exact BAD|apply TB; reflexivity]. }
  destruct (alloc_ok k) eqn:AK; cbn [negb].
  2:{ exists w, (-1). split.
      - unfold add_depth. cbn [depth creds keys fresh servers]. replace (depth w + 1 + -1) with (depth w) by lia.
        destruct w; reflexivity.
      - split; [exact BAD|apply TB; reflexivity]. }
  cbn [fresh add_depth depth creds keys servers].
  destruct (load_ok k) eqn:LK; cbn [negb andb] in *.
  - eexists _, _. split; [reflexivity|]. split; [|apply TB; reflexivity].
    unfold store. cbn [depth creds keys fresh servers v_id].
    rewrite SE, (stored v (mk_server id (Some (fresh w)) (v_rsa v) (v_sessions v))) by assumption.
    parts I. rewrite SE in *. apply Forall_app in SV as [SB SV]. apply Forall_cons_iff in SV as [_ SA].
    rewrite flat_mid in *. rewrite TL in CR. cbn [opt_list app] in CR.
    constructor; cbn [depth creds keys fresh servers map c_at]; rewrite ?flat_mid.
    + rewrite <- IDS. apply ids_mid. exact E.
    + exact ND.
    + apply Forall_app. split; [|constructor].
      * eapply others_ok; [exact SB|exact B|]. intros. right. assumption.
      * unfold server_ok. rewrite accepted_add, keyed_add. cbn [v_id v_tls v_rsa v_sessions]. rewrite Nat.eqb_refl.
        cbn [andb Z.eqb]. split; [exists f; split; [reflexivity|left; reflexivity]|].
        split; [rewrite <- E; exact K|]. intros s S. apply SS in S. discriminate S.
      * eapply others_ok; [exact SA|exact A|]. intros. right. assumption.
    + cbn [v_tls opt_list app]. apply Permutation_cons_app. exact CR.
    + constructor; [apply not_old; exact CO|exact CN].
    + constructor; [lia|apply older; exact CO].
    + cbn [v_rsa]. exact KE.
    + exact KN.
    + apply older. exact KO.
    + cbn [length]. lia.
  - pose proof (i_creds_old _ _ _ I) as CO.
    destruct (no_sessions _ _ _ _ _ _ (fresh w) I SE (or_intror (not_old _ _ CO))) as [NB NA].
    exists (mk_world (depth w) (creds w) (keys w) (S (fresh w)) (servers w)), (-1).
    split; [|split; [apply inv_fresh in BAD; exact BAD|apply TB; reflexivity]].
    unfold free_creds, store. cbn [depth creds keys fresh servers v_id existsb c_at]. rewrite Nat.eqb_refl. cbn [orb negb].
    rewrite SE, (stored v (mk_server id (Some (fresh w)) (v_rsa v) (v_sessions v))) by assumption.
    rewrite existsb_app. cbn [existsb v_sessions]. rewrite NB, NA.
    replace (existsb (fun s => Nat.eqb (s_cred s) (fresh w)) (v_sessions v)) with false.
    2:{ symmetry. apply not_true_is_false. intros X. apply existsb_exists in X as (s & X & _). apply SS in X. discriminate X. }
    cbn [orb bind].
    cbn [depth creds keys fresh servers v_id filter c_at]. rewrite Nat.eqb_refl. cbn [negb].
    rewrite filter_keep.
    2:{ apply Forall_forall. intros c C. rewrite Forall_forall in CO. specialize (CO _ (in_map c_at _ _ C)).
        destruct (Nat.eqb (c_at c) (fresh w)) eqn:Q; [apply Nat.eqb_eq in Q; lia|reflexivity]. }
    pose proof (stored (mk_server id (Some (fresh w)) (v_rsa v) (v_sessions v)) (mk_server id None (v_rsa v) (v_sessions v))
      before after eq_refl B A) as ST. cbn [v_id] in ST. rewrite ST.
    unfold add_depth. cbn [depth creds keys fresh servers].
    replace (mk_server id None (v_rsa v) (v_sessions v)) with v by (destruct v; cbn in *; congruence).
    replace (depth w + 1 + -1) with (depth w) by lia. reflexivity.
Qed.

Lemma key_known l h w v k : inv l h w -> In v (servers w) -> v_rsa v = Some k -> existsb (Nat.eqb k) (keys w) = true.
Proof.
  intros I V R. apply existsb_exists. exists k. split; [|apply Nat.eqb_refl].
  apply (Permutation_in _ (Permutation_sym (i_keys _ _ _ I))). apply in_flat_map. exists v. split; [exact V|]. rewrite R. left. reflexivity.
Qed.

Lemma Forall_filter {A} (P : A -> Prop) p l : Forall P l -> Forall P (filter p l).
Proof. rewrite !Forall_forall. intros H x X. apply filter_In in X. apply H, X. Qed.

(** Keys a server lets go of. *)
Lemma let_go l h w before v after : inv l h w -> servers w = before ++ v :: after ->
  exists ks, free_key (v_rsa v) w = Ok (mk_world (depth w) (creds w) ks (fresh w) (servers w)) /\
    Permutation ks (flat_map (fun v => opt_list (v_rsa v)) before ++ flat_map (fun v => opt_list (v_rsa v)) after) /\
    NoDup ks /\ Forall (fun a => (a < fresh w)%nat) ks.
Proof.
  intros I S. assert (V : In v (servers w)) by (rewrite S; apply in_or_app; right; left; reflexivity).
  unfold free_key. destruct (v_rsa v) as [k|] eqn:R.
  - rewrite (key_known _ _ _ _ _ I V R). eexists. split; [reflexivity|]. parts I. rewrite S, flat_mid, R in KE. cbn [opt_list] in KE.
    split; [apply taken; [exact KN|exact KE]|]. split; [apply NoDup_filter; exact KN|apply Forall_filter; exact KO].
  - exists (keys w). split; [destruct w; reflexivity|]. parts I. rewrite S, flat_mid, R in KE. auto.
Qed.

(** A server that gets a new key. *)
Lemma rekeyed l h w before v after ks o r : inv l h w -> servers w = before ++ v :: after -> v_id v = about o ->
  Forall (fun x => v_id x <> about o) before -> Forall (fun x => v_id x <> about o) after ->
  Permutation ks (flat_map (fun v => opt_list (v_rsa v)) before ++ flat_map (fun v => opt_list (v_rsa v)) after) ->
  NoDup ks -> Forall (fun a => (a < fresh w)%nat) ks ->
  match o with SetRsa _ _ | AskRsa _ => True | _ => False end ->
  inv l (h ++ [(o, r)]) (mk_world (depth w) (creds w) (fresh w :: ks) (S (fresh w))
    (before ++ mk_server (v_id v) (v_tls v) (Some (fresh w)) (v_sessions v) :: after)).
Proof.
  intros I SE E B A P N F O. parts I. rewrite SE in *. apply Forall_app in SV as [SB SV].
  apply Forall_cons_iff in SV as [(T & K & SS) SA]. rewrite flat_mid in CR.
  constructor; cbn [depth creds keys fresh servers map c_at]; rewrite ?flat_mid; cbn [v_tls v_rsa opt_list app]; try assumption.
  - rewrite <- IDS. apply ids_mid. reflexivity.
  - apply Forall_app. split; [eapply others_ok; eauto|]. constructor; [|eapply others_ok; eauto].
    unfold server_ok. rewrite accepted_add, keyed_add. cbn [v_id v_tls v_rsa v_sessions]. rewrite E.
    destruct o; try contradiction; cbn [about] in *; rewrite Nat.eqb_refl; rewrite <- E; auto.
  - apply older. exact CO.
  - apply Permutation_cons_app. exact P.
  - constructor; [apply not_old; exact F|exact N].
  - constructor; [lia|apply older; exact F].
Qed.

Lemma step_rsa l h w id ok : inv l h w -> In id l -> next l h (SetRsa id ok) w.
Proof.
  intros I L. destruct (found _ _ _ _ I L) as (v & before & after & F & E & SE & B & A).
  unfold next, step, nvnc_set_rsa_creds. rewrite F.
  destruct (let_go _ _ _ _ _ _ I SE) as (ks & G & P & N & O). rewrite G. cbn [bind new_key].
  eexists _, _. split; [reflexivity|]. split; [|exact Logic.I].
  unfold store. cbn [depth creds keys fresh servers v_id].
  rewrite SE, (stored v (mk_server id (v_tls v) (Some (fresh w)) (v_sessions v))) by assumption.
  pose proof (rekeyed l h w before v after ks (SetRsa id ok) (if ok then 0 else -1) I SE E B A P N O Logic.I) as R.
  rewrite E in R. exact R.
Qed.

Lemma step_ask l h w id : inv l h w -> In id l -> next l h (AskRsa id) w.
Proof.
  intros I L. destruct (found _ _ _ _ I L) as (v & before & after & F & E & SE & B & A).
  unfold next, step, rsa_aes_send_public_key. rewrite F.
  destruct (let_go _ _ _ _ _ _ I SE) as (ks & G & P & N & O).
  destruct (v_rsa v) as [k|] eqn:R.
  - exists w, 0. split; [reflexivity|]. split; [|exact Logic.I]. eapply unchanged with (v := v); try eassumption.
    apply ok_after; [|cbn; congruence]. pose proof (i_servers _ _ _ I) as SV. rewrite Forall_forall in SV. apply SV.
    rewrite SE. apply in_or_app. right. left. reflexivity.
  - cbn [free_key] in G. assert (Q : ks = keys w) by (destruct w; cbn in *; congruence). subst ks.
    unfold new_key. eexists _, _. split; [reflexivity|]. split; [|exact Logic.I].
    unfold store. cbn [depth creds keys fresh servers v_id].
    rewrite SE, (stored v (mk_server id (v_tls v) (Some (fresh w)) (v_sessions v))) by assumption.
    pose proof (rekeyed l h w before v after (keys w) (AskRsa id) 0 I SE E B A P N O Logic.I) as X.
    rewrite E in X. exact X.
Qed.

Lemma step_upgrade l h w id c i s : inv l h w -> In id l -> next l h (Upgrade id c i s) w.
Proof.
  intros I L. destruct (found _ _ _ _ I L) as (v & before & after & F & E & SE & B & A).
  unfold next, step, stream_upgrade_to_tls. rewrite F.
  assert (V : In v (servers w)) by (rewrite SE; apply in_or_app; right; left; reflexivity).
  assert (OK : server_ok h (creds w) v).
  { pose proof (i_servers _ _ _ I) as SV. rewrite Forall_forall in SV. apply SV, V. }
  assert (SAME : forall r, inv l (h ++ [(Upgrade id c i s, r)]) w).
  { intros r. eapply unchanged with (v := v); try eassumption. apply ok_after; [exact OK|exact Logic.I]. }
  destruct (v_tls v) as [a|] eqn:T.
  2:{ eexists _, _. split; [reflexivity|]. split; [apply SAME|exact Logic.I]. }
  destruct i; cbn [negb].
  2:{ eexists _, _. split; [reflexivity|]. split; [apply SAME|exact Logic.I]. }
  destruct s; cbn [negb].
  2:{ eexists _, _. split; [reflexivity|]. split; [apply SAME|exact Logic.I]. }
  rewrite (tls_live _ _ _ _ _ I V T). cbn [negb].
  eexists _, _. split; [reflexivity|]. split; [|exact Logic.I].
  unfold store. cbn [depth creds keys fresh servers v_id].
  rewrite SE, (stored v (mk_server id (Some a) (v_rsa v) (mk_session c a :: v_sessions v))) by assumption.
  eapply replaced with (v := v); try eassumption; try reflexivity; [symmetry; exact T|].
  destruct OK as (TO & K & SS). unfold server_ok. rewrite accepted_add, keyed_add. cbn [v_id v_tls v_rsa v_sessions].
  rewrite T in TO. rewrite E in *. split; [exact TO|]. split; [exact K|].
  intros x [X|X]; [subst x; reflexivity|]. rewrite <- T. apply SS, X.
Qed.

Lemma step_leave l h w id c : inv l h w -> In id l -> next l h (Leave id c) w.
Proof.
  intros I L. destruct (found _ _ _ _ I L) as (v & before & after & F & E & SE & B & A).
  unfold next, step, client_close. rewrite F.
  assert (V : In v (servers w)) by (rewrite SE; apply in_or_app; right; left; reflexivity).
  assert (OK : server_ok h (creds w) v).
  { pose proof (i_servers _ _ _ I) as SV. rewrite Forall_forall in SV. apply SV, V. }
  eexists _, _. split; [reflexivity|]. split; [|exact Logic.I].
  unfold store. cbn [depth creds keys fresh servers v_id].
  rewrite SE, (stored v (mk_server id (v_tls v) (v_rsa v) (filter (fun s => negb (Nat.eqb (s_client s) c)) (v_sessions v)))) by assumption.
  eapply replaced with (v := v); try eassumption; try reflexivity.
  destruct OK as (TO & K & SS). unfold server_ok. rewrite accepted_add, keyed_add. cbn [v_id v_tls v_rsa v_sessions].
  rewrite E in *. split; [exact TO|]. split; [exact K|].
  intros x X. apply filter_In in X as [X _]. apply SS, X.
Qed.

Lemma step_del l h w id : inv l h w -> In id l -> next l h (Del id) w.
Proof.
  intros I L. destruct (found _ _ _ _ I L) as (v & before & after & F & E & SE & B & A).
  unfold next, step, nvnc_del. rewrite F.
  assert (V : In v (servers w)) by (rewrite SE; apply in_or_app; right; left; reflexivity).
  set (v0 := mk_server id (v_tls v) (v_rsa v) []).
  destruct (let_go _ _ _ _ _ _ I SE) as (ks & G & P & N & O).
  assert (G' : free_key (v_rsa v) (store v0 w) =
               Ok (mk_world (depth w) (creds w) ks (fresh w) (before ++ v0 :: after))).
  { unfold free_key in *. unfold store. cbn [depth creds keys fresh servers].
    rewrite SE, (stored v v0) by assumption. destruct (v_rsa v) as [k|].
    - destruct (existsb (Nat.eqb k) (keys w)); [|discriminate G]. injection G as G. rewrite G. reflexivity.
    - destruct w; cbn in *. injection G as G. congruence. }
  rewrite G'. cbn [bind].
  assert (W : forall cs d, Permutation (map c_at cs) (flat_map (fun v => opt_list (v_tls v)) before ++ flat_map (fun v => opt_list (v_tls v)) after) ->
     NoDup (map c_at cs) -> Forall (fun a => (a < fresh w)%nat) (map c_at cs) -> d = Z.of_nat (length cs) ->
     (forall a f x, In x before \/ In x after -> v_tls x = Some a -> In (mk_cred a f) (creds w) -> In (mk_cred a f) cs) ->
     inv (opened_from l [Del id]) (h ++ [(Del id, 0)])
       (mk_world d cs ks (fresh w) (filter (fun x => negb (Nat.eqb (v_id x) id)) (before ++ v0 :: after)))).
  { intros cs d P1 N1 O1 D1 H1. rewrite (without v0) by (assumption || reflexivity). parts I.
    rewrite SE in *. apply Forall_app in SV as [SB SV]. apply Forall_cons_iff in SV as [_ SA].
    constructor; cbn [depth creds keys fresh servers]; rewrite ?flat_map_app; try assumption.
    - cbn [opened_from]. rewrite <- IDS. symmetry. apply remove_map; assumption.
    - cbn [opened_from]. rewrite <- IDS. rewrite remove_map by assumption.
      rewrite <- IDS, map_app in ND. cbn [map] in ND. apply NoDup_remove_1 in ND. rewrite map_app. exact ND.
    - apply Forall_app. split; (eapply others_ok; [eassumption|eassumption|]); intros a f x X Y Z; (apply (H1 a f x); [tauto|assumption|assumption]). }
  destruct (v_tls v) as [a|] eqn:T.
  - destruct (no_sessions _ _ _ _ _ _ a I SE (or_introl T)) as [NB NA].
    unfold free_creds. cbn [depth creds keys fresh servers]. rewrite (tls_live _ _ _ _ _ I V T). cbn [negb].
    rewrite existsb_app. cbn [existsb v0 v_sessions]. rewrite NB, NA. cbn [orb bind add_depth depth creds keys fresh servers].
    eexists _, _. split; [reflexivity|]. split; [|exact Logic.I].
    pose proof I as I2. parts I. rewrite SE, flat_mid, T in CR. cbn [opt_list] in CR.
    apply W.
    + rewrite filter_map_at. apply taken; assumption.
    + rewrite filter_map_at. apply NoDup_filter. exact CN.
    + rewrite filter_map_at. apply Forall_filter. exact CO.
    + rewrite DE. pose proof (Permutation_length CR) as LC. rewrite map_length, app_length in LC. cbn [length app] in LC.
      pose proof (Permutation_length (taken a _ _ _ CN CR)) as LF. rewrite <- filter_map_at, map_length, app_length in LF. lia.
    + intros b f x X Y Q. apply in_filter_at; [exact Q|]. cbn [c_at]. intros J. subst b.
      exact (tls_apart _ _ _ _ _ _ a I2 SE T x X Y).
  - eexists _, _. split; [reflexivity|]. split; [|exact Logic.I]. cbn [depth creds keys fresh servers].
    pose proof I as I2. parts I. rewrite SE, flat_mid, T in CR. cbn [opt_list app] in CR. apply W; try assumption. auto.
Qed.

Lemma one_step l h w o : inv l h w -> allowed l o -> next l h o w.
Proof.
  intros I A. destruct o; cbn [allowed about] in A;
    [apply step_new|apply step_tls|apply step_rsa|apply step_ask|apply step_upgrade|apply step_leave|apply step_del]; assumption.
Qed.

Lemma opened_app l a b : opened_from l (a ++ b) = opened_from (opened_from l a) b.
Proof. revert l. induction a as [|o a IH]; intros l; [reflexivity|]. destruct o; cbn [app opened_from]; apply IH. Qed.

Lemma all_steps ops : forall l h w, inv l h w -> proper_from l ops -> exists w' h',
  run ops w = Ok (w', h') /\ inv (opened_from l ops) (h ++ h') w' /\ map fst h' = ops.
Proof.
  induction ops as [|o ops IH]; intros l h w I P.
  - exists w, []. split; [reflexivity|]. rewrite app_nil_r. split; [exact I|reflexivity].
  - cbn [proper_from] in P. destruct P as [A P]. destruct (one_step l h w o I A) as (w1 & r & S & I1 & _).
    destruct (IH _ _ _ I1 P) as (w2 & h2 & R & I2 & M).
    exists w2, ((o, r) :: h2). cbn [run]. rewrite S. cbn [bind]. rewrite R. split; [reflexivity|].
    split; [|cbn [map fst]; rewrite M; reflexivity].
    change (o :: ops) with ([o] ++ ops). rewrite opened_app. rewrite <- app_assoc in I2. exact I2.
Qed.

Lemma inv_empty : inv [] [] empty.
Proof. constructor; cbn; try constructor. Qed.

Lemma proper_app l a b : proper_from l (a ++ b) <-> proper_from l a /\ proper_from (opened_from l a) b.
Proof.
  revert l. induction a as [|o a IH]; intros l; [cbn; tauto|]. cbn [app proper_from]. rewrite IH.
  change (o :: a) with ([o] ++ a). rewrite opened_app. tauto.
Qed.

Lemma run_app a b w : run (a ++ b) w =
  let* (w, h) := run a w in let* (w, g) := run b w in Ok (w, h ++ g).
Proof.
  revert w. induction a as [|o a IH]; intros w; cbn [app run bind].
  - destruct (run b w) as [[w1 h1]|]; reflexivity.
  - destruct (step o w) as [[w1 r]|]; [|reflexivity]. cbn [bind]. rewrite IH.
    destruct (run a w1) as [[w2 h2]|]; [|reflexivity]. cbn [bind]. destruct (run b w2) as [[w3 h3]|]; reflexivity.
Qed.

Lemma count_tls l h w : inv l h w -> length (creds w) = how_many (fun id => is_some (accepted id h)) l.
Proof.
  intros I. parts I. apply Permutation_length in CR. rewrite map_length in CR. rewrite CR. unfold how_many. rewrite <- IDS.
  clear - SV. induction SV as [|v vs (T & _) _ IH]; [reflexivity|]. cbn [flat_map map filter]. rewrite app_length, IH.
  destruct (v_tls v); [destruct T as (f & T & _)|]; rewrite T; reflexivity.
Qed.

Lemma count_keys l h w : inv l h w -> length (keys w) = how_many (fun id => keyed id h) l.
Proof.
  intros I. parts I. apply Permutation_length in KE. rewrite KE. unfold how_many. rewrite <- IDS.
  clear - SV. induction SV as [|v vs (_ & K & _) _ IH]; [reflexivity|]. cbn [flat_map map filter]. rewrite app_length, IH.
  destruct (v_rsa v); rewrite K; reflexivity.
Qed.
