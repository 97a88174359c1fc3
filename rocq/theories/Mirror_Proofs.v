From Verif Require Import Common CommonProofs Pixels_Model Msg_Model Msg_Proofs Upd_Spec Upd_Proofs Upd2_Proofs Upd3_Proofs Mirror_Spec.

Lemma in_region_covers r x y : in_region r x y = true <-> covers r x y.
Proof.
  unfold in_region, covers. rewrite existsb_exists, Exists_exists. split; intros ([[[x1 y1] x2] y2] & I & H); exists (x1, y1, x2, y2); (split; [exact I|]); lia.
Qed.

Lemma in_flight_app l1 l2 : in_flight (l1 ++ l2) = fold_left flight l2 (in_flight l1).
Proof. unfold in_flight. apply fold_left_app. Qed.
Lemma flight_none l : fold_left flight l None = None.
Proof. induction l as [|o l IH]; [reflexivity|]. cbn [fold_left]. replace (flight None o) with (@None bool) by (destruct o; reflexivity). exact IH. Qed.
Lemma in_flight_prefix l1 l2 : in_flight (l1 ++ l2) <> None -> in_flight l1 <> None.
Proof. rewrite in_flight_app. intros H E. rewrite E, flight_none in H. congruence. Qed.

Lemma none_lost_prefix l1 l2 : none_lost (l1 ++ l2) -> none_lost l1.
Proof. intros H. apply Forall_app in H. apply H. Qed.

Lemma movesg_log Q P c c' : movesg Q P c c' -> exists l, log c' = log c ++ l.
Proof.
  induction 1 as [c|a b c M _ [l IH]]; [exists []; symmetry; apply app_nil_r|].
  destruct M as [a b l0 _ L _|a b r0 _ L|a b f ok _ _ L]; rewrite IH, L.
  - rewrite <- app_assoc. eauto.
  - eauto.
  - rewrite <- app_assoc. eauto.
Qed.

Section P.
Variable A : Type.
Variable wide : list Z -> Z -> Z -> bool.
Variables x y : Z.
Variable Un : Prop. (* whether the client may have been sent nothing yet *)

Definition I1 (c : client) (v : sight A) : Prop := coming A v <> None -> in_flight (log c) = Some true.
Definition I2 (c : client) (v : sight A) (Pc : picture A) : Prop :=
  covers (damage c) x y \/
  (exists r P, coming A v = Some (r, P) /\ covers r x y /\ P x y = Pc x y) \/
  ((forall r P, coming A v = Some (r, P) -> ~ covers r x y /\ P x y = Pc x y) /\ (Un /\ screen A v x y = None \/ screen A v x y = Some (Pc x y))).

Lemma see_plain Pc l : forall v, Forall plain l -> fold_left (see A wide Pc) l v = v.
Proof. induction l as [|o l IH]; intros v H; [reflexivity|]. inversion H as [|? ? O F]; subst. cbn [fold_left].
  replace (see A wide Pc v o) with v; [auto|]. destruct o as [|k b| | | | | | | | | | |r w h ok| | |]; try reflexivity; try contradiction; destruct k; first [contradiction|reflexivity]. Qed.
Lemma flight_plain l : forall s, Forall plain l -> fold_left flight l s = s.
Proof. induction l as [|o l IH]; intros s H; [reflexivity|]. inversion H as [|? ? O F]; subst. cbn [fold_left].
  replace (flight s o) with s; [auto|]. destruct o; try reflexivity; destruct O. Qed.

Lemma moves_see Pc a b : movesg plain (holds x y) a b -> in_flight (log b) <> None -> none_lost (log b) -> forall v,
  I1 a v -> I2 a v Pc -> exists new, log b = log a ++ new /\ I1 b (fold_left (see A wide Pc) new v) /\ I2 b (fold_left (see A wide Pc) new v) Pc.
Proof.
  induction 1 as [c|a b c M MM IH]; intros NF NL v H1 H2.
  { exists []. rewrite app_nil_r. auto. }
  specialize (IH NF NL). 
  destruct M as [a b l D L F|a b r D L|a b f ok G D L].
  - destruct (IH v) as (new & E & K1 & K2).
    + unfold I1 in *. rewrite L, in_flight_app, flight_plain by exact F. exact H1.
    + unfold I2 in *. rewrite D. exact H2.
    + exists (l ++ new). rewrite E, L, app_assoc, fold_left_app, (see_plain Pc l v F). auto.
  - destruct (IH v) as (new & E & K1 & K2).
    + unfold I1 in *. rewrite L. exact H1.
    + unfold I2 in *. rewrite D. destruct H2 as [H2|H2]; [left; apply covers_app; auto|right; exact H2].
    + exists new. rewrite E, L. auto.
  - set (o := Encode (intersect_rect (damage a) 0 0 (fb_w f) (fb_h f)) (fb_w f) (fb_h f) ok) in *.
    destruct (movesg_log _ _ _ _ MM) as [l2 L2]. rewrite L2, L in NF, NL.
    assert (OK : ok = true).
    { apply none_lost_prefix in NL. apply Forall_app in NL as [_ NL]. inversion NL as [|? ? O _]. subst o. destruct ok; [reflexivity|destruct O]. }
    subst ok. apply in_flight_prefix in NF. rewrite in_flight_snoc in NF.
    assert (FL : in_flight (log a) = Some false) by (subst o; cbn [flight] in NF; destruct (in_flight (log a)) as [[|]|]; congruence).
    assert (C0 : coming A v = None).
    { destruct (coming A v) as [t|] eqn:C; [|reflexivity]. unfold I1 in H1. rewrite C in H1. specialize (H1 ltac:(discriminate)). congruence. }
    destruct (IH (see A wide Pc v o)) as (new & E & K1 & K2).
    + intros _. rewrite L, in_flight_snoc, FL. reflexivity.
    + unfold I2 in *. cbn [see o coming screen]. destruct (in_region (intersect_rect (damage a) 0 0 (fb_w f) (fb_h f)) x y) eqn:IR.
      * right. left. eexists _, _. split; [reflexivity|]. split; [now apply in_region_covers|reflexivity].
      * right. right. destruct H2 as [H2|[(r & P & H2 & _)|[_ H2]]].
        -- exfalso. destruct G as (G1 & G2 & G3 & G4). apply (covers_inter _ (fb_w f) (fb_h f)) in H2; auto.
           apply in_region_covers in H2. congruence.
        -- congruence.
        -- split; [|exact H2]. intros r P [= <- <-]. split; [|reflexivity]. intros K. apply in_region_covers in K. congruence.
    + exists (o :: new). rewrite E, L, <- app_assoc. split; [reflexivity|]. split; assumption.
Qed.

(* the picture stays while the model goes from c to c' *)
Definition T (c : client) (v : sight A) (Pc : picture A) (c' : client) : Prop :=
  in_flight (log c') <> None -> none_lost (log c') -> I1 c v -> I2 c v Pc ->
  exists new, log c' = log c ++ new /\ I1 c' (fold_left (see A wide Pc) new v) /\ I2 c' (fold_left (see A wide Pc) new v) Pc.

Lemma T_plain v Pc c c' : mvg plain c c' -> good_disp (holds x y) c -> T c v Pc c'.
Proof. intros [M _] G NF NL K1 K2. apply (moves_see Pc c c'); auto. Qed.

(* a change that says nothing *)
Lemma T_after v Pc c c1 c' : log c1 = log c -> damage c1 = damage c -> T c1 v Pc c' -> T c v Pc c'.
Proof.
  intros L D H NF NL K1 K2. unfold I1, I2 in *. rewrite <- L, <- D in *. auto.
Qed.

(* the frame is sent: the rest follows from what holds then *)
Lemma T_frame v Pc c c2 c' b : log c2 = log c ++ [Update KFrame b] -> (forall a b, covers (damage c) a b -> covers (damage c2) a b) ->
  (forall v', coming A v' = None -> T c2 v' Pc c') -> T c v Pc c'.
Proof.
  intros L D H NF NL K1 K2.
  destruct (H (see A wide Pc v (Update KFrame b)) eq_refl NF NL) as (new & E & N1 & N2).
  - intros X. cbn in X. congruence.
  - unfold I2 in *. cbn [see coming screen]. destruct K2 as [K2|[(r & P & C & K2 & Q)|[K2 Q]]].
    + left. auto.
    + right. right. split; [discriminate|]. right. rewrite C. unfold paint. cbn [fst snd]. rewrite (proj2 (in_region_covers r x y) K2). cbn [orb]. congruence.
    + right. right. split; [discriminate|]. destruct (coming A v) as [[r P]|]; [|exact Q]. unfold paint. cbn [fst snd].
      destruct (in_region r x y || wide b x y); [|exact Q]. right. f_equal. apply (K2 r P eq_refl).
  - exists (Update KFrame b :: new). rewrite E, L, <- app_assoc. auto.
Qed.

(* it has been written *)
Lemma T_completed v Pc c c2 c' : log c2 = log c ++ [Completed] -> damage c2 = damage c -> coming A v = None -> T c2 v Pc c' -> T c v Pc c'.
Proof.
  intros L D C H NF NL K1 K2.
  destruct (H NF NL) as (new & E & N1 & N2).
  - intros X. congruence.
  - unfold I2 in *. rewrite D. exact K2.
  - exists (Completed :: new). rewrite E, L, <- app_assoc. auto.
Qed.

Lemma T_complete E r v Pc c c' : (forall c c', r c = Ok c' -> mvg plain c c') -> good_disp (holds x y) c -> coming A v = None ->
  complete_update E r c = Ok c' -> T c v Pc c' /\ disp c' = disp c.
Proof.
  intros R G C. unfold complete_update. destruct (negb _).
  - intros [= <-]. split; [|reflexivity]. apply T_plain; [apply mv_refl|exact G].
  - intros H. apply (process_mvg plain (fun _ H => H) E r R) in H. split; [|apply H].
    eapply T_completed; [| |exact C|]; [| |apply T_plain; [exact H|exact G]]; reflexivity.
Qed.

Lemma T_trans v Pc c c1 c' : (exists l, log c' = log c1 ++ l) ->
  T c v Pc c1 -> (forall v', T c1 v' Pc c') -> T c v Pc c'.
Proof.
  intros [l L] H1 H2 NF NL K1 K2. rewrite L in NF, NL.
  destruct (H1 (in_flight_prefix _ _ NF) (none_lost_prefix _ _ NL) K1 K2) as (n1 & E1 & A1 & B1).
  rewrite <- L in NF, NL. destruct (H2 _ NF NL A1 B1) as (n2 & E2 & A2 & B2).
  exists (n1 ++ n2). rewrite E2, E1, app_assoc, fold_left_app. auto.
Qed.

Lemma T_finish E r v Pc f c c' : (forall c c', r c = Ok c' -> mvg plain c c') -> good_disp (holds x y) c -> closed c = false ->
  none_lost (log c') -> finish_update E r f c = Ok c' -> T c v Pc c'.
Proof.
  intros R G O NL. unfold finish_update. rewrite O. destruct (_ && _).
  { intros H. exfalso. unfold complete_update in H.
    assert (X : exists l, log c' = log (say Dropped (set_pending (pending c + 1) c)) ++ l).
    { destruct (negb _).
      - apply ok_inj in H. subst c'. exists []. symmetry. apply app_nil_r.
      - apply (process_mvg plain (fun _ H => H) E r R) in H. destruct H as [H _]. specialize (H (holds x y) G).
        apply movesg_log in H as [l H]. exists (Completed :: l). rewrite H. cbn. rewrite <- app_assoc. reflexivity. }
    destruct X as [l X]. rewrite X in NL. apply none_lost_prefix in NL. cbn in NL. apply Forall_app in NL as [_ NL]. inversion NL as [|? ? K _]. exact K. }
  set (resized := negb _). destruct (resized && _); [discriminate|].
  set (c1 := if resized then set_damage _ _ else c).
  assert (M1 : log c1 = log c /\ disp c1 = disp c /\ forall a b, covers (damage c) a b -> covers (damage c1) a b).
  { subst c1. destruct resized; [|auto]. split; [reflexivity|]. split; [reflexivity|]. intros a b K.
    cbn [damage set_damage]. apply covers_union. auto. }
  destruct M1 as (L1 & D1 & C1). clearbody c1. intros H. apply bind_ok in H as (c3 & H & H2).
  match type of H with context [say ?u c1] => set (o := u) in H end.
  eapply (T_frame v Pc c (say o c1) c'); [cbn; rewrite L1; reflexivity|exact C1|].
  intros v' C'. apply (ppf_mvg plain (fun _ H => H) r R) in H2.
  assert (G1 : good_disp (holds x y) (say o c1)) by (intros g F; apply G; rewrite <- D1; exact F).
  assert (X : T (say o c1) v' Pc c3 /\ disp c3 = disp (say o c1)).
  { revert H. destruct (e_sync _ _).
    - intros H. now apply (T_complete E r).
    - intros [= <-]. split; [|reflexivity]. apply T_plain; [apply mv_refl|exact G1]. }
  destruct X as [X X'].
  assert (M : mvg plain c3 c') by (eapply mv_trans; [apply (ping_mvg plain (fun _ H => H))|exact H2]).
  assert (G3 : good_disp (holds x y) c3) by (intros g F; apply G1; congruence).
  eapply T_trans; [|exact X|].
  - destruct M as [M _]. specialize (M _ G3). apply movesg_log in M. exact M.
  - intros v''. apply T_plain; assumption.
Qed.

Lemma step_T E fuel c i c' v Pc Pc' : good_disp (holds x y) c -> input_holds x y i -> closed c = false ->
  (Pc' x y = Pc x y \/ exists f r, i = IDamage f r /\ covers r x y) ->
  match i, coming A v with IEncoded _, None => False | IWritten, Some _ => False | _, _ => True end ->
  in_flight (log c') <> None -> none_lost (log c') -> I1 c v -> I2 c v Pc -> step E fuel c i = Ok c' ->
  good_disp (holds x y) c' /\ exists new, log c' = log c ++ new /\ I1 c' (fold_left (see A wide Pc') new v) /\ I2 c' (fold_left (see A wide Pc') new v) Pc'.
Proof.
  intros G IH O CH W NF NL K1 K2 H.
  assert (R : forall c c', receive E fuel c (e_more E (log c)) = Ok c' -> mvg plain c c').
  { intros. eapply receive_mvg; eauto. }
  split.
  { destruct (step_moves E fuel c i c' (holds x y) H G) as [_ X]; [|exact X]. intros f r ->. exact IH. }
  assert (SAME : (forall f r, i <> IDamage f r) -> I2 c v Pc').
  { intros N. destruct CH as [CH|(f & r & -> & _)]; [|destruct (N f r eq_refl)]. unfold I2 in *. rewrite CH. exact K2. }
  unfold step in H. destruct i as [d|f r|f| |s| |].
  - rewrite O in H. apply (receive_mvg plain (fun _ H => H)) in H. apply (T_plain v Pc' c c'); auto. apply SAME. discriminate.
  - change (closed (set_disp (Some f) c)) with (closed c) in H. rewrite O in H.
    apply (process_mvg plain (fun _ H => H) E _ R) in H. set (c1 := set_damage _ _) in H.
    destruct (T_plain v Pc' c1 c' H) as (new & E1 & E2 & E3); auto.
    + intros g F. cbn in F. injection F as <-. exact IH.
    + unfold I2 in *. subst c1. cbn [damage set_damage set_disp]. unfold region_union.
      destruct CH as [CH|(f' & r' & [= <- <-] & CH)]; [|left; apply covers_app; auto].
      rewrite CH. destruct K2 as [K2|K2]; [left; apply covers_app; auto|right; exact K2].
    + exists new. auto.
  - apply (T_finish E _ v Pc' f c c' R) in H; auto. apply H; auto. apply SAME. discriminate.
  - destruct (coming A v) eqn:CM; [destruct W|]. apply (T_complete E _ v Pc' c c' R) in H; auto. apply H; auto. apply SAME. discriminate.
  - apply (process_mvg plain (fun _ H => H) E _ R) in H. apply (T_plain v Pc' (set_led_want s c) c'); auto. apply SAME. discriminate.
  - apply (process_mvg plain (fun _ H => H) E _ R) in H. apply (T_plain v Pc' (set_srv_seq (srv_seq c + 1) c) c'); auto. apply SAME. discriminate.
  - apply ok_inj in H. subst c'. exists []. cbn. rewrite app_nil_r. split; [reflexivity|]. split; [exact K1|]. apply SAME. discriminate.
Qed.

Lemma since_new c c' new : log c' = log c ++ new -> since c c' = new.
Proof. intros E. unfold since. rewrite E, skipn_app, skipn_all, Nat.sub_diag. reflexivity. Qed.

Lemma watch_log E fuel : forall l c v c' v', watch A wide E fuel l c v = Ok (c', v') -> exists new, log c' = log c ++ new.
Proof.
  induction l as [|[i P] l IH]; intros c v c' v'; cbn [watch].
  - intros [= <- <-]. exists []. symmetry. apply app_nil_r.
  - intros H. apply bind_ok in H as (c1 & H & H2). destruct (IH _ _ _ _ H2) as [n2 E2].
    destruct (run_log E fuel [i] c c1) as [n1 E1]; [cbn [run]; rewrite H; reflexivity|].
    exists (n1 ++ n2). rewrite E2, E1, app_assoc. reflexivity.
Qed.

Lemma last_cons {B} (a d : B) l : last (a :: l) d = last l a.
Proof. revert a d. induction l as [|b l IH]; intros a d; [reflexivity|]. change (last (a :: b :: l) d) with (last (b :: l) d). rewrite IH. symmetry. rewrite IH. reflexivity. Qed.

Lemma watch_right E fuel md : (md = true -> lonely E) -> forall l c v c' v' Pc,
  watch A wide E fuel l c v = Ok (c', v') -> steady A l Pc -> orderly A wide E fuel l c v = true -> Forall (fun z => input_holds x y (fst z)) l ->
  md = true \/ no_fence (log c') -> none_lost (log c') -> good_disp (holds x y) c -> J md 0 c -> I1 c v -> I2 c v Pc ->
  I1 c' v' /\ I2 c' v' (last_picture A Pc l) /\ in_flight (log c') = Some (updating c').
Proof.
  intros LE. induction l as [|[i P] l IH]; intros c v c' v' Pc; cbn [watch steady orderly].
  - intros [= <- <-] _ _ _ _ _ _ [] K1 K2. auto.
  - intros H [CH ST] OR F NF NL G JJ K1 K2. apply bind_ok in H as (c1 & H & H2). rewrite H in OR.
    apply andb_prop in OR as [OR PL]. apply andb_prop in OR as [O W]. apply negb_true_iff in O.
    assert (W' : match i, coming A v with IEncoded _, None => False | IWritten, Some _ => False | _, _ => True end)
      by (destruct i, (coming A v); first [exact I|discriminate]). clear W.
    inversion F as [|? ? F1 F2]; subst. cbn [fst] in F1.
    destruct (watch_log _ _ _ _ _ _ _ H2) as [n2 E2].
    assert (NF1 : md = true \/ no_fence (log c1)).
    { destruct NF as [NF|NF]; [auto|right]. rewrite E2 in NF. eapply no_fence_prefix. exact NF. }
    assert (J1 : J md 0 c1) by (eapply step_J; eauto).
    assert (X : in_flight (log c1) <> None) by (rewrite (j_flight _ _ _ J1); discriminate).
    destruct (step_T E fuel c i c1 v Pc P G F1 O (CH x y) W' X) as [G1 (new & E1 & A1 & B1)]; auto.
    { rewrite E2 in NL. eapply none_lost_prefix. exact NL. }
    rewrite (since_new c c1 new E1) in *.
    unfold last_picture. cbn [map snd]. rewrite last_cons. apply (IH c1 (fold_left (see A wide P) new v)); auto.
Qed.
End P.
