(** More proofs for Ev_Props.v: what follows from the kinds of changes. *)
From Verif Require Import Common CommonProofs Pixels_Model Msg_Model Msg_Spec Msg2_Spec Msg_Proofs Upd_Spec Upd_Proofs Ev_Spec Ev2_Proofs.

(** ** Regions *)

Lemma covers_app a b x y : covers (a ++ b) x y <-> covers a x y \/ covers b x y.
Proof. unfold covers. rewrite Exists_app. reflexivity. Qed.

Lemma span x w p a b : a = to_signed 16 (x mod 2 ^ 16) -> b = to_signed 16 ((x + w) mod 2 ^ 16) ->
  a <= p < b -> within x w p.
Proof.
  intros A B P. unfold within.
  assert (K : exists k, x = a + k * 2 ^ 16).
  { unfold to_signed in A. pose proof (Z.div_mod x (2 ^ 16) ltac:(lia)). destruct (_ <? _) eqn:L in A;
      [exists (x / 2 ^ 16)|exists (x / 2 ^ 16 + 1)]; lia. }
  assert (J : exists k, x + w = b + k * 2 ^ 16).
  { unfold to_signed in B. pose proof (Z.div_mod (x + w) (2 ^ 16) ltac:(lia)). destruct (_ <? _) eqn:L in B;
      [exists ((x + w) / 2 ^ 16)|exists ((x + w) / 2 ^ 16 + 1)]; lia. }
  assert (R : - 2 ^ 15 <= a < 2 ^ 15 /\ - 2 ^ 15 <= b < 2 ^ 15).
  { subst a b. unfold to_signed. pose proof (Z.mod_pos_bound x (2 ^ 16) ltac:(lia)).
    pose proof (Z.mod_pos_bound (x + w) (2 ^ 16) ltac:(lia)).
    change (2 ^ 16 / 2) with (2 ^ 15). change (16 - 1) with 15.
    split; (destruct (_ <? _) eqn:L; [apply Z.ltb_lt in L|apply Z.ltb_ge in L]; lia). }
  destruct K as [k K]. destruct J as [j J].
  rewrite <- (Z.mod_unique (p - x) (2 ^ 16) (- k) (p - a)) by lia.
  rewrite <- (Z.mod_unique w (2 ^ 16) (j - k) (b - a)) by lia. lia.
Qed.

Lemma union_covers d x y w h px py : covers (union_rect d x y w h) px py ->
  covers d px py \/ (within x w px /\ within y h py).
Proof.
  unfold union_rect. destruct (good_box _); [|auto]. rewrite covers_app. intros [H|H]; [auto|right].
  unfold covers in H. inversion H as [? ? B|? ? B]; subst; [|inversion B].
  unfold rect_box in B. destruct B as [B1 B2]. split; eapply span; eauto.
Qed.

Lemma inter_covers d x y w h px py : covers (intersect_rect d x y w h) px py -> covers d px py.
Proof.
  unfold covers, intersect_rect. rewrite !Exists_exists. intros (b & I & B). apply filter_In in I as [I _].
  apply in_map_iff in I as (a & E & I). exists a. split; [exact I|].
  destruct a as [[[a1 a2] a3] a4]. destruct (rect_box x y w h) as [[[b1 b2] b3] b4]. cbn in E. subst b. lia.
Qed.

(** ** Nothing is sent unasked *)

Definition asked (l : list out) (c c' : client) : Prop :=
  forall px py, covers (damage c') px py \/ encoded l px py -> covers (damage c) px py \/ requested l px py.

Lemma encoded_app l m x y : encoded (l ++ m) x y <-> encoded l x y \/ encoded m x y.
Proof.
  unfold encoded. split.
  - intros (r & w & h & ok & I & C). apply in_app_iff in I as [I|I]; [left|right]; eauto 6.
  - intros [(r & w & h & ok & I & C)|(r & w & h & ok & I & C)]; exists r, w, h, ok; (split; [apply in_or_app; auto|exact C]).
Qed.
Lemma requested_app l m x y : requested l x y \/ requested m x y -> requested (l ++ m) x y.
Proof. intros [(a & b & w & h & I & C)|(a & b & w & h & I & C)]; exists a, b, w, h; (split; [apply in_or_app; auto|exact C]). Qed.

Lemma plain_not_encoded l x y : Forall plain l -> ~ encoded l x y.
Proof. intros F (r & w & h & ok & I & _). rewrite Forall_forall in F. exact (F _ I). Qed.

Lemma atom_asked c c' : atom c c' -> exists l, log c' = log c ++ l /\ asked l c c'.
Proof.
  destruct 1 as [c c' l F L D _ _ _ _ _ _|c c' x y w h l F L D _ _ _ _ _ _|c c' inc x y w h _ L D _ _ _ _ _ _
    |c c' f ok P L D _ _ _ _|c c' L D _ _ _ _|c c' on L D _ _ _ _ _ _|c c' _ _ L D _ _ _ _|c c' _ _ L D _ _ _ _].
  - exists l. split; [exact L|]. intros px py [H|H]; [left; congruence|destruct (plain_not_encoded _ _ _ F H)].
  - eexists. split; [exact L|]. intros px py [H|H].
    + rewrite D in H. apply union_covers in H as [H|H]; [auto|right]. exists x, y, w, h. split; [apply in_or_app; right; left; reflexivity|exact H].
    + apply encoded_app in H as [H|H]; [destruct (plain_not_encoded _ _ _ F H)|]. destruct H as (r & a & b & k & [I|[]] & _). discriminate I.
  - eexists. split; [exact L|]. intros px py [H|H]; [left; congruence|]. destruct H as (r & a & b & k & [I|[]] & _). discriminate I.
  - eexists. split; [exact L|]. intros px py [H|H]; [rewrite D in H; inversion H|].
    destruct H as (r & a & b & k & [I|[]] & C). injection I as <- <- <- <-. left. eapply inter_covers. exact C.
  - eexists. split; [exact L|]. intros px py [H|H]; [left; congruence|]. destruct H as (r & a & b & k & [I|[]] & _). discriminate I.
  - eexists. split; [exact L|]. intros px py [H|H]; [left; congruence|]. destruct H as (r & a & b & k & I & _).
    destruct on; [destruct I as [I|[]]|destruct I as [I|[I|[]]]]; discriminate I.
  - eexists. split; [exact L|]. intros px py [H|H]; [left; congruence|]. destruct H as (r & a & b & k & [I|[]] & _). discriminate I.
  - exists []. split; [rewrite app_nil_r; exact L|]. intros px py [H|H]; [left; congruence|]. destruct H as (r & a & b & k & [] & _).
Qed.

Lemma tr_asked c c' : tr c c' -> exists l, log c' = log c ++ l /\ asked l c c'.
Proof.
  induction 1 as [c|a b c A _ (l2 & L2 & B2)].
  - exists []. split; [symmetry; apply app_nil_r|]. intros px py [H|(r & w & h & k & [] & _)]. auto.
  - destruct (atom_asked _ _ A) as (l1 & L1 & B1). exists (l1 ++ l2). split; [rewrite L2, L1, app_assoc; reflexivity|].
    intros px py H. assert (X : (covers (damage c) px py \/ encoded l2 px py) \/ encoded l1 px py).
    { destruct H as [H|H]; [auto|]. apply encoded_app in H as [H|H]; auto. }
    destruct X as [X|X].
    + apply B2 in X as [X|X]; [|right; apply requested_app; auto]. destruct (B1 px py (or_introl X)) as [Y|Y]; [auto|].
      right. apply requested_app. auto.
    + destruct (B1 px py (or_intror X)) as [Y|Y]; [auto|]. right. apply requested_app. auto.
Qed.

(** what an input itself brings *)
Definition brings (c : client) (i : input) (px py : Z) : Prop :=
  (exists f r, i = IDamage f r /\ covers r px py) \/
  (exists f, i = IEncoded f /\ known c <> (f_w f, f_h f) /\ within 0 (f_w f) px /\ within 0 (f_h f) py).

Lemma step_asked E fuel c i c' : step E fuel c i = Ok c' -> exists l, log c' = log c ++ l /\
  forall px py, covers (damage c') px py \/ encoded l px py -> covers (damage c) px py \/ requested l px py \/ brings c i px py.
Proof.
  assert (K : forall a b, tr a b -> exists l, log b = log a ++ l /\
    forall px py, covers (damage b) px py \/ encoded l px py -> covers (damage a) px py \/ requested l px py \/ brings a i px py).
  { intros a b T. destruct (tr_asked _ _ T) as (l & L & A). exists l. split; [exact L|]. intros px py H. destruct (A px py H); auto. }
  assert (R : forall c c', receive E fuel c (e_more E (log c)) = Ok c' -> tr c c').
  { intros. eapply receive_tr; eauto. }
  intros H. unfold step in H. destruct i.
  - destruct (closed c); [apply ok_inj in H; subst; apply K; constructor|]. apply receive_tr in H. apply K. exact H.
  - apply (process_tr E _ R) in H. set (c1 := if closed (set_disp (Some f) c) then _ else _) in H.
    assert (X : log c1 = log c /\ forall px py, covers (damage c1) px py -> covers (damage c) px py \/ covers r px py).
    { subst c1. change (closed (set_disp (Some f) c)) with (closed c). destruct (closed c); split; try reflexivity.
      - auto.
      - intros px py. cbn [damage set_damage set_disp region_union]. unfold region_union. rewrite covers_app. auto. }
    destruct X as [X1 X2]. clearbody c1. destruct (tr_asked _ _ H) as (l & L & A). exists l. split; [congruence|].
    intros px py G. destruct (A px py G) as [A1|A1]; [|auto]. destruct (X2 _ _ A1) as [A2|A2]; [auto|].
    right. right. left. eauto.
  - apply (finish_tr E _ R) in H as [H|(c1 & G & H)]; [apply K; exact H|].
    destruct (tr_asked _ _ H) as (l & L & A). destruct G as ((b & GL) & _ & _ & _ & _ & _ & G).
    exists ([Update KFrame b] ++ l). split; [rewrite L, GL, <- app_assoc; reflexivity|].
    intros px py X. assert (Y : covers (damage c1) px py \/ requested l px py).
    { apply A. destruct X as [X|X]; [auto|]. apply encoded_app in X as [(r & w & h & k & [I|[]] & _)|X]; [discriminate I|auto]. }
    destruct Y as [Y|Y]; [|right; left; apply requested_app; auto].
    destruct G as [[_ D]|(N & _ & D)]; [left; congruence|]. rewrite D in Y. apply union_covers in Y as [Y|[Y1 Y2]]; [auto|].
    right. right. right. exists f. auto.
  - apply (complete_tr E _ R) in H. apply K. exact H.
  - apply (process_tr E _ R) in H. apply K. eapply tr_trans; [|exact H]. apply same_tr; reflexivity.
  - apply (process_tr E _ R) in H. apply K. eapply tr_trans; [|exact H]. apply same_tr; reflexivity.
  - apply ok_inj in H. subst c'. apply K. apply same_tr; reflexivity.
Qed.

Lemma run_asked E fuel l : forall c c', run E fuel c l = Ok c' -> exists new, log c' = log c ++ new /\
  forall px py, covers (damage c') px py \/ encoded new px py ->
    covers (damage c) px py \/ requested new px py \/
    (exists f r, In (IDamage f r) l /\ covers r px py) \/
    (exists f, In (IEncoded f) l /\ within 0 (f_w f) px /\ within 0 (f_h f) py).
Proof.
  induction l as [|i l IH]; intros c c'; cbn [run].
  - intros [= <-]. exists []. split; [symmetry; apply app_nil_r|]. intros px py [H|(r & w & h & k & [] & _)]. auto.
  - intros H. apply bind_ok in H as (c1 & H & H2). destruct (step_asked _ _ _ _ _ H) as (l1 & L1 & A1).
    destruct (IH _ _ H2) as (l2 & L2 & A2). exists (l1 ++ l2). split; [rewrite L2, L1, app_assoc; reflexivity|].
    assert (Br : forall px py, brings c i px py -> (exists f r, In (IDamage f r) (i :: l) /\ covers r px py) \/
      (exists f, In (IEncoded f) (i :: l) /\ within 0 (f_w f) px /\ within 0 (f_h f) py)).
    { intros px py [(f & r & -> & C)|(f & -> & _ & C)]; [left; exists f, r|right; exists f]; (split; [left; reflexivity|exact C]). }
    intros px py X.
    assert (Y : (covers (damage c1) px py \/ encoded l1 px py) \/ requested l2 px py \/
      (exists f r, In (IDamage f r) l /\ covers r px py) \/
      (exists f, In (IEncoded f) l /\ within 0 (f_w f) px /\ within 0 (f_h f) py)).
    { destruct X as [X|X]; [destruct (A2 px py (or_introl X)); auto|].
      apply encoded_app in X as [X|X]; [auto|destruct (A2 px py (or_intror X)); auto]. }
    destruct Y as [Y|[Y|[(f & r & I & C)|(f & I & C)]]].
    + apply A1 in Y as [Y|[Y|Y]]; [auto|right; left; apply requested_app; auto|]. destruct (Br _ _ Y); auto.
    + right. left. apply requested_app. auto.
    + right. right. left. exists f, r. split; [right; exact I|exact C].
    + right. right. right. exists f. split; [right; exact I|exact C].
Qed.

(** ** The announcement of continuous updates *)

Lemma count_app p a b : count p (a ++ b) = count p a + count p b.
Proof. unfold count. rewrite filter_app, app_length. lia. Qed.
Lemma not_end l : l <> [150] -> is_cu_end (Sent l) = false.
Proof.
  intros P. destruct l as [|v [|w l]]; [reflexivity| |]; cbn.
  - destruct v as [|v|v]; try reflexivity. do 8 (destruct v as [v|v|]; try reflexivity). contradiction P. reflexivity.
  - destruct v as [|v|v]; try reflexivity. do 8 (destruct v as [v|v|]; try reflexivity).
Qed.
Lemma plain_counts l : Forall plain l -> count is_cu_end l = 0 /\ count is_cu_off l = 0.
Proof.
  induction 1 as [|o l P _ [A B]]; [split; reflexivity|]. change (o :: l) with ([o] ++ l). rewrite !count_app, A, B.
  assert (X : is_cu_end o = false /\ is_cu_off o = false).
  { destruct o; cbn in P; try contradiction; try (split; reflexivity). split; [apply not_end; exact P|reflexivity]. }
  unfold count. cbn [filter]. destruct X as [-> ->]. split; reflexivity.
Qed.

Definition balance (c : client) : Z := count is_cu_end (log c) - count is_cu_off (log c) - Z.b2z (cu_notified c).
Definition noted (c : client) : Prop := has_encoding c ENC_CU = true -> cu_notified c = true.

Lemma enc_eq c c' e : encs c' = encs c -> has_encoding c' e = has_encoding c e.
Proof. unfold has_encoding. intros ->. reflexivity. Qed.

Lemma atom_balance c c' : atom c c' -> balance c' = balance c /\ (noted c -> noted c') /\ (cu_notified c = true -> cu_notified c' = true).
Proof.
  unfold balance, noted.
  destruct 1 as [c c' l F L _ _ _ N _ _ EE|c c' x y w h l F L _ _ _ N _ _ EE|c c' inc x y w h _ L _ _ _ N _ _ EE
    |c c' f ok P L _ _ _ N EE|c c' L _ _ _ N EE|c c' on L _ _ _ N _ _ EE|c c' N N' L _ _ _ _ _|c c' X N L _ _ _ _ _].
  - rewrite L, N, (enc_eq _ _ _ EE), !count_app. destruct (plain_counts l F). split; [lia|auto].
  - rewrite L, N, (enc_eq _ _ _ EE), !count_app. destruct (plain_counts l F). change (count is_cu_end [FbReq 0 x y w h]) with 0. change (count is_cu_off [FbReq 0 x y w h]) with 0. split; [lia|auto].
  - rewrite L, N, (enc_eq _ _ _ EE), !count_app. split; [unfold count; cbn; lia|auto].
  - rewrite L, N, (enc_eq _ _ _ EE), !count_app. split; [unfold count; cbn; lia|auto].
  - rewrite L, N, (enc_eq _ _ _ EE), !count_app. split; [unfold count; cbn; lia|auto].
  - rewrite L, N, (enc_eq _ _ _ EE), !count_app. split; [destruct on; unfold count; cbn; lia|auto].
  - rewrite L, N, N', !count_app. split; [unfold count; cbn; lia|auto].
  - rewrite L, N. split; [lia|auto].
Qed.

Lemma tr_balance c c' : tr c c' -> balance c' = balance c /\ (noted c -> noted c') /\ (cu_notified c = true -> cu_notified c' = true).
Proof.
  induction 1 as [c|a b c A _ (B & N & M)]; [auto|]. destruct (atom_balance _ _ A) as (B' & N' & M').
  split; [congruence|split; auto].
Qed.

Lemma step_balance E fuel c i c' : step E fuel c i = Ok c' ->
  balance c' = balance c /\ (noted c -> noted c') /\ (cu_notified c = true -> cu_notified c' = true).
Proof.
  assert (R : forall c c', receive E fuel c (e_more E (log c)) = Ok c' -> tr c c') by (intros; eapply receive_tr; eauto).
  intros H. unfold step in H. destruct i.
  - destruct (closed c); [apply ok_inj in H; subst; apply tr_balance; constructor|]. apply receive_tr in H. apply tr_balance. exact H.
  - apply (process_tr E _ R) in H. apply tr_balance in H. destruct (closed (set_disp (Some f) c)); exact H.
  - apply (finish_tr E _ R) in H as [H|(c1 & ((b & GL) & _ & EE & GN & _) & H)]; [apply tr_balance; exact H|].
    apply tr_balance in H. destruct H as (B & N & M). unfold balance, noted in *. rewrite B. rewrite GL, GN, !count_app in *.
    rewrite (enc_eq _ _ _ EE) in N. split; [unfold count; cbn; lia|auto].
  - apply (complete_tr E _ R) in H. apply tr_balance. exact H.
  - apply (process_tr E _ R) in H. apply tr_balance in H. exact H.
  - apply (process_tr E _ R) in H. apply tr_balance in H. exact H.
  - apply ok_inj in H. subst c'. unfold balance, noted. auto.
Qed.

Lemma run_balance E fuel l : forall c c', run E fuel c l = Ok c' ->
  balance c' = balance c /\ (noted c -> noted c') /\ (cu_notified c = true -> cu_notified c' = true).
Proof.
  induction l as [|i l IH]; intros c c'; cbn [run]; [intros [= <-]; auto|].
  intros H. apply bind_ok in H as (c1 & H & H2). destruct (step_balance _ _ _ _ _ H) as (B & N & M).
  destruct (IH _ _ H2) as (B2 & N2 & M2). split; [congruence|split; auto].
Qed.

(** ** Frames in a format given up meanwhile *)

Lemma atom_still c c' : atom c c' -> exists l, log c' = log c ++ l /\ ~ sent_frame l /\
  (still l -> updating c' = updating c /\ (fmt_changed c = true -> fmt_changed c' = true)).
Proof.
  unfold sent_frame.
  destruct 1 as [c c' l F L _ _ _ _ U FC _|c c' x y w h l F L _ _ _ _ U FC _|c c' inc x y w h _ L _ _ _ _ U FC _
    |c c' f ok P L _ _ _ _ _|c c' L _ _ _ _ _|c c' on L _ _ _ _ U FC _|c c' _ _ L _ _ _ U FC|c c' _ _ L _ _ _ U FC].
  - exists l. split; [exact L|]. split; [|auto]. intros [b I]. rewrite Forall_forall in F. exact (F _ I).
  - eexists. split; [exact L|]. split; [|auto]. intros [b I]. rewrite Forall_forall in F.
    apply in_app_iff in I as [I|[I|[]]]; [exact (F _ I)|discriminate I].
  - eexists. split; [exact L|]. split; [|auto]. intros [b [I|[]]]. discriminate I.
  - eexists. split; [exact L|]. split; [|intros S; inversion S; contradiction]. intros [b [I|[]]]. discriminate I.
  - eexists. split; [exact L|]. split; [|intros S; inversion S; contradiction]. intros [b [I|[]]]. discriminate I.
  - eexists. split; [exact L|]. split; [|auto]. intros [b I]. destruct on; [destruct I as [I|[]]|destruct I as [I|[I|[]]]]; discriminate I.
  - eexists. split; [exact L|]. split; [|auto]. intros [b [I|[]]]. discriminate I.
  - exists []. split; [rewrite app_nil_r; exact L|]. split; [|auto]. intros [b []].
Qed.

Lemma sent_app l m : sent_frame (l ++ m) -> sent_frame l \/ sent_frame m.
Proof. intros [b I]. apply in_app_iff in I as [I|I]; [left|right]; exists b; exact I. Qed.

Lemma tr_still c c' : tr c c' -> exists l, log c' = log c ++ l /\ ~ sent_frame l /\
  (still l -> updating c' = updating c /\ (fmt_changed c = true -> fmt_changed c' = true)).
Proof.
  induction 1 as [c|a b c A _ (l2 & L2 & S2 & B2)].
  - exists []. split; [symmetry; apply app_nil_r|]. split; [intros [b []]|auto].
  - destruct (atom_still _ _ A) as (l1 & L1 & S1 & B1). exists (l1 ++ l2). split; [rewrite L2, L1, app_assoc; reflexivity|].
    split; [intros H; apply sent_app in H as [H|H]; auto|]. intros S. apply Forall_app in S as [T1 T2].
    destruct (B1 T1), (B2 T2). split; [congruence|auto].
Qed.

Lemma step_still E fuel c i c' : step E fuel c i = Ok c' -> exists l, log c' = log c ++ l /\
  (still l -> updating c' = updating c /\ (fmt_changed c = true -> fmt_changed c' = true)).
Proof.
  assert (K : forall a b, tr a b -> exists l, log b = log a ++ l /\
    (still l -> updating b = updating a /\ (fmt_changed a = true -> fmt_changed b = true))).
  { intros a b T. destruct (tr_still _ _ T) as (l & L & _ & B). eauto. }
  assert (R : forall c c', receive E fuel c (e_more E (log c)) = Ok c' -> tr c c') by (intros; eapply receive_tr; eauto).
  intros H. unfold step in H. destruct i.
  - destruct (closed c); [apply ok_inj in H; subst; apply K; constructor|]. apply receive_tr in H. apply K. exact H.
  - apply (process_tr E _ R) in H. apply K in H. destruct (closed (set_disp (Some f) c)); exact H.
  - apply (finish_tr E _ R) in H as [H|(c1 & ((b & GL) & _ & _ & _ & GU & GF & _) & H)]; [apply K; exact H|].
    apply K in H as (l & L & B). exists (Update KFrame b :: l). split; [rewrite L, GL, <- app_assoc; reflexivity|].
    intros S. inversion S; subst. destruct (B H2) as [B1 B2]. rewrite GU, GF in *. auto.
  - apply (complete_tr E _ R) in H. apply K. exact H.
  - apply (process_tr E _ R) in H. apply K in H. exact H.
  - apply (process_tr E _ R) in H. apply K in H. exact H.
  - apply ok_inj in H. subst c'. exists []. split; [symmetry; apply app_nil_r|auto].
Qed.

Lemma run_still E fuel l : forall c c', run E fuel c l = Ok c' -> exists new, log c' = log c ++ new /\
  (still new -> updating c' = updating c /\ (fmt_changed c = true -> fmt_changed c' = true)).
Proof.
  induction l as [|i l IH]; intros c c'; cbn [run].
  - intros [= <-]. exists []. split; [symmetry; apply app_nil_r|auto].
  - intros H. apply bind_ok in H as (c1 & H & H2). destruct (step_still _ _ _ _ _ H) as (l1 & L1 & B1).
    destruct (IH _ _ H2) as (l2 & L2 & B2). exists (l1 ++ l2). split; [rewrite L2, L1, app_assoc; reflexivity|].
    intros S. apply Forall_app in S as [T1 T2]. destruct (B1 T1), (B2 T2). split; [congruence|auto].
Qed.

Lemma dropped E fuel c f c' : step E fuel c (IEncoded f) = Ok c' -> closed c = false ->
  fmt_changed c = true -> has_encoding c ENC_FENCE = false ->
  exists l, log c' = log c ++ Dropped :: l /\ ~ sent_frame l.
Proof.
  assert (R : forall c c', receive E fuel c (e_more E (log c)) = Ok c' -> tr c c') by (intros; eapply receive_tr; eauto).
  cbn [step]. unfold finish_update. intros H C F N. rewrite C, F, N in H. cbn [andb negb] in H.
  apply (complete_tr E _ R) in H. apply tr_still in H as (l & L & S & _). exists l. split; [|exact S].
  rewrite L. cbn. rewrite <- app_assoc. reflexivity.
Qed.
