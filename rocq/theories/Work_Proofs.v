From Verif Require Import Common CommonProofs Work_Model Work_Spec.

Ltac wsimp_in H := lazy beta iota zeta delta [hold set_held set_en set_works set_cur set_attached set_updating set_writes take en works held taken shown updating writes
  client refs alive attached cur time jobs dst encoder_ref encoder_unref bind negb orb andb schedule app fst snd] in H.
Ltac wsimp := lazy beta iota zeta delta [hold set_held set_en set_works set_cur set_attached set_updating set_writes take en works held taken shown updating writes
  client refs alive attached cur time jobs dst encoder_ref encoder_unref bind negb orb andb schedule app fst snd].

Definition below (n : nat) (h : list nat) : Prop := Forall (fun f => (f < n)%nat) h.

Lemma filter_below n h : below n h -> filter (fun g => negb (Nat.eqb n g)) h = h.
Proof. induction 1 as [|g h G H IH]; cbn; [reflexivity|]. replace (n =? g)%nat with false by (symmetry; apply Nat.eqb_neq; lia). cbn. now rewrite IH. Qed.
Lemma filter_new n h : below n h -> filter (fun g => negb (Nat.eqb n g)) (n :: h) = h.
Proof. intros H. cbn. rewrite Nat.eqb_refl. cbn. now apply filter_below. Qed.

Lemma release_new n e ws h tk sh u wr cl : below n h ->
  release n (mk_world e ws (n :: h) tk sh u wr cl) = Ok (mk_world e ws h tk sh u wr cl).
Proof.
  intros B. unfold release. cbn [held existsb]. rewrite Nat.eqb_refl. cbn [orb]. rewrite (filter_new n h B). reflexivity.
Qed.

(* a frame being worked on *)
Definition running (k : kind) (f : nat) (ws : list work) (c : option nat) (j : Z) (d : bool) : Prop :=
  match k with
  | Raw => ws = [RawWork f] /\ j = 0
  | Zrle => ws = [ZrleWork] /\ c = Some f /\ j = 0
  | Tight => ws = [TightJob 0; TightJob 1; TightJob 2; TightJob 3] /\ c = Some f /\ j = 4 /\ d = true
  end.

Lemma unref_zero r : 0 < r -> (r + 1 - 1 =? 0) = false.
Proof. lia. Qed.

Lemma encode_spec k p fails r at_ c t d h tk sh u wr cl :
  0 < r -> (k = Zrle -> c = None) -> below (length tk) h -> start_ok k fails ->
  (exists c' t' d', encode k p fails (mk_world (mk_encoder r true at_ c t 0 d) [] h tk sh u wr cl) =
     Ok (false, mk_world (mk_encoder r true at_ c' t' 0 d') [] h tk sh u wr cl) /\ (k = Zrle -> c' = None)) \/
  (exists c' t' j' d' ws, encode k p fails (mk_world (mk_encoder r true at_ c t 0 d) [] h tk sh u wr cl) =
     Ok (true, mk_world (mk_encoder (r + Z.of_nat (length ws)) true at_ c' t' j' d') ws (length tk :: h) (tk ++ [p]) sh u wr cl) /\
     running k (length tk) ws c' j' d' /\ (k = Tight -> t' = p)).
Proof.
  intros R C B S. destruct k.
  - destruct fails as [[|[|n]]|].
    + left. exists c, t, d. split; [reflexivity|discriminate].
    + left. exists c, t, d. split; [|discriminate]. unfold encode. wsimp. rewrite (release_new (length tk)) by exact B. wsimp. rewrite (unref_zero r R). wsimp. replace (r + 1 - 1) with r by lia. reflexivity.
    + right. exists c, t, 0, d, [RawWork (length tk)]. split; [reflexivity|]. split; [repeat split; reflexivity|discriminate].
    + right. exists c, t, 0, d, [RawWork (length tk)]. split; [reflexivity|]. split; [repeat split; reflexivity|discriminate].
  - rewrite (C eq_refl). destruct fails as [[|[|n]]|].
    + left. exists None, t, d. split; [reflexivity|auto].
    + left. exists None, t, d. split; [|auto]. unfold encode. wsimp. rewrite ?(unref_zero r R). wsimp. rewrite (release_new (length tk)) by exact B. wsimp. replace (r + 1 - 1) with r by lia. reflexivity.
    + right. exists (Some (length tk)), t, 0, d, [ZrleWork]. split; [reflexivity|]. split; [repeat split; reflexivity|discriminate].
    + right. exists (Some (length tk)), t, 0, d, [ZrleWork]. split; [reflexivity|]. split; [repeat split; reflexivity|discriminate].
  - assert (Q : (fails = Some O) \/ exists n, (4 <= n)%nat /\ (match fails with Some n => n | None => 4%nat end) = n).
    { destruct fails as [[|n]|]; cbn in S; [left; reflexivity|right; exists (Datatypes.S n); split; [lia|reflexivity]|right; exists 4%nat; split; [lia|reflexivity]]. }
    destruct Q as [->|(n & N & E)].
    + left. exists (Some (length tk)), p, false. split; [|discriminate]. unfold encode. wsimp. rewrite ?(unref_zero r R). wsimp. rewrite (release_new (length tk)) by exact B. wsimp. replace (r + 1 - 1) with r by lia. reflexivity.
    + right. exists (Some (length tk)), p, 4, true, [TightJob 0; TightJob 1; TightJob 2; TightJob 3].
      split; [|split; [repeat split; reflexivity|reflexivity]].
      unfold encode. rewrite E. destruct n as [|[|[|[|n]]]]; try lia. wsimp. replace (r + 1 + 1 + 1 + 1) with (r + Z.of_nat 4) by lia. reflexivity.
Qed.

(* starting the next frame, from inside a completion function or not *)
Lemma process_spec k next r at_ c t d h tk sh wr :
  0 < r -> (k = Zrle -> c = None) -> below (length tk) h -> next_ok k next ->
  (exists at' c' t' d', process k next (mk_world (mk_encoder r true at_ c t 0 d) [] h tk sh false wr true) =
     Ok (mk_world (mk_encoder r true at' c' t' 0 d') [] h tk sh false wr true) /\ (k = Zrle -> c' = None)) \/
  (exists p c' t' j' d' ws, process k next (mk_world (mk_encoder r true at_ c t 0 d) [] h tk sh false wr true) =
     Ok (mk_world (mk_encoder (r + Z.of_nat (length ws)) true true c' t' j' d') ws (length tk :: h) (tk ++ [p]) sh true wr true) /\
     running k (length tk) ws c' j' d' /\ (k = Tight -> t' = p) /\ next <> None).
Proof.
  intros R C B N. destruct next as [[p fails]|].
  - unfold process. wsimp.
    destruct (encode_spec k p fails r true c t d h tk sh true wr true R C B N) as [(c' & t' & d' & E & Z0)|(c' & t' & j' & d' & ws & E & Z0 & Z1)].
    + left. exists true, c', t', d'. rewrite E. split; [reflexivity|exact Z0].
    + right. exists p, c', t', j', d', ws. rewrite E. split; [reflexivity|]. split; [exact Z0|]. split; [exact Z1|discriminate].
  - left. exists at_, c, t, d. split; [reflexivity|exact C].
Qed.

(* phases of the encoder: frame [f] is the last one taken *)
Inductive phase (k : kind) (w : world) : Prop :=
| ph_idle : works w = [] -> held w = [] -> jobs (en w) = 0 -> (k = Zrle -> cur (en w) = None) -> phase k w
| ph_raw f : k = Raw -> S f = length (taken w) -> works w = [RawWork f] -> held w = [f] -> jobs (en w) = 0 -> phase k w
| ph_zrle f : k = Zrle -> S f = length (taken w) -> works w = [ZrleWork] -> held w = [f] -> jobs (en w) = 0 -> cur (en w) = Some f -> phase k w
| ph_jobs f : k = Tight -> S f = length (taken w) -> works w <> [] -> Forall (fun x => exists i, x = TightJob i) (works w) ->
    held w = [f] -> jobs (en w) = Z.of_nat (length (works w)) -> cur (en w) = Some f -> dst (en w) = true -> phase k w
| ph_fin f : k = Tight -> S f = length (taken w) -> works w = [TightFinish] -> held w = [] -> jobs (en w) = 0 -> cur (en w) = Some f ->
    dst (en w) = true -> phase k w.

Definition own (k : kind) (w : world) : Z := if client w then Z.of_nat (owners k) else 0.

(* the frames shown bear the times they were taken with *)
Definition times_ok (tk : list Z) (sh : list (nat * Z)) : Prop := Forall (fun x => nth_error tk (fst x) = Some (snd x)) sh.

Lemma times_more tk sh q : times_ok tk sh -> times_ok (tk ++ [q]) sh.
Proof.
  apply Forall_impl. intros [f p] H. cbn in *. rewrite nth_error_app1; [exact H|]. apply nth_error_Some. congruence.
Qed.
Lemma times_next tk sh f p : times_ok tk sh -> nth_error tk f = Some p -> times_ok tk (sh ++ [(f, p)]).
Proof. intros H E. apply Forall_app. split; [exact H|]. constructor; [exact E|constructor]. Qed.
Lemma time_last (tk : list Z) (q : Z) : nth_error (tk ++ [q]) (length tk) = Some q.
Proof. rewrite nth_error_app2, Nat.sub_diag by lia. reflexivity. Qed.
Lemma time_nth (tk : list Z) f : S f = length tk -> nth_error tk f = Some (nth f tk 0).
Proof. intros F. apply nth_error_nth'. lia. Qed.

(* [T]: for Tight, frames do not begin while another is handed over *)
Record inv (T : Prop) (k : kind) (w : world) : Prop := mk_inv {
  i_phase : phase k w;
  i_refs : refs (en w) = own k w + Z.of_nat (length (works w));
  i_alive : alive (en w) = (0 <? refs (en w));
  i_busy : client w = true -> works w <> [] -> updating w = true /\ attached (en w) = true /\ writes w = O;
  i_writes : writes w = O \/ writes w = 1%nat /\ client w = true /\ updating w = true /\ works w = [];
  i_gone : client w = false -> attached (en w) = false /\ writes w = O;
  i_shown : exists m, map fst (shown w) = seq 0 m /\ (m <= length (taken w))%nat /\
    (client w = true -> m = (length (taken w) - (match works w with [] => 0 | _ => 1 end))%nat);
  i_times : T -> times_ok (taken w) (shown w) /\
    (k = Tight -> works w <> [] -> nth_error (taken w) (length (taken w) - 1) = Some (time (en w))) }.

Lemma owners_pos k : 0 < Z.of_nat (owners k).
Proof. destruct k; cbn; lia. Qed.

Definition shown_ok (sh : list (nat * Z)) (n : nat) (cl : bool) (b : nat) : Prop :=
  exists m, map fst sh = seq 0 m /\ (m <= n)%nat /\ (cl = true -> m = (n - b)%nat).

Lemma inv_idle (T : Prop) k r at_ c t d tk sh u wr (cl : bool) : (k = Zrle -> c = None) ->
  r = (if cl then Z.of_nat (owners k) else 0) -> (wr = O \/ wr = 1%nat /\ cl = true /\ u = true) ->
  (cl = false -> at_ = false /\ wr = O) -> shown_ok sh (length tk) cl 0 -> (T -> times_ok tk sh) ->
  inv T k (mk_world (mk_encoder r cl at_ c t 0 d) [] [] tk sh u wr cl).
Proof.
  intros C R W G S Q. constructor; unfold own; wsimp; auto.
  - now apply ph_idle.
  - cbn [length]. lia.
  - pose proof (owners_pos k). destruct cl; subst r; cbn; lia.
  - congruence.
  - tauto.
  - intros t0. split; [auto|]. congruence.
Qed.

Lemma inv_start (T : Prop) k : inv T k (start k).
Proof.
  unfold start. apply inv_idle; auto; [exists O; cbn; auto|]. intros _. constructor.
Qed.

Lemma running_phase k f ws c j d at_ t r h tk sh u wr cl al : running k f ws c j d -> S f = length tk -> h = [f] ->
  phase k (mk_world (mk_encoder r al at_ c t j d) ws h tk sh u wr cl).
Proof.
  intros R F ->. destruct k; cbn [running] in R.
  - destruct R as [-> ->]. apply (ph_raw _ _ f); cbn; auto.
  - destruct R as (-> & -> & ->). apply (ph_zrle _ _ f); cbn; auto.
  - destruct R as (-> & -> & -> & ->). apply (ph_jobs _ _ f); cbn; auto; [discriminate|].
    repeat (constructor; [eexists; reflexivity|]). constructor.
Qed.
Lemma running_works k f ws c j d : running k f ws c j d -> ws <> [].
Proof. destruct k; cbn; intros (-> & _); discriminate. Qed.

Lemma inv_running (T : Prop) k f r c t j d ws tk sh : running k f ws c j d -> S f = length tk ->
  r = Z.of_nat (owners k) + Z.of_nat (length ws) -> shown_ok sh (length tk) true 1 ->
  (T -> times_ok tk sh) -> (T -> k = Tight -> nth_error tk f = Some t) ->
  inv T k (mk_world (mk_encoder r true true c t j d) ws [f] tk sh true 0 true).
Proof.
  intros R F E S Q Q'. pose proof (running_works _ _ _ _ _ _ R). pose proof (owners_pos k). constructor; unfold own; wsimp; auto.
  - now apply (running_phase k f).
  - lia.
  - destruct ws; [congruence|exact S].
  - intros t0. split; [auto|]. intros K _. replace (length tk - 1)%nat with f by lia. auto.
Qed.

Lemma pick_length : forall l i x l', pick i l = Some (x, l') -> length l = S (length l') /\
  (forall P, Forall P l -> P x /\ Forall P l').
Proof.
  induction l as [|y l IH]; intros [|i] x l' H; cbn in H; try discriminate.
  - injection H as <- <-. split; [reflexivity|]. intros P F. inversion F; auto.
  - destruct (pick i l) as [[z l1]|] eqn:E; [|discriminate]. injection H as <- <-. destruct (IH i z l1 E) as [L F].
    cbn. split; [lia|]. intros P Q. inversion Q as [|? ? Q1 Q2]; subst. destruct (F P Q2). auto.
Qed.
Lemma pick_one i (x y : work) l : pick i [x] = Some (y, l) -> y = x /\ l = [].
Proof. destruct i as [|[|i]]; cbn; [intros E; injection E as <- <-; auto|discriminate|discriminate]. Qed.

Lemma seq_snoc m : seq 0 (S m) = seq 0 m ++ [m].
Proof. rewrite seq_S. reflexivity. Qed.

Lemma complete_spec k next r at_ c t d h tk sh wr :
  0 < r -> (k = Zrle -> c = None) -> below (length tk) h -> next_ok k next ->
  (exists at' c' t' d', complete k next (mk_world (mk_encoder r true at_ c t 0 d) [] h tk sh true wr true) =
     Ok (mk_world (mk_encoder r true at' c' t' 0 d') [] h tk sh false wr true) /\ (k = Zrle -> c' = None)) \/
  (exists p c' t' j' d' ws, complete k next (mk_world (mk_encoder r true at_ c t 0 d) [] h tk sh true wr true) =
     Ok (mk_world (mk_encoder (r + Z.of_nat (length ws)) true true c' t' j' d') ws (length tk :: h) (tk ++ [p]) sh true wr true) /\
     running k (length tk) ws c' j' d' /\ (k = Tight -> t' = p) /\ next <> None).
Proof. intros. apply (process_spec k next r at_ c t d h tk sh wr); assumption. Qed.

(* handing the frame out *)
Definition sending_ok (k : kind) (o : sending) : Prop := match o with Later => True | Now next => next_ok k next | Failed _ => False end.

Lemma finish_spec k f p o r c t d h tk sh :
  0 < r -> (k = Zrle -> c = None) -> below (length tk) h -> sending_ok k o ->
  (exists at' c' t' d' u' wr', finish_frame k f p o (mk_world (mk_encoder r true true c t 0 d) [] h tk sh true 0 true) =
     Ok (mk_world (mk_encoder r true at' c' t' 0 d') [] h tk (sh ++ [(f, p)]) u' wr' true) /\ (k = Zrle -> c' = None) /\
     (wr' = O \/ wr' = 1%nat /\ u' = true)) \/
  (exists q c' t' j' d' ws, finish_frame k f p o (mk_world (mk_encoder r true true c t 0 d) [] h tk sh true 0 true) =
     Ok (mk_world (mk_encoder (r + Z.of_nat (length ws)) true true c' t' j' d') ws (length tk :: h) (tk ++ [q]) (sh ++ [(f, p)]) true 0 true) /\
     running k (length tk) ws c' j' d' /\ (k = Tight -> t' = q) /\ exists nx, o = Now (Some nx)).
Proof.
  intros R C B S. unfold finish_frame. destruct o as [|next|next]; [| |destruct S].
  - left. exists false, c, t, d, true, 1%nat. wsimp. split; [reflexivity|]. split; [exact C|auto].
  - wsimp. destruct (complete_spec k next r false c t d h tk (sh ++ [(f, p)]) 0 R C B S) as [(at' & c' & t' & d' & E & Z0)|(q & c' & t' & j' & d' & ws & E & Z0 & Z1 & Z2)].
    + left. exists at', c', t', d', false, O. split; [exact E|]. split; [exact Z0|auto].
    + right. exists q, c', t', j', d', ws. split; [exact E|]. split; [exact Z0|]. split; [exact Z1|]. destruct next as [nx|]; [eauto|congruence].
Qed.

Lemma release_second f g e ws tk sh u wr cl : f <> g ->
  release f (mk_world e ws [g; f] tk sh u wr cl) = Ok (mk_world e ws [g] tk sh u wr cl).
Proof.
  intros N. unfold release. cbn [held existsb filter]. rewrite Nat.eqb_refl, (proj2 (Nat.eqb_neq f g) N). reflexivity.
Qed.
Lemma uses_head f e ws h tk sh u wr cl : uses f (mk_world e ws (f :: h) tk sh u wr cl) = Ok (mk_world e ws (f :: h) tk sh u wr cl).
Proof. unfold uses. cbn [held existsb]. now rewrite Nat.eqb_refl. Qed.

Lemma shown_next sh (tk : list Z) f p cl : shown_ok sh (length tk) cl 1 -> cl = true -> S f = length tk -> shown_ok (sh ++ [(f, p)]) (length tk) true 0.
Proof.
  intros (m & A & B & C) -> F. exists (S f). specialize (C eq_refl). rewrite map_app, A, seq_snoc. cbn [map fst].
  replace m with f by lia. split; [reflexivity|]. split; lia.
Qed.
Lemma shown_more sh (tk : list Z) (q : Z) : shown_ok sh (length tk) true 0 -> shown_ok sh (length (tk ++ [q])) true 1.
Proof. intros (m & A & B & C). exists m. specialize (C eq_refl). rewrite app_length. cbn [length]. split; [exact A|]. split; lia. Qed.

Lemma below_one f (tk : list Z) : S f = length tk -> below (length tk) [f].
Proof. intros F. constructor; [lia|constructor]. Qed.

Lemma run_next (T : Prop) k next r at_ c t d tk sh wr : (k = Zrle -> c = None) -> next_ok k next -> r = Z.of_nat (owners k) ->
  shown_ok sh (length tk) true 0 -> wr = O -> (T -> times_ok tk sh) ->
  exists w', process k next (mk_world (mk_encoder r true at_ c t 0 d) [] [] tk sh false wr true) = Ok w' /\ inv T k w'.
Proof.
  intros C N R S -> Q. pose proof (owners_pos k).
  destruct (process_spec k next r at_ c t d [] tk sh 0 ltac:(lia) C ltac:(constructor) N) as [(at' & c' & t' & d' & E & Z0)|(p & c' & t' & j' & d' & ws & E & Z0 & Z1 & _)].
  - rewrite E. eexists. split; [reflexivity|]. apply inv_idle; auto. discriminate.
  - rewrite E. eexists. split; [reflexivity|]. apply inv_running; auto.
    + rewrite app_length. cbn. lia.
    + lia.
    + now apply shown_more.
    + intros t0. apply times_more. auto.
    + intros _ K. rewrite (Z1 K). apply time_last.
Qed.

(* the end of a frame, after the client has been told *)
Lemma after_finish (T : Prop) k f p o r c t d tk sh : k <> Raw ->
  S f = length tk -> (k = Zrle -> c = None) -> sending_ok k o -> shown_ok sh (length tk) true 1 -> r = Z.of_nat (owners k) + 1 ->
  (T -> times_ok tk sh) -> (T -> nth_error tk f = Some p) -> (T -> k = Tight -> match o with Now (Some _) => False | _ => True end) ->
  exists w', finish_frame k f p o (mk_world (mk_encoder r true true c t 0 d) [] [] tk sh true 0 true) = Ok w' /\
    forall t', exists w'', encoder_unref (set_cur (cur (en w')) t' (jobs (en w')) (dst (en w')) w') = Ok w'' /\ inv T k w''.
Proof.
  intros K F C S M R Q Q1 Q2. pose proof (owners_pos k).
  destruct (finish_spec k f p o r c t d [] tk sh ltac:(lia) C ltac:(constructor) S) as [(at' & c' & t' & d' & u' & wr' & E & Z0 & Z1)|(q & c' & t' & j' & d' & ws & E & Z0 & Z2 & nx & ->)]; rewrite E; eexists; (split; [reflexivity|]); intros t1; wsimp; eexists; (split; [reflexivity|]).
  - replace (if r - 1 =? 0 then false else true) with true by (replace (r - 1 =? 0) with false by lia; reflexivity).
    apply inv_idle; auto; [lia|destruct Z1 as [Z1|[Z1 Z2]]; auto|discriminate|now apply (shown_next sh tk f p true)|intros t0; apply times_next; auto].
  - replace (if r + Z.of_nat (length ws) - 1 =? 0 then false else true) with true by (replace (r + Z.of_nat (length ws) - 1 =? 0) with false by lia; reflexivity).
    apply inv_running; auto; [rewrite app_length; cbn; lia|lia| | |].
    + apply shown_more. now apply (shown_next sh tk f p true).
    + intros t0. apply times_more, times_next; auto.
    + intros t0 K0. destruct (Q2 t0 K0).
Qed.

Lemma unref_two k r at_ c t j d ws h tk sh u wr cl : 0 < r - Z.of_nat (owners k) \/ r = Z.of_nat (owners k) ->
  unref_all (owners k) (mk_world (mk_encoder r true at_ c t j d) ws h tk sh u wr cl) =
  Ok (mk_world (mk_encoder (r - Z.of_nat (owners k)) (0 <? r - Z.of_nat (owners k)) at_ c t j d) ws h tk sh u wr cl).
Proof.
  intros H. destruct k; cbn [owners unref_all] in *; wsimp.
  - replace (if r - 1 =? 0 then false else true) with (0 <? r - Z.of_nat 1); [reflexivity|].
    destruct (r - 1 =? 0) eqn:E; lia.
  - replace (r - 1 =? 0) with false by lia. wsimp. replace (r - 1 - 1) with (r - Z.of_nat 2) by lia.
    replace (if r - Z.of_nat 2 =? 0 then false else true) with (0 <? r - Z.of_nat 2); [reflexivity|].
    destruct (r - Z.of_nat 2 =? 0) eqn:E; lia.
  - replace (r - 1 =? 0) with false by lia. wsimp. replace (r - 1 - 1) with (r - Z.of_nat 2) by lia.
    replace (if r - Z.of_nat 2 =? 0 then false else true) with (0 <? r - Z.of_nat 2); [reflexivity|].
    destruct (r - Z.of_nat 2 =? 0) eqn:E; lia.
Qed.

Lemma ready_ok (T : Prop) k i o fin w : inv T k w -> smooth k (Ready i o fin) -> (T -> k = Tight -> unhurried (Ready i o fin)) ->
  exists w', step k (Ready i o fin) w = Ok w' /\ inv T k w'.
Proof.
  intros I [S SF] U. cbn [unhurried] in U. fold (sending_ok k o) in S. assert (I' := I). destruct I as [P R A B W G M Q]. cbn [step].
  destruct (pick i (works w)) as [[x l]|] eqn:Pk; [|eauto].
  destruct w as [[r al at_ c t j d] ws h tk sh u wr cl]. unfold own in R.
  cbn [en refs alive attached cur time jobs dst works held taken shown updating writes client] in *.
  pose proof (owners_pos k).
  destruct P as [P1 P2 P3 P4|f P0 P1 P2 P3 P4|f P0 P1 P2 P3 P4 P5|f P0 P1 P2 P3 P4 P5 P6 P7|f P0 P1 P2 P3 P4 P5 P6];
    cbn [en refs alive attached cur time jobs dst works held taken shown updating writes client] in *.
  - subst ws. destruct i; discriminate.
  - (* Raw *)
    subst k ws h j. destruct (pick_one _ _ _ _ Pk) as [-> ->]. cbn [length owners] in *. unfold work_done. wsimp.
    assert (al = true) by (subst al r; destruct cl; lia). clear A. subst al. wsimp. rewrite uses_head. wsimp.
    destruct cl.
    + destruct (B eq_refl ltac:(discriminate)) as (-> & -> & ->).
      destruct (finish_spec Raw f (time_of f (mk_world (mk_encoder r true true c t 0 d) [] [f] tk sh true 0 true)) o r c t d [f] tk sh ltac:(lia) ltac:(discriminate) (below_one f tk P1) S)
        as [(at' & c' & t' & d' & u' & wr' & E & Z0 & Z1)|(q & c' & t' & j' & d' & ws & E & Z0 & _)]; rewrite E; wsimp.
      * rewrite release_new by constructor. wsimp. replace (r - 1 =? 0) with false by lia. eexists. split; [reflexivity|].
        apply inv_idle; [discriminate|cbn; lia|destruct Z1 as [Z1|[Z1 Z2]]; auto|discriminate| |].
        -- apply (shown_next sh tk f _ true); auto.
        -- intros t0. apply times_next; [apply Q, t0|now apply time_nth].
      * rewrite release_second by lia. wsimp. replace (r + Z.of_nat (length ws) - 1 =? 0) with false by lia. eexists. split; [reflexivity|].
        apply inv_running; [exact Z0|rewrite app_length; cbn; lia|cbn [owners]; lia| | |discriminate].
        -- apply shown_more. apply (shown_next sh tk f _ true); auto.
        -- intros t0. apply times_more, times_next; [apply Q, t0|now apply time_nth].
    + destruct (G eq_refl) as [-> ->]. unfold finish_frame. wsimp. rewrite release_new by constructor. wsimp.
      replace (r - 1 =? 0) with true by lia. eexists. split; [reflexivity|]. apply inv_idle; auto; [discriminate|lia| |intros t0; apply Q, t0].
      destruct M as (m & M1 & M2 & M3). exists m. split; [exact M1|]. split; [exact M2|intros; discriminate].
  - (* ZRLE *)
    subst k ws h j c. destruct (pick_one _ _ _ _ Pk) as [-> ->]. cbn [length owners] in *. unfold work_done. wsimp.
    assert (al = true) by (subst al r; destruct cl; lia). clear A. subst al. wsimp. rewrite uses_head. wsimp.
    rewrite release_new by constructor. wsimp.
    destruct cl.
    + destruct (B eq_refl ltac:(discriminate)) as (-> & -> & ->).
      match goal with |- context [finish_frame Zrle f ?p o _] =>
        destruct (after_finish T Zrle f p o r None t d tk sh ltac:(discriminate) P1 ltac:(auto) S M ltac:(cbn [owners]; lia) (fun t0 => proj1 (Q t0)) (fun _ => time_nth tk f P1) ltac:(discriminate)) as (w' & E & K) end.
      rewrite E. destruct (K (time (en w'))) as (w'' & E' & V). exists w''. split; [|exact V]. destruct w' as [[? ? ? ? ? ? ?] ? ? ? ? ? ? ?]. exact E'.
    + destruct (G eq_refl) as [-> ->]. unfold finish_frame. wsimp.
      replace (r - 1 =? 0) with true by lia. eexists. split; [reflexivity|]. apply inv_idle; auto; [lia| |intros t0; apply Q, t0].
      destruct M as (m & M1 & M2 & M3). exists m. split; [exact M1|]. split; [exact M2|intros; discriminate].
  - (* jobs of Tight *)
    subst k h c d. destruct (pick_length _ _ _ _ Pk) as [L F]. destruct (F _ P3) as [[n ->] Fl]. unfold work_done. wsimp.
    assert (al = true) by (subst al r; destruct cl; lia). clear A. subst al. wsimp. rewrite uses_head. wsimp.
    assert (Bs : cl = true -> u = true /\ at_ = true /\ wr = O) by (intros C; apply B; [exact C|assumption]).
    assert (shown_ok sh (length tk) cl 1).
    { destruct M as (m & M1 & M2 & M3). exists m. split; [exact M1|]. split; [exact M2|]. destruct ws; [congruence|exact M3]. }
    destruct (j - 1 =? 0) eqn:J.
    + rewrite release_new by constructor. wsimp. rewrite (SF eq_refl). wsimp.
      assert (l = []) by (destruct l; [reflexivity|cbn [length] in *; lia]). subst l. cbn [length] in *.
      replace (r + 1 - 1 =? 0) with false by (destruct cl; cbn [owners] in *; lia). eexists. split; [reflexivity|].
      constructor; unfold own; wsimp; auto.
      * apply (ph_fin _ _ f); wsimp; auto. lia.
      * cbn [length]. lia.
      * destruct cl; cbn [owners] in *; lia.
      * left. destruct W as [W|(_ & _ & _ & W)]; [exact W|]. congruence.
      * intros t0. destruct (Q t0) as [Q1 Q2]. split; [exact Q1|]. intros _ _. apply Q2; auto.
    + assert (l <> []) by (intros ->; cbn [length] in *; lia).
      replace (r - 1 =? 0) with false by (destruct l; [congruence|]; cbn [length] in *; destruct cl; cbn [owners] in *; lia). eexists. split; [reflexivity|].
      constructor; unfold own; wsimp; auto.
      * apply (ph_jobs _ _ f); wsimp; auto. lia.
      * lia.
      * destruct l; [congruence|]; cbn [length] in *. destruct cl; cbn [owners] in *; lia.
      * left. destruct W as [W|(_ & _ & _ & W)]; [exact W|]. congruence.
      * destruct l; [congruence|]. assumption.
      * intros t0. destruct (Q t0) as [Q1 Q2]. split; [exact Q1|]. intros _ _. apply Q2; auto.
  - (* the end of Tight *)
    subst k ws h j c d. destruct (pick_one _ _ _ _ Pk) as [-> ->]. cbn [length owners] in *. unfold work_done. wsimp.
    assert (al = true) by (subst al r; destruct cl; lia). clear A. subst al. wsimp.
    destruct cl.
    + destruct (B eq_refl ltac:(discriminate)) as (-> & -> & ->).
      assert (Qt : T -> nth_error tk f = Some t) by (intros t0; replace f with (length tk - 1)%nat by lia; apply Q; [exact t0|reflexivity|discriminate]).
      destruct (after_finish T Tight f t o r (Some f) t false tk sh ltac:(discriminate) P1 ltac:(discriminate) S M ltac:(cbn [owners]; lia) (fun t0 => proj1 (Q t0)) Qt U) as (w' & E & K).
      rewrite E. destruct (K NO_PTS) as (w'' & E' & V). exists w''. split; [|exact V]. destruct w' as [[? ? ? ? ? ? ?] ? ? ? ? ? ? ?]. exact E'.
    + destruct (G eq_refl) as [-> ->]. unfold finish_frame. wsimp.
      replace (r - 1 =? 0) with true by lia. eexists. split; [reflexivity|]. apply inv_idle; auto; [discriminate|lia| |intros t0; apply Q, t0].
      destruct M as (m & M1 & M2 & M3). exists m. split; [exact M1|]. split; [exact M2|intros; discriminate].
Qed.

Lemma step_ok (T : Prop) k ev w : inv T k w -> smooth k ev -> (T -> k = Tight -> unhurried ev) -> exists w', step k ev w = Ok w' /\ inv T k w'.
Proof.
  intros I S U. destruct ev as [p fails|i o fin|next|]; [| now apply ready_ok| |]; assert (I' := I);
    destruct I as [P R A B W G M Q]; destruct w as [[r al at_ c t j d] ws h tk sh u wr cl]; unfold own in R;
    cbn [en refs alive attached cur time jobs dst works held taken shown updating writes client smooth step] in *.
  - unfold process. cbn [client updating]. destruct cl; cbn [negb orb]; [|eauto]. destruct u; [eauto|].
    assert (Ws : ws = []) by (destruct ws as [|x ws]; [reflexivity|]; destruct (B eq_refl ltac:(discriminate)) as (X & _); discriminate). subst ws.
    destruct W as [->|(_ & _ & X & _)]; [|discriminate].
    destruct P as [P1 P2 P3 P4|f P0 P1 P2 P3 P4|f P0 P1 P2 P3 P4 P5|f P0 P1 P2 P3 P4 P5 P6 P7|f P0 P1 P2 P3 P4 P5 P6];
      cbn [en refs alive attached cur time jobs dst works held taken shown updating writes client] in *; try discriminate; [|congruence].
    subst h j. cbn [length] in *. pose proof (owners_pos k). replace al with true by lia.
    apply (run_next T k (Some (p, fails)) r at_ c t d tk sh 0); auto; [lia|apply Q].
  - destruct wr as [|wr]; [eauto|]. destruct W as [W|(Wr & -> & -> & ->)]; [discriminate|]. injection Wr as ->.
    destruct P as [P1 P2 P3 P4|f P0 P1 P2 P3 P4|f P0 P1 P2 P3 P4 P5|f P0 P1 P2 P3 P4 P5 P6 P7|f P0 P1 P2 P3 P4 P5 P6];
      cbn [en refs alive attached cur time jobs dst works held taken shown updating writes client] in *; try discriminate; [|congruence].
    subst h j. cbn [length] in *. pose proof (owners_pos k). replace al with true by lia.
    apply (run_next T k next r at_ c t d tk sh 0); auto; [lia|apply Q].
  - unfold client_close. destruct cl; [|cbn [client negb]; eauto]. wsimp. pose proof (owners_pos k). replace al with true by lia.
    rewrite unref_two by lia. eexists. split; [reflexivity|].
    constructor; unfold own; wsimp; auto; try discriminate.
    + destruct P as [P1 P2 P3 P4|f P0 P1 P2 P3 P4|f P0 P1 P2 P3 P4 P5|f P0 P1 P2 P3 P4 P5 P6 P7|f P0 P1 P2 P3 P4 P5 P6];
      cbn [en refs alive attached cur time jobs dst works held taken shown updating writes client] in *; subst;
      [apply ph_idle|eapply ph_raw|eapply ph_zrle|eapply ph_jobs|eapply ph_fin]; wsimp; eauto.
    + lia.
    + destruct M as (m & M1 & M2 & M3). exists m. split; [exact M1|]. split; [exact M2|discriminate].
Qed.

Lemma run_ok (T : Prop) k : forall evs w, inv T k w -> Forall (smooth k) evs -> (T -> k = Tight -> Forall unhurried evs) ->
  exists w', run k evs w = Ok w' /\ inv T k w'.
Proof.
  induction evs as [|ev evs IH]; intros w I F U; cbn [run]; [eauto|].
  inversion F as [|? ? F1 F2]; subst. destruct (step_ok T k ev w I F1) as (w1 & E & I1).
  - intros t0 K. specialize (U t0 K). now inversion U.
  - rewrite E. cbn [bind]. apply IH; auto. intros t0 K. specialize (U t0 K). now inversion U.
Qed.

Lemma run_facts k evs : Forall (smooth k) evs ->
  exists w, run k evs (start k) = Ok w /\ (works w = [] -> settled w) /\ (alive (en w) = true <-> needed w) /\ in_order w.
Proof.
  intros F. destruct (run_ok False k evs (start k) (inv_start _ k) F ltac:(contradiction)) as (w & E & [P R A B W G (m & M1 & M2 & M3) _]).
  exists w. split; [exact E|]. split; [|split].
  - intros H. split; [exact H|]. destruct P as [P1 P2 P3 P4|f P0 P1 P2 P3 P4|f P0 P1 P2 P3 P4 P5|f P0 P1 P2 P3 P4 P5 P6 P7|f P0 P1 P2 P3 P4 P5 P6]; congruence.
  - rewrite A, R. unfold own, needed. pose proof (owners_pos k). destruct (client w), (works w); cbn [length]; split; intros H0; try lia; auto; try (right; discriminate).
    destruct H0; congruence.
  - exists m. split; [exact M1|]. split; [exact M2|]. split; intros C; specialize (M3 C).
    + intros H. rewrite H in M3. lia.
    + destruct (works w); lia.
Qed.

Lemma run_times k evs : Forall (smooth k) evs -> (k = Tight -> Forall unhurried evs) ->
  exists w, run k evs (start k) = Ok w /\ right_times w.
Proof.
  intros F U. destruct (run_ok True k evs (start k) (inv_start _ k) F ltac:(auto)) as (w & E & [_ _ _ _ _ _ _ Q]).
  exists w. split; [exact E|]. intros f p H. destruct (Q I) as [Q1 _]. unfold times_ok in Q1. rewrite Forall_forall in Q1. apply (Q1 _ H).
Qed.

(* nothing more happens *)
Lemma stuck_run k : forall evs w w', works w = [] -> updating w = true -> writes w = O -> run k evs w = Ok w' ->
  taken w' = taken w /\ shown w' = shown w.
Proof.
  assert (S : forall ev w w', works w = [] -> (updating w = true \/ client w = false) -> writes w = O -> step k ev w = Ok w' ->
    taken w' = taken w /\ shown w' = shown w /\ works w' = [] /\ (updating w' = true \/ client w' = false) /\ writes w' = O).
  { intros ev [e ws h tk sh u wr cl] w' H U N E. cbn [works updating writes client] in *. subst ws wr.
    assert (Q : negb cl || u = true) by (destruct U as [->| ->]; [destruct cl|]; reflexivity).
    destruct ev as [p fails|i o fin|next|]; cbn [step works writes] in E.
    - unfold process in E. cbn [client updating] in E. rewrite Q in E. injection E as <-. auto.
    - destruct i; injection E as <-; auto.
    - injection E as <-. auto.
    - unfold client_close in E. cbn [client] in E. destruct cl; cbn [negb] in E; [|injection E as <-; auto].
      destruct k; cbn [owners unref_all] in E; destruct e as [r al at_ c t j d]; wsimp_in E; destruct al; try discriminate; wsimp_in E;
        try (destruct (r - 1 =? 0); try discriminate); injection E as <-; cbn; auto 6. }
  assert (G : forall evs w w', works w = [] -> (updating w = true \/ client w = false) -> writes w = O -> run k evs w = Ok w' ->
    taken w' = taken w /\ shown w' = shown w).
  { induction evs as [|ev evs IH]; intros w w' H U N E; cbn [run] in E; [injection E as <-; auto|].
    destruct (step k ev w) as [w1|] eqn:E1; [|discriminate]. cbn [bind] in E. destruct (S ev w w1 H U N E1) as (A & B & C & D & F).
    destruct (IH w1 w' C D F E) as [A1 B1]. split; congruence. }
  intros evs w w' H U N E. apply (G evs w w'); auto.
Qed.
