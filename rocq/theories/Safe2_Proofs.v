(** Ordinary messages do no harm: the stream. *)
From Verif Require Import Common CommonProofs Msg_Model Msg_Spec Msg2_Spec Msg_Proofs Msg2_Proofs Msg3_Proofs Msg4_Proofs Safe_Spec Safe_Proofs.

Lemma ordinary_whole g x m : ordinary g x m -> whole m.
Proof.
  destruct 1; try (constructor; assumption).
  - unfold set_encodings_msg. apply w_encodings; [sizes|].
    induction l as [|e l IH]; [reflexivity|]. cbn [flat_map]. rewrite Forall_cons_iff in H0.
    assert (X : zlen (flat_map (fun e => be 4 (e mod 2 ^ 32)) l) = 4 * zlen l).
    { clear. induction l as [|e l IH]; [reflexivity|]. cbn [flat_map]. unfold zlen in *. rewrite app_length, be_length. cbn [length]. lia. }
    unfold zlen in *. rewrite app_length, be_length. cbn [length]. lia.
  - unfold cut_text_msg. apply w_cut; [rewrite zlen_len in *; lia|reflexivity].
  - unfold qemu_key_msg. apply w_qemu. rewrite !app_length, !be_length. reflexivity.
  - unfold ntp_msg. cbn [app]. apply w_ntp. cbn [length]. rewrite !app_length, !be_length. reflexivity.
Qed.

Lemma held_quiet c c1 : held c c1 -> quiet c -> quiet c1.
Proof. intros (S & _). apply quiet_same. exact S. Qed.

Section S.
Variable E : env.
Variable g : agreement.
(* all messages of the client, and a property of the messages dealt with and the client
   that goes along *)
Variable all : list (list Z).
Variable J : list (list Z) -> client -> Prop.
Variable M : input -> Prop.
Hypothesis Jsame : forall d c c', encs c' = encs c -> log c' = log c -> J d c -> J d c'.
Hypothesis Jmsg : forall r d c m c1 n, quiet c -> J d c -> ordinary g (e_experimental E) m ->
  on_message E r c m = Ok (c1, n) -> n = zlen m -> J (d ++ [m]) c1.
Hypothesis Jcut : forall d m c t, hd 0 m = 6 -> J d c -> J (d ++ [m]) (say (CutText t) c).
Hypothesis Jother : forall fuel d c i c', nofence c -> J d c -> M i -> step E fuel c i = Ok c' -> J d c'.

Definition todo_ok (ms : list (list Z)) : Prop := Forall (ordinary g (e_experimental E)) ms.

(* what a receive loop leaves behind: [b] is the buffer, [i] how much of it is dealt with *)
Definition left_behind (b : list Z) (i : Z) (s : list Z) (c : client) : Prop :=
  agreed g c /\
  ((quiet c /\ exists d todo, all = d ++ todo /\ J d c /\ todo_ok todo /\ skipn (Z.to_nat i) b ++ s = concat todo) \/
   (nofence c /\ block_next c = false /\ i = zlen b /\ exists n l1 l2 d m todo, cut c = Some (mk_cut false false n l1) /\
      zlen l1 < n <= 10000000 /\ zlen (l1 ++ l2) = n /\ all = d ++ m :: todo /\ (length l2 <= length m)%nat /\ hd 0 m = 6 /\ J d c /\
      todo_ok todo /\ s = l2 ++ concat todo)).

Lemma loop_fine r : forall todo fuel d c b i s,
  quiet c -> agreed g c -> 0 <= i <= zlen b -> all = d ++ todo -> J d c -> todo_ok todo -> skipn (Z.to_nat i) b ++ s = concat todo ->
  (length (skipn (Z.to_nat i) b) + 2 <= fuel)%nat ->
  exists c2 i2, message_loop E r fuel (with_buf b i c) = Ok (with_buf b i2 c2) /\ 0 <= i2 <= zlen b /\
    closed c2 = closed c /\ left_behind b i2 s c2.
Proof.
  induction todo as [|m todo IH]; intros fuel d c b i s Q A Hi AL HJ T K F.
  - cbn [concat] in K. assert (K' := K). apply app_eq_nil in K as [K _].
    destruct fuel as [|fuel]; [lia|].
    rewrite (loop_unfinished E r fuel c b i Q Hi) by (rewrite K; apply unfinished_nil).
    exists c, i. split; [reflexivity|]. split; [exact Hi|]. split; [reflexivity|]. split; [exact A|].
    left. split; [exact Q|]. exists d, []. auto.
  - pose proof T as T0. apply Forall_cons_iff in T as [Tm T]. pose proof (ordinary_whole _ _ _ Tm) as W. cbn [concat] in K.
    destruct (le_lt_dec (length m) (length (skipn (Z.to_nat i) b))) as [L|L].
    + assert (B : skipn (Z.to_nat i) b = m ++ skipn (length m) (skipn (Z.to_nat i) b)).
      { rewrite <- (firstn_skipn (length m) (skipn (Z.to_nat i) b)) at 1. f_equal.
        assert (X := f_equal (firstn (length m)) K). rewrite firstn_app_exact, fs_app in X by exact L. exact X. }
      set (t := skipn (length m) (skipn (Z.to_nat i) b)) in *.
      assert (KT : t ++ s = concat todo) by (rewrite B, <- app_assoc in K; apply app_inv_head in K; exact K).
      clearbody t.
      destruct (ordinary_fine E r g (with_buf b i c) m Q A Tm) as (c1 & n & R & N & S & A1).
      assert (C1 : with_buf b i c1 = c1) by (apply with_buf_id; apply S).
      assert (JB : J d (with_buf b i c)) by (eapply Jsame; [| |exact HJ]; reflexivity).
      destruct fuel as [|fuel]; [lia|].
      rewrite (loop_step E r fuel c b i c1 n Q Hi) by (rewrite B, on_message_app, C1 by exact W; exact R).
      pose proof (held_quiet _ _ S Q) as Q1. assert (CL : closed c1 = closed c) by apply S.
      destruct (n =? 0) eqn:N0.
      * destruct N as [N|[_ N]]; [pose proof (whole_nonempty _ W); rewrite zlen_len in N; lia|].
        exists c1, i. split; [reflexivity|]. split; [exact Hi|]. split; [exact CL|]. split; [exact A1|].
        left. split; [exact Q1|]. exists d, (m :: todo). rewrite N. split; [exact AL|]. split; [exact JB|]. auto.
      * destruct N as [->|[N _]]; [|rewrite N in N0; discriminate N0].
        pose proof (Jmsg r d (with_buf b i c) m c1 _ Q JB Tm R eq_refl) as J1.
        destruct (skip_more _ _ _ _ (proj1 Hi) B) as [K2 L2]. pose proof (whole_nonempty _ W) as NE.
        assert (Hi2 : 0 <= i + zlen m <= zlen b) by (rewrite (zlen_len m) in *; lia).
        destruct (IH fuel (d ++ [m]) c1 b (i + zlen m) s Q1 A1 Hi2) as (c2 & i2 & R2 & I2 & C2 & LB); try assumption.
        -- rewrite <- app_assoc. exact AL.
        -- rewrite K2. exact KT.
        -- rewrite K2. rewrite B, app_length in F. lia.
        -- exists c2, i2. split; [exact R2|]. split; [exact I2|]. split; [congruence|exact LB].
    + set (lft := skipn (Z.to_nat i) b) in *.
      assert (ME0 : m = lft ++ skipn (length lft) m).
      { rewrite <- (firstn_skipn (length lft) m) at 1. f_equal.
        assert (X := f_equal (firstn (length lft)) K). rewrite firstn_app_exact, fs_app in X by lia. symmetry. exact X. }
      assert (NQ : skipn (length lft) m <> []).
      { intros X. apply (f_equal (@length Z)) in X. rewrite skipn_length in X. cbn in X. lia. }
      destruct fuel as [|fuel]; [lia|].
      destruct (part_cases m lft _ W NQ ME0) as [U|(x & y & z & n & l & LE & Hn & ZL & ME)].
      * rewrite (loop_unfinished E r fuel c b i Q Hi U). exists c, i. split; [reflexivity|]. split; [exact Hi|].
        split; [reflexivity|]. split; [exact A|]. left. split; [exact Q|]. exists d, (m :: todo). auto.
      * destruct fuel as [|fuel]; [lia|].
        assert (LQ : (length (skipn (length lft) m) <= length m)%nat) by (rewrite skipn_length; lia).
        set (q := skipn (length lft) m) in *.
        assert (ZQ : zlen l < n). { destruct q; [congruence|]. sizes. }
        rewrite (loop_cut E r fuel c b i x y z n l Q Hi Hn ZQ LE). eexists _, _. split; [reflexivity|].
        split; [rewrite zlen_len; lia|]. split; [reflexivity|]. split; [exact A|]. right.
        split; [apply quiet_nofence in Q; exact Q|]. split; [apply Q|]. split; [reflexivity|].
        exists n, l, q, d, m, todo. split; [reflexivity|]. split; [lia|]. split; [exact ZL|]. split; [exact AL|].
        split; [exact LQ|]. split; [rewrite ME0, LE; reflexivity|]. split; [eapply Jsame; [| |exact HJ]; reflexivity|]. split; [exact T|].
        rewrite ME0, <- app_assoc in K. apply app_inv_head in K. exact K.
Qed.

(** The client [c], with the bytes [s] still on their way. *)
Definition bounded (c : client) : Prop :=
  zlen (buf c) <= 4096 /\ forall t, cut c = Some t -> zlen (ct_data t) < ct_length t <= 10000000.

(* the messages dealt with so far: all of them received *)
Definition past (c : client) (s : list Z) : Prop :=
  exists d todo, all = d ++ todo /\ J d c /\ (length (concat d) + length s <= length (concat all))%nat.

Definition sane (c : client) (s : list Z) : Prop :=
  nofence c /\ bounded c /\ past c s /\ (closed c = true \/ (idx c = 0 /\ left_behind (buf c) 0 s c)).

Lemma behind_small b i s c : zlen (buf c) <= 4096 -> left_behind b i s c -> bounded c.
Proof. clear Jsame Jmsg Jcut Jother M.
  intros B (_ & D). split; [exact B|]. intros t C. destruct D as [((_ & _ & _ & Q) & _)|(_ & _ & _ & n & l1 & l2 & d & m & todo & X & L & _)].
  - rewrite Q in C. discriminate C.
  - rewrite X in C. injection C as <-. exact L.
Qed.

Lemma behind_past b i s c : left_behind b i s c -> past c s.
Proof. clear Jsame Jmsg Jcut Jother M.
  intros (_ & [(_ & d & todo & AL & HJ & _ & K)|(_ & _ & _ & n & l1 & l2 & d & m & todo & _ & _ & _ & AL & LM & _ & HJ & _ & S)]).
  - exists d, todo. split; [exact AL|]. split; [exact HJ|]. apply (f_equal (@length Z)) in K. rewrite app_length in K.
    rewrite AL, concat_app, app_length. lia.
  - exists d, (m :: todo). split; [exact AL|]. split; [exact HJ|]. rewrite AL, concat_app, app_length, S. cbn [concat]. rewrite !app_length. lia.
Qed.

Lemma past_less c s s' : (length s' <= length s)%nat -> past c s -> past c s'.
Proof. intros L (d & todo & AL & HJ & X). exists d, todo. split; [exact AL|]. split; [exact HJ|lia]. Qed.

(* a client that goes on *)
Lemma sane_on c s : nofence c -> idx c = 0 -> zlen (buf c) <= 4096 -> left_behind (buf c) 0 s c -> sane c s.
Proof. clear Jsame Jmsg Jcut Jother M. intros N I B L. split; [exact N|]. split; [eapply behind_small; eassumption|]. split; [eapply behind_past; exact L|]. right. split; assumption. Qed.

Lemma read_fine fuel c s k : sane c s ->
  exists c2, step E fuel c (IRead (Some (firstn (Nat.min k (Z.to_nat (room c))) s))) = Ok c2 /\
    sane c2 (skipn (Nat.min k (Z.to_nat (room c))) s).
Proof.
  intros (N & SM & PA & D). cbn [step]. destruct (closed c) eqn:CL.
  { exists c. split; [reflexivity|]. split; [exact N|]. split; [exact SM|]. split; [apply (past_less c s); [rewrite skipn_length; lia|exact PA]|left; exact CL]. }
  destruct D as [D|(I & A & D)]; [congruence|]. pose proof (proj1 SM) as B.
  set (n := Nat.min k (Z.to_nat (room c))). assert (Hn : (n <= Z.to_nat (room c))%nat) by (subst n; lia). clearbody n.
  unfold room in Hn. cbn [receive]. set (r := fun c0 : client => receive E fuel c0 (e_more E (log c0))).
  unfold on_client_event.
  destruct D as [(Q & d1 & todo & AL & HJ & T & K)|(_ & BN & IB & len & l1 & l2 & d1 & m1 & todo & C & L1 & L2 & AL & LM & H6 & HJ & T & S)].
  - assert (C : cut c = None) by apply Q. rewrite C, I in *. cbn [Z.eqb negb]. cbn [Z.to_nat skipn] in K.
    change (skipn (Z.to_nat 0) (buf c)) with (buf c) in K.
    destruct (MSG_BUFFER_SIZE - zlen (buf c) <=? 0) eqn:SP.
    { eexists. split; [reflexivity|]. split; [exact N|]. split; [exact SM|]. split; [|left; reflexivity]. destruct PA as (d0 & t0 & X1 & X2 & X3). exists d0, t0. split; [exact X1|]. split; [eapply Jsame; [| |exact X2]; reflexivity|]. rewrite skipn_length. lia. }
    apply Z.leb_gt in SP. unfold MSG_BUFFER_SIZE in *.
    destruct (firstn n s) as [|d0 d] eqn:D.
    { exists c. split; [reflexivity|]. apply sane_on; [exact N|exact I|exact B|]. split; [exact A|]. left.
      split; [exact Q|]. exists d1, todo. split; [exact AL|]. split; [exact HJ|]. split; [exact T|]. rewrite <- K. change (skipn (Z.to_nat 0) (buf c)) with (buf c). f_equal.
      destruct n; [reflexivity|]. destruct s; [reflexivity|discriminate]. }
    rewrite <- D. set (dd := firstn n s). assert (LD : (length dd <= n)%nat) by (subst dd; rewrite firstn_length; lia).
    rewrite ltb_f by sizes. set (bb := buf c ++ dd).
    replace (set_buf bb c) with (with_buf bb 0 c) by (clear - I; destruct c; cbn in I; subst; reflexivity).
    assert (LB : (length bb <= 4096)%nat) by (subst bb; rewrite app_length; rewrite zlen_len in *; lia).
    assert (KB : skipn (Z.to_nat 0) bb ++ skipn n s = concat todo).
    { change (skipn (Z.to_nat 0) bb) with bb. subst bb dd. rewrite <- app_assoc, firstn_skipn. exact K. }
    destruct (loop_fine r todo (Z.to_nat 4098) d1 c bb 0 (skipn n s) Q A) as (c2 & i2 & R & I2 & C2 & A2 & LB2);
      [rewrite zlen_len; lia|exact AL|exact HJ|exact T|exact KB|change (skipn (Z.to_nat 0) bb) with bb; lia|].
    rewrite R. cbn [bind]. change (buf (with_buf bb i2 c2)) with bb. change (idx (with_buf bb i2 c2)) with i2.
    rewrite ltb_f by lia. eexists. split; [reflexivity|].
    change (set_idx 0 (set_buf (skipn (Z.to_nat i2) bb) (with_buf bb i2 c2))) with (with_buf (skipn (Z.to_nat i2) bb) 0 c2).
    apply sane_on.
    { destruct LB2 as [(Q2 & _)|(N2 & _)]; [apply quiet_nofence in Q2; exact Q2|exact N2]. }
    { reflexivity. }
    { change (buf (with_buf (skipn (Z.to_nat i2) bb) 0 c2)) with (skipn (Z.to_nat i2) bb). rewrite zlen_len, skipn_length; lia. }
    change (buf (with_buf (skipn (Z.to_nat i2) bb) 0 c2)) with (skipn (Z.to_nat i2) bb). split; [exact A2|].
    destruct LB2 as [(Q2 & d2 & todo2 & AL2 & HJ2 & T2 & K2)|(N2 & BN2 & IB2 & len & l1 & l2 & d2 & m2 & todo2 & CC & X1 & X2 & AL2 & LM2 & H62 & HJ2 & T2 & X3)].
    + left. split; [exact Q2|]. exists d2, todo2. split; [exact AL2|]. split; [eapply Jsame; [| |exact HJ2]; reflexivity|]. split; [exact T2|exact K2].
    + right. split; [exact N2|]. split; [exact BN2|].
      split; [rewrite IB2, skipn_all2 by (rewrite zlen_len; lia); reflexivity|].
      exists len, l1, l2, d2, m2, todo2. repeat (split; [assumption|]). split; [eapply Jsame; [| |exact HJ2]; reflexivity|]. split; assumption.
  - rewrite C in *. cbn [ct_length ct_data] in *.
    assert (LL : (n <= length l2)%nat) by sizes.
    assert (D2 : firstn n s = firstn n l2) by (rewrite S; apply fs_app; exact LL).
    assert (S2 : skipn n s = skipn n l2 ++ concat todo) by (rewrite S; apply sk_app; exact LL).
    rewrite D2. assert (LF : length (firstn n l2) = n) by (rewrite firstn_length; lia).
    destruct (firstn n l2) as [|d0 d] eqn:D.
    { exists c. split; [reflexivity|]. apply sane_on; [exact N|exact I|exact B|]. split; [exact A|]. right.
      cbn in LF. subst n. split; [exact N|]. split; [exact BN|]. split; [exact IB|]. exists len, l1, l2, d1, m1, todo. auto 12. }
    rewrite <- D. rewrite <- D in LF. clear D2 d0 d D.
    rewrite ltb_f by (unfold MSG_BUFFER_SIZE; rewrite (zlen_len (firstn n l2)), LF; lia).
    unfold big_cut_text. cbn [ct_length ct_data ct_zlib ct_provide].
    replace (len <=? zlen l1) with false by (symmetry; apply Z.leb_gt; lia).
    assert (B0 : buf c = []) by (destruct (buf c); [reflexivity|exfalso; unfold zlen in IB; cbn [length] in IB; lia]).
    destruct (zlen (l1 ++ firstn n l2) =? len) eqn:F; cbn [negb bind].
    + apply Z.eqb_eq in F. assert (N2 : n = length l2) by sizes.
      eexists. split; [reflexivity|]. apply sane_on; [exact N|exact I|exact B|]. split; [exact A|]. left.
      split; [split; [apply N|split; [apply N|split; [exact BN|reflexivity]]]|].
      exists (d1 ++ [m1]), todo. split; [rewrite <- app_assoc; exact AL|].
      split; [eapply Jsame; [| |apply (Jcut d1 m1 c (l1 ++ firstn n l2) H6 HJ)]; reflexivity|]. split; [exact T|]. rewrite S2, N2, skipn_all. change (buf _) with (buf c). rewrite B0. reflexivity.
    + apply Z.eqb_neq in F. eexists. split; [reflexivity|]. apply sane_on; [exact N|exact I|exact B|]. split; [exact A|]. right.
      split; [exact N|]. split; [exact BN|]. split; [exact IB|]. exists len, (l1 ++ firstn n l2), (skipn n l2), d1, m1, todo.
      split; [reflexivity|]. split; [sizes|]. split; [rewrite <- app_assoc, firstn_skipn; exact L2|].
      split; [exact AL|]. split; [rewrite skipn_length; lia|]. split; [exact H6|]. split; [eapply Jsame; [| |exact HJ]; reflexivity|]. split; [exact T|exact S2].
Qed.

Lemma sane_kept c c' s : same c c' -> buf c' = buf c -> idx c' = idx c -> (agreed g c -> agreed g c') -> (forall d, J d c -> J d c') ->
  sane c s -> sane c' s.
Proof.
  intros S B I A JJ (N & SM & PA & D). split; [eapply nofence_same; eassumption|]. destruct S as (S1 & S2 & S3 & S4 & S5).
  split; [unfold bounded; rewrite B, S5; exact SM|].
  split; [destruct PA as (d & t & P1 & P2 & P3); exists d, t; auto|].
  destruct D as [D|(D1 & D3 & D4)]; [left; congruence|]. right. split; [congruence|].
  rewrite B. split; [apply A; exact D3|]. destruct D4 as [(Q & d & t & P1 & P2 & P3)|(N4 & BN & IB & n & l1 & l2 & d & m & t & X1 & X2 & X3 & X4 & X5 & X56 & X6 & X7)].
  - left. split; [unfold quiet in *; intuition congruence|]. exists d, t. auto.
  - right. split; [unfold nofence in *; intuition congruence|]. split; [congruence|]. split; [exact IB|]. rewrite S5. exists n, l1, l2, d, m, t. auto 12.
Qed.

Lemma other_fine fuel c s i : sane c s -> may_happen g (Meanwhile i) -> M i ->
  exists c2, step E fuel c i = Ok c2 /\ sane c2 s.
Proof.
  intros D MH HM. pose proof (proj1 D) as N.
  assert (FIN : forall c2, step E fuel c i = Ok c2 -> same c c2 -> buf c2 = buf c -> idx c2 = idx c -> (agreed g c -> agreed g c2) -> sane c2 s).
  { intros c2 R S B I A. eapply sane_kept; try eassumption. intros d HJ. eapply Jother; eassumption. }
  assert (KEPT : forall c1 c2, step E fuel c i = Ok c2 -> kept c1 c2 -> kept c c1 -> sane c2 s).
  { intros c1 c2 R K1 K2. destruct (kept_trans _ _ _ K2 K1) as (S & KN & EN & B & I).
    apply FIN; try assumption. apply agreed_same; assumption. }
  destruct i; cbn [step] in *; [destruct MH|..].
  - match goal with |- context [process_requests E ?r ?x] => destruct (process_fine E r x) as (c2 & R & K);
      [destruct (closed (set_disp (Some f) c)); exact N|] end. exists c2. split; [exact R|].
    eapply KEPT; [exact R|exact K|]. destruct (closed (set_disp (Some f) c)); repeat split.
  - destruct (closed c) eqn:CL.
    + unfold finish_update in *. rewrite CL in *.
      match goal with |- context [complete_update E ?r ?x] => destruct (complete_fine E r x N) as (c2 & R & K) end.
      exists c2. split; [exact R|]. eapply KEPT; [exact R|exact K|apply kept_refl].
    + destruct D as (_ & SM & PA & [D|D]); [congruence|]. assert (A : agreed g c) by apply D.
      match goal with |- context [finish_update E ?r ?x ?y] => destruct (finish_fine E r g y x N A MH) as (c2 & R & S & B & I & A2) end.
      exists c2. split; [exact R|]. apply FIN; try assumption. intros _. exact A2.
  - match goal with |- context [complete_update E ?r ?x] => destruct (complete_fine E r x N) as (c2 & R & K) end.
    exists c2. split; [exact R|]. eapply KEPT; [exact R|exact K|apply kept_refl].
  - match goal with |- context [process_requests E ?r ?x] => destruct (process_fine E r x N) as (c2 & R & K) end.
    exists c2. split; [exact R|]. eapply KEPT; [exact R|exact K|repeat split].
  - match goal with |- context [process_requests E ?r ?x] => destruct (process_fine E r x N) as (c2 & R & K) end.
    exists c2. split; [exact R|]. eapply KEPT; [exact R|exact K|repeat split].
  - eexists. split; [reflexivity|]. split; [exact N|]. split; [apply D|]. split; [|left; reflexivity].
    destruct D as (_ & _ & (d & t & P1 & P2 & P3) & _). exists d, t. split; [exact P1|]. split; [|exact P3].
    eapply Jsame; [| |exact P2]; reflexivity.
Qed.

Definition good_happening (x : happening) : Prop :=
  may_happen g x /\ match x with Meanwhile i => M i | _ => True end.

Lemma live_fine fuel l : forall c s, Forall good_happening l -> sane c s ->
  exists c2 s2, live E fuel c s l = Ok (c2, s2) /\ sane c2 s2.
Proof.
  induction l as [|x l IH]; intros c s MH D; [exists c, s; split; [reflexivity|exact D]|].
  apply Forall_cons_iff in MH as [Mx MH]. destruct x as [k|i]; cbn [live].
  - destruct (read_fine fuel c s k D) as (c2 & R & D2). cbn zeta. rewrite R. cbn [bind]. apply IH; assumption.
  - destruct (other_fine fuel c s i D (proj1 Mx) (proj2 Mx)) as (c2 & R & D2). rewrite R. cbn [bind]. apply IH; assumption.
Qed.
End S.

Lemma start_sane E g (J : list (list Z) -> client -> Prop) c ms : starts g c -> Forall (ordinary g (e_experimental E)) ms -> J [] c -> sane E g ms J c (concat ms).
Proof.
  intros (Q & B & I & A) T HJ. apply sane_on; [apply quiet_nofence; exact Q|exact I|rewrite B; cbn; lia|]. rewrite B.
  split; [exact A|]. left. split; [exact Q|]. exists [], ms. auto.
Qed.

(** Without a further property. *)
Lemma live_sane E g fuel c ms l : starts g c -> Forall (ordinary g (e_experimental E)) ms -> Forall (may_happen g) l ->
  exists c2 s2, live E fuel c (concat ms) l = Ok (c2, s2) /\ bounded c2.
Proof.
  intros S T H.
  destruct live_fine with (E := E) (g := g) (all := ms) (J := fun (_ : list (list Z)) (_ : client) => True) (M := fun _ : input => True) (fuel := fuel) (l := l) (c := c) (s := concat ms)
    as (c2 & s2 & R & D); auto.
  - eapply Forall_impl; [|exact H]. intros x X. split; [exact X|]. destruct x; exact I.
  - apply start_sane; auto.
  - exists c2, s2. split; [exact R|apply D].
Qed.
