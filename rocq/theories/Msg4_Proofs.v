(** Segmentation: the invariant of [feed]. *)
From Verif Require Import Common CommonProofs Pixels_Model Msg_Model Msg_Spec.
From Verif Require Import Msg_Proofs Msg2_Proofs Msg3_Proofs.

Lemma split_stream ms : forall rest p s : list Z, p ++ s = concat ms ++ rest ->
  exists m1 m2 left, ms = m1 ++ m2 /\ p = concat m1 ++ left /\ left ++ s = concat m2 ++ rest /\
    (m2 = [] \/ exists m m3 q, m2 = m :: m3 /\ q <> [] /\ m = left ++ q).
Proof.
  induction ms as [|m ms IH]; intros rest p s H.
  - exists [], [], p. cbn in *. auto.
  - cbn [concat] in H. rewrite <- app_assoc in H.
    destruct (le_lt_dec (length m) (length p)) as [L|L].
    + assert (P : p = m ++ skipn (length m) p).
      { rewrite <- (firstn_skipn (length m) p) at 1. f_equal.
        assert (F := f_equal (firstn (length m)) H).
        rewrite firstn_app_exact, fs_app in F by exact L. exact F. }
      rewrite P, <- app_assoc in H. apply app_inv_head in H.
      destruct (IH _ _ _ H) as (m1 & m2 & left & -> & B & C & D).
      exists (m :: m1), m2, left. split; [reflexivity|]. split; [|auto].
      rewrite P, B. cbn [concat]. apply app_assoc.
    + exists [], (m :: ms), p. split; [reflexivity|]. split; [reflexivity|].
      split; [cbn [concat]; rewrite <- app_assoc; exact H|]. right.
      exists m, ms, (skipn (length p) m). split; [reflexivity|].
      assert (M : m = p ++ skipn (length p) m).
      { rewrite <- (firstn_skipn (length p) m) at 1. f_equal.
        assert (F := f_equal (firstn (length p)) H).
        rewrite firstn_app_exact, fs_app in F by lia. symmetry. exact F. }
      split; [|exact M]. intros Z. rewrite Z, app_nil_r in M. subst. lia.
Qed.

Lemma unfinished_prefix p s : unfinished (p ++ s) -> unfinished p.
Proof.
  intros (q & Q & W & H). destruct s as [|x s].
  - rewrite app_nil_r in *. exists q. auto.
  - exists ((x :: s) ++ q). rewrite app_assoc. split; [destruct s; discriminate|].
    split; [exact W|]. intros H6. destruct p as [|y p]; [cbn; lia|].
    specialize (H H6). rewrite app_length in H. lia.
Qed.

(* the part of a message in the buffer: to be waited for, or a cut text *)
Lemma part_cases m left q : whole m -> q <> [] -> m = left ++ q ->
  unfinished left \/
  exists x y z n l, left = [6; x; y; z] ++ be 4 n ++ l /\ 0 <= n <= 10000000 /\
    zlen (l ++ q) = n /\ m = [6; x; y; z] ++ be 4 n ++ l ++ q.
Proof.
  intros W Q M.
  destruct (Z.eq_dec (hd 0 left) 6) as [H6|H6]; [|left; exists q; rewrite <- M; tauto].
  destruct (le_lt_dec 8 (length left)) as [L|L]; [|left; exists q; rewrite <- M; tauto].
  right. assert (HD : hd 0 m = 6) by (destruct left; [cbn in L; lia|]; subst m; exact H6).
  destruct W; cbn [hd app] in HD; try lia.
  exists a, b, d, n. 
  assert (F := f_equal (firstn 8) M). assert (G := f_equal (skipn 8) M).
  rewrite app_assoc, firstn_app_eq in F by sizes. rewrite app_assoc, skipn_app_eq in G by sizes.
  rewrite fs_app in F by exact L. rewrite sk_app in G by exact L.
  exists (skipn 8 left). rewrite <- G.
  split; [|repeat split; try lia; try assumption].
  rewrite app_assoc. rewrite F. symmetry. apply firstn_skipn.
Qed.

Lemma unfinished_size p : unfinished p -> zlen p < 4096.
Proof.
  intros (q & Q & W & H). remember (p ++ q) as m eqn:M.
  assert (L := prefix_length _ _ _ (eq_sym M) Q).
  destruct p as [|x p]; [cbn; lia|].
  destruct W; assert (HB := f_equal (hd 0) M); cbn [app hd] in HB; subst x; sizes.
  specialize (H eq_refl). lia.
Qed.

Lemma handled_cons E c m ms c' : handled E c (m :: ms) c' ->
  exists c1, on_message E (fun c => Ok c) c m = Ok (c1, zlen m) /\ handled E c1 ms c'.
Proof. intros H. inversion H; subst. eauto. Qed.

Section Feed.
Variable E : env.
Variable fuel : nat.
Variable c' : client.
Variable rest : list Z.
Hypothesis REST : unfinished rest.

Inductive point : client -> list Z -> Prop :=
| p_messages b c todo s : quiet c -> Forall whole todo -> handled E c todo c' ->
    b ++ s = concat todo ++ rest -> unfinished b -> point (with_buf b 0 c) s
| p_cut c x y z n l1 l2 m todo s : quiet c -> Forall whole todo -> 0 <= n <= 10000000 ->
    m = [6; x; y; z] ++ be 4 n ++ l1 ++ l2 ->
    handled E c (m :: todo) c' -> zlen l1 < n -> zlen (l1 ++ l2) = n ->
    s = l2 ++ concat todo ++ rest ->
    point (with_buf [] 0 (set_cut (Some (mk_cut false false n l1)) c)) s.

Definition ask : client -> res client := fun c => receive E fuel c (e_more E (log c)).

Lemma point_done c s : point c s -> s = [] -> c = with_buf rest 0 c'.
Proof.
  intros P ->. inversion P as [b c0 todo s0 Q W H B U|c0 x y z n l1 l2 m todo s0 Q W Hn M H L1 L2 S]; subst.
  - rewrite app_nil_r in B. destruct todo as [|m todo].
    + inversion H; subst. reflexivity.
    + exfalso. inversion H as [|? ? c1 ? ? H1 H2]; subst. inversion W as [|? ? W1 W2]; subst.
      assert (A := on_message_wait E (fun c => Ok c) c0 _ U).
      cbn [concat] in A. rewrite <- app_assoc, on_message_app, H1 in A by exact W1.
      apply ok_inj in A. injection A as _ A. assert (N := whole_nonempty _ W1).
      rewrite zlen_len in A. lia.
  - exfalso. symmetry in S. apply app_eq_nil in S as [-> _]. rewrite app_nil_r in *. lia.
Qed.

Lemma handled_split ms1 : forall ms2 c, handled E c (ms1 ++ ms2) c' ->
  exists c1, handled E c ms1 c1 /\ handled E c1 ms2 c'.
Proof.
  induction ms1 as [|m ms1 IH]; intros ms2 c H.
  - exists c. split; [constructor|exact H].
  - inversion H as [|? ? c1 ? ? H1 H2]; subst. destruct (IH _ _ H2) as (c2 & A & B).
    exists c2. split; [econstructor; eauto|exact B].
Qed.

Lemma point_read c s k : point c s ->
  exists c2, receive E (S fuel) c (Some (firstn (Nat.min k (Z.to_nat (room c))) s)) = Ok c2 /\
    point c2 (skipn (Nat.min k (Z.to_nat (room c))) s).
Proof.
  intros P. set (n := Nat.min k (Z.to_nat (room c))).
  assert (Hn : (n <= Z.to_nat (room c))%nat) by (subst n; lia). clearbody n.
  inversion P as [b c0 todo s0 Q W H B U|c0 x y z len l1 l2 m todo s0 Q W Hl M H L1 L2 S EC ES];
    [subst|subst c s0 m].
  - assert (C : cut c0 = None) by apply Q.
    unfold room in Hn. change (cut (with_buf b 0 c0)) with (cut c0) in Hn. rewrite C in Hn.
    change (buf (with_buf b 0 c0)) with b in Hn.
    assert (UB := unfinished_size _ U).
    cbn [receive]. fold ask. unfold on_client_event.
    change (cut (with_buf b 0 c0)) with (cut c0). rewrite C.
    change (idx (with_buf b 0 c0)) with 0. change (buf (with_buf b 0 c0)) with b.
    cbn [Z.eqb negb].
    replace (MSG_BUFFER_SIZE - zlen b <=? 0) with false
      by (symmetry; apply Z.leb_gt; unfold MSG_BUFFER_SIZE; lia).
    destruct (firstn n s) as [|d0 d] eqn:D.
    { exists (with_buf b 0 c0). split; [reflexivity|].
      replace (skipn n s) with s; [econstructor; eauto|].
      destruct n; [reflexivity|]. destruct s; [reflexivity|discriminate]. }
    rewrite <- D. set (dd := firstn n s).
    assert (LD : (length dd <= n)%nat) by (subst dd; rewrite firstn_length; lia).
    rewrite ltb_f by (unfold MSG_BUFFER_SIZE; sizes).
    set (bb := b ++ dd).
    change (set_buf bb (with_buf b 0 c0)) with (with_buf bb 0 c0).
    assert (K : bb ++ skipn n s = concat todo ++ rest).
    { subst bb dd. rewrite <- app_assoc, firstn_skipn. exact B. }
    destruct (split_stream _ _ _ _ K) as (m1 & m2 & left & TD & PB & LS & CASE).
    rewrite TD in H, W. destruct (handled_split _ _ _ H) as (c1 & H1 & H2).
    apply Forall_app in W as [W1 W2].
    assert (LB : (length bb <= 4096)%nat).
    { subst bb. rewrite app_length. rewrite zlen_len in *. lia. }
    assert (LM : (length m1 <= length bb)%nat).
    { rewrite PB, app_length. clear -W1. induction W1 as [|m ms Wm Ws IH]; [cbn; lia|].
      cbn [concat length]. rewrite app_length. assert (N := whole_nonempty _ Wm). lia. }
    assert (FU : Z.to_nat 4098 = (length m1 + S (S (Z.to_nat 4096 - length m1)))%nat)
      by lia.
    rewrite FU.
    assert (Hi : 0 <= 0 <= zlen bb) by (rewrite zlen_len; lia).
    assert (PB0 : skipn (Z.to_nat 0) bb = concat m1 ++ left) by exact PB.
    destruct (loop_whole E ask m1 (S (S (Z.to_nat 4096 - length m1))) c0 c1 bb 0 left Q Hi W1 H1 PB0)
      as (LP & Q1 & Hi1 & SK).
    rewrite LP. rewrite Z.add_0_l in *.
    assert (UL : unfinished left \/ exists x y z n l q, left = [6; x; y; z] ++ be 4 n ++ l /\
       0 <= n <= 10000000 /\ zlen (l ++ q) = n /\ q <> [] /\ exists m3,
       m2 = ([6; x; y; z] ++ be 4 n ++ l ++ q) :: m3).
    { destruct CASE as [->|(m & m3 & q & -> & Q0 & M)].
      - left. cbn in LS. apply (unfinished_prefix left (skipn n s)). rewrite LS. exact REST.
      - assert (Wm : whole m) by (inversion W2; assumption).
        destruct (part_cases m left q Wm Q0 M) as [U1|(x & y & z & len & l & A & B0 & C0 & D0)];
          [left; exact U1|].
        right. exists x, y, z, len, l, q. repeat (split; [assumption || lia|]).
        exists m3. rewrite <- D0. reflexivity. }
    destruct UL as [UL|(x & y & z & len & l & q & A & B0 & C0 & D0 & m3 & M2)].
    + rewrite (loop_unfinished E ask _ c1 bb _ Q1 Hi1) by (rewrite SK; exact UL).
      cbn [bind]. set (j := zlen (concat m1)) in *.
      change (buf (with_buf bb j c1)) with bb. change (idx (with_buf bb j c1)) with j.
      rewrite ltb_f by lia. eexists. split; [reflexivity|].
      rewrite SK. change (set_idx 0 (set_buf left (with_buf bb j c1))) with (with_buf left 0 c1).
      apply p_messages with (todo := m2); auto.
    + assert (ZQ : zlen l < len).
      { destruct q; [congruence|]. sizes. }
      rewrite (loop_cut E ask _ c1 bb _ x y z len l Q1 Hi1 B0 ZQ) by (rewrite SK; exact A).
      cbn [bind]. set (c2 := set_cut _ c1).
      change (buf (with_buf bb (zlen bb) c2)) with bb.
      change (idx (with_buf bb (zlen bb) c2)) with (zlen bb).
      rewrite ltb_f by lia. eexists. split; [reflexivity|].
      rewrite skipn_all2 by (rewrite zlen_len; lia).
      change (set_idx 0 (set_buf [] (with_buf bb (zlen bb) c2))) with (with_buf [] 0 c2).
      rewrite M2 in W2, H2, LS.
      assert (W3 : Forall whole m3) by (inversion W2; assumption).
      eapply p_cut with (l2 := q) (todo := m3); eauto.
      apply (app_inv_head ([6; x; y; z] ++ be 4 len ++ l)). rewrite A in LS. rewrite LS.
      cbn [concat]. rewrite <- !app_assoc. reflexivity.
  - unfold room in Hn.
    change (cut (with_buf [] 0 (set_cut (Some (mk_cut false false len l1)) c0)))
      with (Some (mk_cut false false len l1)) in Hn.
    cbn [ct_length ct_data] in Hn.
    cbn [receive]. fold ask. unfold on_client_event.
    change (cut (with_buf [] 0 (set_cut (Some (mk_cut false false len l1)) c0)))
      with (Some (mk_cut false false len l1)).
    assert (LL : (n <= length l2)%nat) by sizes.
    assert (D2 : firstn n s = firstn n l2) by (rewrite S; apply fs_app; exact LL).
    assert (S2 : skipn n s = skipn n l2 ++ concat todo ++ rest) by (rewrite S; apply sk_app; exact LL).
    rewrite D2. clear D2.
    destruct (firstn n l2) as [|d0 d] eqn:D.
    { eexists. split; [reflexivity|].
      destruct n; [exact P|]. exfalso. destruct l2; [cbn in LL; lia|discriminate]. }
    rewrite <- D. clear d0 d D.
    cbn [ct_length ct_data].
    assert (LF : length (firstn n l2) = n) by (rewrite firstn_length; lia).
    rewrite ltb_f by (unfold MSG_BUFFER_SIZE; rewrite (zlen_len (firstn n l2)), LF; lia).
    unfold big_cut_text. cbn [ct_length ct_data ct_zlib ct_provide].
    replace (len <=? zlen l1) with false by (symmetry; apply Z.leb_gt; lia).
    destruct (zlen (l1 ++ firstn n l2) =? len) eqn:F; cbn [negb].
    + apply Z.eqb_eq in F.
      assert (N2 : n = length l2) by sizes.
      cbn [bind]. eexists. split; [reflexivity|]. rewrite S2.
      rewrite N2, skipn_all, firstn_all. cbn [app].
      destruct (handled_cons _ _ _ _ _ H) as (c1 & H1 & H2).
      rewrite on_message_cut_whole in H1 by assumption.
      apply ok_inj in H1. injection H1 as H1. 
      assert (EQ : set_cut None (say (CutText (l1 ++ l2))
                (with_buf [] 0 (set_cut (Some (mk_cut false false len l1)) c0))) = with_buf [] 0 c1).
      { rewrite <- H1. destruct Q as (_ & _ & _ & Q). destruct c0. cbn in Q. subst. reflexivity. }
      rewrite EQ. apply p_messages with (todo := todo); auto using unfinished_nil.
      subst c1. exact Q.
    + eexists. split; [reflexivity|]. rewrite S2.
      apply Z.eqb_neq in F.
      set (c2 := set_cut _ _).
      change c2 with (with_buf [] 0 (set_cut (Some (mk_cut false false len (l1 ++ firstn n l2))) c0)).
      eapply p_cut with (l2 := skipn n l2) (todo := todo); eauto.
      * rewrite <- app_assoc, firstn_skipn. exact H.
      * sizes.
      * rewrite <- app_assoc, firstn_skipn. exact L2.
Qed.

Lemma feed_point ks : forall c s, point c s ->
  exists c2 s2, feed E fuel c ks s = Ok (c2, s2) /\ point c2 s2.
Proof.
  induction ks as [|k ks IH]; intros c s P.
  - exists c, s. split; [reflexivity|exact P].
  - cbn [feed]. destruct (point_read c s k P) as (c2 & R & P2). cbn zeta. rewrite R. cbn [bind].
    apply IH. exact P2.
Qed.

End Feed.

Lemma feed_all E fuel c ms c' rest ks :
  quiet c -> buf c = [] -> idx c = 0 -> Forall whole ms -> handled E c ms c' -> unfinished rest ->
  exists c2 s, feed E fuel c ks (concat ms ++ rest) = Ok (c2, s) /\
    (s = [] -> c2 = set_buf rest c').
Proof.
  intros Q B I W H U.
  destruct (feed_point E fuel c' rest U ks (with_buf [] 0 c) (concat ms ++ rest)) as (c2 & s & F & P).
  { apply p_messages with (todo := ms); auto using unfinished_nil. }
  rewrite (with_buf_id c [] 0 B I) in F. exists c2, s. split; [exact F|].
  intros S. rewrite (point_done _ _ _ _ _ P S).
  assert (I' : idx c' = 0).
  { clear -Q I H W. induction H as [|c m c1 ms c2 H1 H2 IH]; [exact I|].
    inversion W as [|? ? W1 W2]; subst.
    destruct (one_message E (fun c => Ok c) c m [] (buf c) (idx c) c1 Q W1 H1) as [A Q1].
    rewrite app_nil_r in A. rewrite with_buf_id, H1 in A by reflexivity.
    apply ok_inj in A. injection A as A. apply IH; auto.
    rewrite A. exact I. }
  unfold with_buf. destruct c'. cbn in I'. subst. reflexivity.
Qed.
