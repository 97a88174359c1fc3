(** Proofs about reading through the kinds of streams. *)
From Verif Require Import Common CommonProofs Msg_Model Msg_Spec Msg_Proofs Msg3_Proofs Msg4_Proofs Talk_Model Talk_Spec.

Lemma room_asked c : room c = asked c.
Proof. reflexivity. Qed.

Lemma whole_nonempty m : whole m -> m <> [].
Proof. intros W ->. inversion W. Qed.

Lemma begins_nil n : 6 <= n -> begins n [].
Proof.
  intros H. exists [5; 0; 0; 0; 0; 0], [5; 0; 0; 0; 0; 0]. split; [|split; [reflexivity|discriminate]].
  split; [constructor; reflexivity|]. split; [exact H|discriminate].
Qed.

Lemma begins_short n r : begins n r -> zlen r < n.
Proof.
  intros (m & more & (W & L & H) & E & N). rewrite E in L. unfold zlen in *. rewrite app_length in L.
  destruct more; [congruence|]. cbn [length] in L. lia.
Qed.

Lemma begins_unfinished n r : begins n r -> unfinished r.
Proof.
  intros (m & more & (W & L & H) & E & N). exists more. split; [exact N|]. split; [rewrite <- E; exact W|].
  intros K. exfalso. destruct r as [|x r]; [discriminate|]. apply H. rewrite E. exact K.
Qed.

Lemma prefix_split n ms : forall rest p q, Forall (short n) ms -> begins n rest -> p ++ q = concat ms ++ rest ->
  exists ms1 ms2 r1, p = concat ms1 ++ r1 /\ begins n r1 /\ ms = ms1 ++ ms2.
Proof.
  induction ms as [|m ms IH]; intros rest p q F B E; cbn [concat app] in E.
  - exists [], [], p. split; [reflexivity|]. split; [|reflexivity].
    destruct B as (e & more & W & M & N). exists e, (q ++ more). split; [exact W|]. rewrite M, <- E, <- app_assoc. split; [reflexivity|].
    destruct q; [exact N|discriminate].
  - inversion F as [|? ? F1 F2]; subst.
    rewrite <- app_assoc in E. destruct (Nat.lt_ge_cases (length p) (length m)) as [L|L].
    + exists [], (m :: ms), p. split; [reflexivity|]. split; [|reflexivity].
      assert (FP : firstn (length p) m = p).
      { apply (f_equal (firstn (length p))) in E. rewrite firstn_app_exact in E. rewrite firstn_app in E.
        replace (length p - length m)%nat with 0%nat in E by lia. cbn [firstn] in E. rewrite app_nil_r in E. symmetry. exact E. }
      exists m, (skipn (length p) m). split; [exact F1|]. split; [rewrite <- (firstn_skipn (length p) m) at 1; rewrite FP; reflexivity|].
      intros K. apply (f_equal (@length Z)) in K. rewrite skipn_length in K. cbn in K. lia.
    + assert (P : p = m ++ skipn (length m) p).
      { rewrite <- (firstn_skipn (length m) p) at 1. f_equal.
        apply (f_equal (firstn (length m))) in E. rewrite firstn_app_exact, firstn_app in E.
        replace (length m - length p)%nat with 0%nat in E by lia. cbn [firstn] in E. rewrite app_nil_r in E. exact E. }
      rewrite P, <- app_assoc in E. apply app_inv_head in E.
      destruct (IH rest _ _ F2 B E) as (ms1 & ms2 & r1 & E1 & B1 & I1).
      exists (m :: ms1), ms2, r1. split; [cbn [concat]; rewrite <- app_assoc, <- E1; exact P|].
      split; [exact B1|]. rewrite I1. reflexivity.
Qed.

Lemma handled_prefix E c ms1 : forall ms2 c', handled E c (ms1 ++ ms2) c' -> exists c1, handled E c ms1 c1.
Proof.
  revert c. induction ms1 as [|m ms1 IH]; intros c ms2 c' H; [exists c; constructor|].
  cbn [app] in H. inversion H as [|? ? c1 ? ? H1 H2]; subst. destruct (IH c1 _ _ H2) as (c2 & H3).
  exists c2. econstructor; eassumption.
Qed.

Lemma handled_quiet E c ms c' : quiet c -> Forall whole ms -> handled E c ms c' -> quiet c'.
Proof.
  intros Q W H. induction H as [|c m c1 ms c2 H1 H2 IH]; [exact Q|].
  inversion W as [|? ? W1 W2]; subst.
  destruct (one_message E (fun c => Ok c) c m [] (buf c) (idx c) c1 Q W1 H1) as [A Q1]. apply IH; auto.
Qed.

Lemma short_whole n ms : Forall (short n) ms -> Forall whole ms.
Proof. intros F. eapply Forall_impl; [|exact F]. intros m H. apply H. Qed.

(** the client after some reads, each with room for what it returns *)
Inductive hears (E : env) (fuel : nat) (c : client) : list (list Z) -> client -> Prop :=
| hears_nil : hears E fuel c [] c
| hears_snoc ds c1 d c2 : hears E fuel c ds c1 -> zlen d <= asked c1 ->
    receive E (S fuel) c1 (Some d) = Ok c2 -> hears E fuel c (ds ++ [d]) c2.

Lemma feed_one E fuel c d ks tl : zlen d <= asked c ->
  feed E fuel c (length d :: ks) (d ++ tl) = (let* c2 := receive E (S fuel) c (Some d) in feed E fuel c2 ks tl).
Proof.
  intros L. cbn [feed]. rewrite room_asked. replace (Nat.min (length d) (Z.to_nat (asked c))) with (length d) by (unfold zlen in L; lia).
  rewrite firstn_app_exact, skipn_app_exact. reflexivity.
Qed.

Lemma hears_feed E fuel c ds c2 : hears E fuel c ds c2 ->
  forall ks tl, feed E fuel c (map (@length Z) ds ++ ks) (concat ds ++ tl) = feed E fuel c2 ks tl.
Proof.
  induction 1 as [|ds c1 d c2 H IH L R]; intros ks tl; [reflexivity|].
  rewrite map_app, concat_app, <- !app_assoc. cbn [map concat app]. rewrite app_nil_r.
  rewrite IH, feed_one by exact L. rewrite R. reflexivity.
Qed.

Section Client.
Variables (E : env) (fuel : nat) (n : Z) (c : client) (ms : list (list Z)) (rest : list Z) (c' : client).
Hypothesis LI : listening c.
Hypothesis SH : Forall (short n) ms.
Hypothesis BE : begins n rest.
Hypothesis HA : handled E c ms c'.

Lemma hears_state ds c2 : hears E fuel c ds c2 -> concat ds = concat ms ++ rest -> c2 = set_buf rest c'.
Proof.
  intros H D. destruct LI as (Q & B & I).
  destruct (feed_all E fuel c ms c' rest (map (@length Z) ds) Q B I (short_whole _ _ SH) HA (begins_unfinished _ _ BE)) as (c3 & s & F & K).
  pose proof (hears_feed E fuel c ds c2 H [] []) as F2. rewrite !app_nil_r, D, F in F2. cbn [feed] in F2.
  apply ok_inj in F2. injection F2 as -> ->. exact (K eq_refl).
Qed.
End Client.

Section Room.
Variables (E : env) (fuel : nat) (n : Z) (c : client) (ms : list (list Z)) (rest : list Z) (c' : client).
Hypothesis LI : listening c.
Hypothesis SH : Forall (short n) ms.
Hypothesis BE : begins n rest.
Hypothesis HA : handled E c ms c'.

Lemma hears_room ds c2 q : hears E fuel c ds c2 -> concat ds ++ q = concat ms ++ rest -> 4097 - n <= asked c2.
Proof.
  intros H D. destruct (prefix_split n ms rest _ _ SH BE D) as (ms1 & ms2 & r1 & D1 & B1 & M).
  rewrite M in SH, HA. apply Forall_app in SH as [SH1 _]. destruct (handled_prefix _ _ _ _ _ HA) as (c1 & H1).
  pose proof (hears_state E fuel n c ms1 r1 c1 LI SH1 B1 H1 ds c2 H D1) as ->.
  destruct LI as (Q & _). destruct (handled_quiet E c ms1 c1 Q (short_whole _ _ SH1) H1) as (_ & _ & _ & C).
  unfold asked. change (cut (set_buf r1 c1)) with (cut c1). rewrite C.
  change (buf (set_buf r1 c1)) with r1. pose proof (begins_short _ _ B1). unfold MSG_BUFFER_SIZE. lia.
Qed.

Lemma hears_next ds c1 d q : hears E fuel c ds c1 -> (concat ds ++ d) ++ q = concat ms ++ rest -> zlen d <= asked c1 ->
  exists c2, receive E (S fuel) c1 (Some d) = Ok c2 /\ hears E fuel c (ds ++ [d]) c2.
Proof.
  intros H D LE. destruct (prefix_split n ms rest _ _ SH BE D) as (ms1 & ms2 & r1 & D1 & B1 & M).
  rewrite M in SH, HA. apply Forall_app in SH as [SH1 _]. destruct (handled_prefix _ _ _ _ _ HA) as (c3 & H1).
  destruct LI as (Q & BU & I).
  destruct (feed_all E fuel c ms1 c3 r1 (map (@length Z) ds ++ [length d]) Q BU I (short_whole _ _ SH1) H1 (begins_unfinished _ _ B1)) as (c4 & s & F & _).
  pose proof (feed_one E fuel c1 d [] [] LE) as F1. rewrite app_nil_r in F1.
  rewrite <- D1, (hears_feed E fuel c ds c1 H), F1 in F.
  destruct (receive E (S fuel) c1 (Some d)) as [c2|e] eqn:R; [|discriminate].
  exists c2. split; [reflexivity|]. econstructor; eassumption.
Qed.

(** Any stream that hands out, read by read, the bytes [total], given so much room. *)
Section Any.
Context {St : Type}.
Variable read : St -> Z -> list Z -> res (St * list Z * bool).
(* [at_point st out segs]: [out] has been handed out, [segs] are to come *)
Variable at_point : St -> list Z -> list (list Z) -> Prop.
Hypothesis next : forall st out s segs size, at_point st out (s :: segs) -> 4097 - n <= size ->
  exists st' d, read st size s = Ok (st', d, false) /\ zlen d <= size /\ at_point st' (out ++ d) segs.
Hypothesis inside : forall st out segs, at_point st out segs -> exists q, out ++ q = concat ms ++ rest.
Hypothesis done : forall st out, at_point st out [] -> out = concat ms ++ rest.

Lemma talk_on segs : forall st ds c1, at_point st (concat ds) segs -> hears E fuel c ds c1 ->
  exists st' c2 ds2, talk read E fuel st c1 segs = Ok (st', c2) /\ hears E fuel c ds2 c2 /\ at_point st' (concat ds2) [].
Proof.
  induction segs as [|s segs IH]; intros st ds c1 P H.
  - exists st, c1, ds. split; [reflexivity|]. split; assumption.
  - destruct (inside _ _ _ P) as [q Q].
    pose proof (hears_room ds c1 q H Q) as R.
    destruct (next _ _ _ _ _ P R) as (st1 & d & RD & LD & P1).
    destruct (inside _ _ _ P1) as [q1 Q1].
    destruct (hears_next ds c1 d q1 H Q1 LD) as (c2 & RC & H2).
    cbn [talk]. rewrite RD. cbn [bind]. rewrite RC. cbn [bind].
    apply (IH st1 (ds ++ [d]) c2); [|exact H2]. rewrite concat_app. cbn [concat]. rewrite app_nil_r. exact P1.
Qed.

Lemma talk_all st segs : at_point st [] segs ->
  exists st', talk read E fuel st c segs = Ok (st', set_buf rest c').
Proof.
  intros P. destruct (talk_on segs st [] c P (hears_nil _ _ _)) as (st' & c2 & ds2 & T & H & D).
  exists st'. rewrite T. do 2 f_equal. apply (hears_state E fuel n c ms rest c' LI SH BE HA ds2 c2 H). exact (done _ _ D).
Qed.
End Any.
End Room.
