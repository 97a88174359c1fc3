(** Lemmas about V4L2 devices, for V4l2_Props.v. *)
From Verif Require Import Common CommonProofs H264_Model H264_Spec H264_Proofs V4l2_Model V4l2_Spec.

Definition tidy (s : src_buf) : Prop := fst s = is_some (snd s).

Definition vinv (d : vdev) : Prop :=
  (forall id, refs id (v_log d) = buffered id (v_src d)) /\
  (forall id, holds id (v_log d) = buffered id (v_src d)) /\
  Forall tidy (v_src d) /\
  match v_gen d with
  | O => v_src d = [] /\ v_width d = 0
  | _ => length (v_src d) = N_SRC_BUFS /\ (v_index d < N_SRC_BUFS)%nat
  end.

Lemma set_src_length l : forall n s, length (set_src l n s) = length l.
Proof. induction l as [|a l IH]; intros [|n] s; cbn [set_src length]; auto. Qed.

Lemma set_src_tidy l : forall n s, tidy s -> Forall tidy l -> Forall tidy (set_src l n s).
Proof.
  induction l as [|a l IH]; intros [|n] s T F; cbn [set_src]; try assumption; inversion F; subst; constructor; auto.
Qed.

Lemma buffered_cons id s l : buffered id (s :: l) = buffered id l + match s with (_, Some f) => counts (Some f) id | _ => 0 end.
Proof.
  destruct s as [t [f|]]; cbn [buffered fold_right counts]; fold (buffered id l); [|lia].
  destruct (Nat.eqb (f_id f) id); lia.
Qed.

Lemma buffered_set id l : forall n s a, nth_error l n = Some a ->
  buffered id (set_src l n s) =
  buffered id l - match a with (_, Some f) => counts (Some f) id | _ => 0 end
                + match s with (_, Some f) => counts (Some f) id | _ => 0 end.
Proof.
  induction l as [|b l IH]; intros [|n] s a N; cbn [nth_error] in N; try discriminate; cbn [set_src]; rewrite !buffered_cons.
  - injection N as ->. lia.
  - rewrite (IH n s a N). lia.
Qed.

Lemma return_inv d i d' : vinv d -> return_src d i = Ok d' ->
  vinv d' /\ v_gen d' = v_gen d /\ v_dropped d' = v_dropped d /\ v_width d' = v_width d /\ v_height d' = v_height d /\ v_format d' = v_format d.
Proof.
  intros (R & H & T & M) E. unfold return_src in E. destruct (nth_error (v_src d) i) as [[t [f|]]|] eqn:N; try discriminate.
  injection E as <-. unfold vinv, upd.
  cbn [v_gen v_width v_height v_format v_src v_index v_dropped v_log].
  split; [|rewrite app_nil_r; auto]. split; [|split; [|split]].
  - intros id. rewrite refs_app, R, (buffered_set id _ _ _ _ N). cbn [refs fold_right counts]. destruct (Nat.eqb (f_id f) id); lia.
  - intros id. rewrite holds_app, H, (buffered_set id _ _ _ _ N). cbn [holds fold_right counts]. destruct (Nat.eqb (f_id f) id); lia.
  - apply set_src_tidy; [reflexivity|exact T].
  - destruct (v_gen d); [|rewrite set_src_length; exact M].
    destruct M as [M W]. rewrite M in N. destruct i; discriminate.
Qed.

Lemma return_fault d i : return_src d i <> Fault AssertFail /\ return_src d i <> Fault UseAfterFree.
Proof. unfold return_src. destruct (nth_error (v_src d) i) as [[t [f|]]|]; split; discriminate. Qed.

Lemma process_inv l : forall d d', vinv d -> process_src_bufs d l = Ok d' ->
  vinv d' /\ v_gen d' = v_gen d /\ v_dropped d' = v_dropped d /\ v_width d' = v_width d /\ v_height d' = v_height d /\ v_format d' = v_format d.
Proof.
  induction l as [|i l IH]; intros d d' I E; cbn [process_src_bufs] in E.
  - injection E as <-. auto 10.
  - destruct (return_src d i) as [d1|] eqn:R; [|discriminate]. cbn [bind] in E.
    destruct (return_inv d i d1 I R) as (I1 & G1 & D1 & A1 & B1 & C1).
    destruct (IH d1 d' I1 E) as (I2 & G2 & D2 & A2 & B2 & C2).
    split; [exact I2|]. repeat split; congruence.
Qed.

Lemma process_fault l : forall d, process_src_bufs d l <> Fault AssertFail /\ process_src_bufs d l <> Fault UseAfterFree.
Proof.
  induction l as [|i l IH]; intros d; cbn [process_src_bufs]; [split; discriminate|].
  destruct (return_src d i) as [d1|f] eqn:R; cbn [bind]; [apply IH|].
  pose proof (return_fault d i) as [A B]. rewrite R in A, B. split; congruence.
Qed.

Lemma encode_inv d f : vinv d -> v_gen d <> O -> exists d', encode_buffer d f = Ok d' /\ vinv d' /\ v_gen d' = v_gen d /\
  v_width d' = v_width d /\ v_height d' = v_height d /\ v_format d' = v_format d /\
  ((v_dropped d' = v_dropped d /\ forall id, buffered id (v_src d') = buffered id (v_src d) + counts (Some f) id)
   \/ (v_dropped d' = v_dropped d ++ [f] /\ v_src d' = v_src d /\ Forall (fun s => snd s <> None) (v_src d))).
Proof.
  intros (R & H & T & M) G. destruct (v_gen d) as [|g] eqn:GE; [contradiction|]. destruct M as [L X].
  unfold encode_buffer.
  assert (LM : length (map fst (v_src d)) = N_SRC_BUFS) by (rewrite map_length; exact L).
  pose proof (take_spec (map fst (v_src d)) (v_index d)) as TS. rewrite LM in TS. specialize (TS X).
  destruct (take_src_buffer (map fst (v_src d)) (v_index d)) as [[b next]|].
  - destruct TS as (B & NB & NX). rewrite <- L in B.
    destruct (nth_error (v_src d) b) as [[t o]|] eqn:N; [|apply nth_error_None in N; lia].
    rewrite (nth_error_nth (A:=src_buf) _ _ (false, None) N).
    assert (t = false).
    { rewrite (nth_indep _ false (fst (false, @None frame))) in NB by (rewrite LM; lia).
      rewrite (map_nth (A:=src_buf)), (nth_error_nth (A:=src_buf) _ _ (false, None) N) in NB. exact NB. }
    assert (o = None).
    { rewrite Forall_forall in T. specialize (T _ (nth_error_In _ _ N)). unfold tidy in T. cbn [fst snd] in T. subst t.
      destruct o; [discriminate|reflexivity]. }
    subst t o. eexists. split; [reflexivity|]. unfold vinv, upd.
    cbn [v_gen v_width v_height v_format v_src v_index v_dropped v_log]. rewrite GE.
    split; [|repeat (split; [reflexivity|])].
    + split; [|split; [|split; [|split]]].
      * intros id. rewrite refs_app, R, (buffered_set id _ _ _ _ N). cbn [refs fold_right counts]. destruct (Nat.eqb (f_id f) id); lia.
      * intros id. rewrite holds_app, H, (buffered_set id _ _ _ _ N). cbn [holds fold_right counts]. destruct (Nat.eqb (f_id f) id); lia.
      * apply set_src_tidy; [reflexivity|exact T].
      * rewrite set_src_length. exact L.
      * exact NX.
    + left. split; [apply app_nil_r|]. intros id. rewrite (buffered_set id _ _ _ _ N). lia.
  - eexists. split; [reflexivity|]. unfold vinv, upd.
    cbn [v_gen v_width v_height v_format v_src v_index v_dropped v_log]. rewrite GE, app_nil_r.
    split; [|repeat (split; [reflexivity|])].
    + split; [exact R|]. split; [exact H|]. split; [exact T|]. split; assumption.
    + right. split; [reflexivity|]. split; [reflexivity|]. rewrite Forall_forall in T |- *. intros s IS NS.
      apply In_nth_error in IS. destruct IS as [b N].
      assert (B : (b < length (v_src d))%nat) by (apply nth_error_Some; intros Q; pose proof (eq_trans (eq_sym N) Q); discriminate). rewrite L in B.
      specialize (TS b B).
      rewrite (nth_indep _ false (fst (false, @None frame))) in TS by (rewrite LM; lia).
      rewrite (map_nth (A:=src_buf)), (nth_error_nth (A:=src_buf) _ _ (false, None) N) in TS.
      specialize (T s (nth_error_In _ _ N)). unfold tidy in T. rewrite NS, TS in T. discriminate.
Qed.

Lemma create_inv n f d : (forall id, refs id (v_log d) = 0) -> (forall id, holds id (v_log d) = 0) -> vinv (v4l2_create (S n) f d).
Proof.
  intros R H. unfold vinv, v4l2_create. cbn [v_gen v_width v_height v_format v_src v_index v_dropped v_log].
  split; [intros id; rewrite R; reflexivity|]. split; [intros id; rewrite H; reflexivity|].
  split; [repeat constructor|]. split; [reflexivity|]. unfold N_SRC_BUFS. lia.
Qed.

Lemma untaken l id : Forall tidy l -> existsb fst l = false -> buffered id l = 0.
Proof.
  induction l as [|[t o] l IH]; intros T E; [reflexivity|]. inversion T as [|? ? T1 T2]; subst.
  cbn [existsb fst] in E. apply orb_false_elim in E. destruct E as [-> E].
  unfold tidy in T1. cbn [fst snd] in T1. destruct o; [discriminate|].
  rewrite buffered_cons, IH by assumption. reflexivity.
Qed.

(** Giving it a frame. *)
Lemma v4l2_encode_inv d f c r : vinv d -> real_size f ->
  v4l2_encode d f c r <> Fault AssertFail /\ v4l2_encode d f c r <> Fault UseAfterFree /\
  forall d', v4l2_encode d f c r = Ok d' ->
    vinv d' /\ (v_dropped d' = v_dropped d \/ v_dropped d' = v_dropped d ++ [f] /\
                length (v_src d') = N_SRC_BUFS /\ Forall (fun s => snd s <> None) (v_src d')) /\
    v_gen d' <> O /\ (v_width d' = f_width f /\ v_height d' = f_height f /\ v_format d' = f_format f) /\
    ((f_width f = v_width d /\ f_height f = v_height d /\ f_format f = v_format d) -> v_gen d' = v_gen d).
Proof.
  intros I W. unfold real_size in W.
  assert (FEED : forall d0, vinv d0 -> v_gen d0 <> O ->
     v4l2_feed d0 r f <> Fault AssertFail /\ v4l2_feed d0 r f <> Fault UseAfterFree /\
     forall d', v4l2_feed d0 r f = Ok d' -> vinv d' /\ v_gen d' = v_gen d0 /\ v_width d' = v_width d0 /\ v_height d' = v_height d0 /\ v_format d' = v_format d0 /\
       (v_dropped d' = v_dropped d0 \/ v_dropped d' = v_dropped d0 ++ [f] /\
                length (v_src d') = N_SRC_BUFS /\ Forall (fun s => snd s <> None) (v_src d'))).
  { intros d0 I0 G0. unfold v4l2_feed. pose proof (process_fault r d0) as [PA PU].
    destruct (process_src_bufs d0 r) as [d1|e] eqn:P; cbn [bind].
    - destruct (process_inv r d0 d1 I0 P) as (I1 & G1 & D1 & A1 & B1 & C1). rewrite <- G1 in G0.
      destruct (encode_inv d1 f I1 G0) as (d2 & E & I2 & G2 & A2 & B2 & C2 & D2). rewrite E.
      split; [discriminate|]. split; [discriminate|]. intros d' E'. injection E' as <-.
      split; [exact I2|]. split; [congruence|]. split; [congruence|]. split; [congruence|]. split; [congruence|].
      destruct D2 as [[D2 _]|(D2 & S2 & F2)]; [left; congruence|right]. rewrite D2, D1.
      split; [reflexivity|]. destruct I1 as (_ & _ & _ & M). destruct (v_gen d1); [contradiction|].
      rewrite S2. split; [apply M|exact F2].
    - split; [congruence|]. split; [congruence|]. discriminate. }
  unfold v4l2_encode.
  destruct ((f_width f =? v_width d) && (f_height f =? v_height d) && (f_format f =? v_format d)) eqn:SAME.
  - apply andb_true_iff in SAME. destruct SAME as [SAME S3]. apply andb_true_iff in SAME. destruct SAME as [S1 S2].
    apply Z.eqb_eq in S1, S2, S3.
    assert (G : v_gen d <> O).
    { intros G. destruct I as (_ & _ & _ & M). rewrite G in M. lia. }
    destruct (FEED d I G) as (FA & FU & FO). split; [exact FA|]. split; [exact FU|]. intros d' E.
    destruct (FO d' E) as (I1 & G1 & A1 & B1 & C1 & D1). split; [exact I1|]. split; [exact D1|]. split; [congruence|].
    split; [split; [congruence|split; congruence]|]. intros _. exact G1.
  - assert (OLD : forall old, match v_gen d with O => Ok d | _ => v4l2_destroy d c end = Ok old ->
      (forall id, refs id (v_log old) = 0) /\ (forall id, holds id (v_log old) = 0) /\ v_dropped old = v_dropped d).
    { intros old E. destruct (v_gen d) eqn:G.
      - injection E as <-. destruct I as (R & H & _ & M). rewrite G in M. destruct M as [M _].
        split; [|split; [|reflexivity]]; intros id; [rewrite R|rewrite H]; rewrite M; reflexivity.
      - unfold v4l2_destroy in E. destruct (process_src_bufs d c) as [d1|] eqn:P; [|discriminate]. cbn [bind] in E.
        destruct (process_inv c d d1 I P) as ((R & H & T & _) & _ & D1 & _).
        unfold any_taken in E. destruct (existsb fst (v_src d1)) eqn:T1; [discriminate|]. injection E as <-.
        cbn [v_log v_dropped]. split; [|split; [|exact D1]]; intros id; [rewrite R|rewrite H]; apply untaken; assumption. }
    destruct (match v_gen d with O => Ok d | _ => v4l2_destroy d c end) as [old|e] eqn:E; cbn [bind].
    + destruct (OLD old eq_refl) as (R & H & D). pose proof (create_inv (v_gen d) f old R H) as I1.
      destruct (FEED _ I1) as (FA & FU & FO); [discriminate|]. split; [exact FA|]. split; [exact FU|]. intros d' E'.
      destruct (FO d' E') as (I2 & G2 & A2 & B2 & C2 & D2).
      cbn [v4l2_create v_gen v_width v_height v_format v_dropped] in *.
      split; [exact I2|]. rewrite D in D2. split; [exact D2|]. split; [congruence|]. split; [auto|].
      intros (S1 & S2 & S3). rewrite <- S1, <- S2, <- S3, !Z.eqb_refl in SAME. discriminate.
    + destruct (v_gen d); [discriminate|]. unfold v4l2_destroy in E.
      pose proof (process_fault c d) as [PA PU]. destruct (process_src_bufs d c) as [d1|e1]; cbn [bind] in E.
      * destruct (any_taken d1); [|discriminate E]. injection E as <-. split; [discriminate|]. split; discriminate.
      * split; [congruence|]. split; [congruence|discriminate].
Qed.

Lemma process_dst_inv l : forall d, vinv d -> Forall real_size (callback_frames l) ->
  process_dst_bufs d l <> Fault AssertFail /\ forall d', process_dst_bufs d l = Ok d' -> vinv d'.
Proof.
  induction l as [|[p cb] l IH]; intros d I F; cbn [process_dst_bufs].
  - split; [discriminate|]. intros d' E. injection E as <-. exact I.
  - destruct p as [|b p]; [split; discriminate|].
    destruct cb as [[[f c] r]|]; cbn [callback_frames flat_map snd app] in F.
    + inversion F as [|? ? F1 F2]; subst. destruct (v4l2_encode_inv d f c r I F1) as (A & _ & O).
      destruct (v4l2_encode d f c r) as [d1|e]; cbn [bind]; [|split; [congruence|discriminate]].
      destruct (O d1 eq_refl) as (I1 & _). destruct (Nat.eqb (v_gen d1) (v_gen d)); [|split; discriminate].
      exact (IH d1 I1 F2).
    + cbn [bind]. rewrite Nat.eqb_refl. exact (IH d I F).
Qed.

Lemma vrun_inv l : forall d, vinv d -> Forall real_size (all_frames l) ->
  vrun d l <> Fault AssertFail /\ forall d', vrun d l = Ok d' -> vinv d'.
Proof.
  induction l as [|a l IH]; intros d I F; cbn [vrun].
  - split; [discriminate|]. intros d' E. injection E as <-. exact I.
  - destruct a as [f c r|e]; cbn [all_frames flat_map app] in F.
    + inversion F as [|? ? F1 F2]; subst. destruct (v4l2_encode_inv d f c r I F1) as (A & _ & O).
      destruct (v4l2_encode d f c r) as [d1|x]; cbn [bind]; [|split; [congruence|discriminate]].
      destruct (O d1 eq_refl) as (I1 & _). exact (IH d1 I1 F2).
    + apply Forall_app in F. destruct F as [F1 F2]. destruct (process_dst_inv e d I F1) as (A & O).
      destruct (process_dst_bufs d e) as [d1|x]; cbn [bind]; [|split; [congruence|discriminate]].
      exact (IH d1 (O d1 eq_refl) F2).
Qed.

Lemma vinv_none : vinv v4l2_none.
Proof. unfold vinv. cbn. repeat split. constructor. Qed.

(** Frames of one size. *)
Definition at_size (g : frame) (d : vdev) : Prop :=
  v_gen d <> O -> v_width d = f_width g /\ v_height d = f_height g /\ v_format d = f_format g.

Lemma same_dst g l : real_size g -> forall d, vinv d -> v_gen d <> O -> at_size g d -> Forall (same_geometry g) (callback_frames l) ->
  process_dst_bufs d l <> Fault UseAfterFree /\
  forall d', process_dst_bufs d l = Ok d' -> vinv d' /\ v_gen d' <> O /\ at_size g d'.
Proof.
  intros RG. induction l as [|[p cb] l IH]; intros d I G A F; cbn [process_dst_bufs].
  - split; [discriminate|]. intros d' E. injection E as <-. auto.
  - destruct p as [|b p]; [split; discriminate|].
    destruct cb as [[[f c] r]|]; cbn [callback_frames flat_map snd app] in F.
    + inversion F as [|? ? F1 F2]; subst. destruct F1 as (W & H & M).
      assert (RF : real_size f) by (unfold real_size in *; lia).
      destruct (v4l2_encode_inv d f c r I RF) as (_ & U & O).
      destruct (v4l2_encode d f c r) as [d1|e]; cbn [bind]; [|split; [congruence|discriminate]].
      destruct (O d1 eq_refl) as (I1 & _ & G1 & S1 & K). destruct (A G) as (A1 & A2 & A3).
      rewrite K by (repeat split; congruence). rewrite Nat.eqb_refl.
      apply IH; [exact I1|exact G1| |exact F2]. intros _. destruct S1 as (X & Y & Z). repeat split; congruence.
    + cbn [bind]. rewrite Nat.eqb_refl. apply IH; assumption.
Qed.

Lemma same_run g l : real_size g -> forall d, vinv d -> at_size g d -> Forall (same_geometry g) (all_frames l) ->
  (v_gen d = O -> exists f c r t, l = VEncode f c r :: t) -> vrun d l <> Fault UseAfterFree.
Proof.
  intros RG. induction l as [|a l IH]; intros d I A F N; cbn [vrun]; [discriminate|].
  destruct a as [f c r|e]; cbn [all_frames flat_map app] in F.
  - inversion F as [|? ? F1 F2]; subst. destruct F1 as (W & H & M).
    assert (RF : real_size f) by (unfold real_size in *; lia).
    destruct (v4l2_encode_inv d f c r I RF) as (_ & U & O).
    destruct (v4l2_encode d f c r) as [d1|x]; cbn [bind]; [|congruence].
    destruct (O d1 eq_refl) as (I1 & _ & G1 & S1 & K).
    apply IH; [exact I1| |exact F2|contradiction]. intros _. destruct S1 as (X & Y & Z). repeat split; congruence.
  - apply Forall_app in F. destruct F as [F1 F2].
    assert (G : v_gen d <> O) by (intros G; destruct (N G) as (? & ? & ? & ? & D); discriminate).
    destruct (same_dst g e RG d I G A F1) as (U & O).
    destruct (process_dst_bufs d e) as [d1|x]; cbn [bind]; [|congruence].
    destruct (O d1 eq_refl) as (I1 & G1 & A1). apply IH; [exact I1|exact A1|exact F2|contradiction].
Qed.
