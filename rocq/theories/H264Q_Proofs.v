(** Frames waiting in the encoder come out in the order they went in. *)
From Verif Require Import Common CommonProofs H264_Model H264_Spec H264_Proofs.

Definition wait (c : option frame) (q : list frame) : list frame := match c with Some f => f :: q | None => q end.

Definition qinv (w h fmt x y : Z) (fs : list frame) (ps : list (list Z)) (o : open) : Prop :=
  o_pending o = init_pending /\ o_gone o = false /\ o_quality_changed o = false /\ o_x o = x /\ o_y o = y /\
  match o_enc o with
  | None => o_width o = 0 /\ fs = [] /\ ps = [] /\ o_log o = []
  | Some k => o_width o = w /\ o_height o = h /\ o_format o = fmt /\ k_dying k = false /\
      (k_current k = None -> k_queue k = []) /\
      exists gone, fs = gone ++ wait (k_current k) (k_queue k) /\
        map fst (started (o_log o)) = gone ++ wait (k_current k) [] /\
        length gone = length ps /\ finished (o_log o) = map (out x y) (combine gone ps)
  end.

Lemma qencode w h fmt x y fs ps o f o' n : qinv w h fmt x y fs ps o -> same_size w h fmt (Encode f true) ->
  open_h264_encode o f true = Ok (o', n) -> qinv w h fmt x y (fs ++ [f]) ps o'.
Proof.
  intros (P & G & Q & X & Y & I0) (_ & (W & H & F1 & F2) & E1 & E2 & E3) R. unfold open_h264_encode in R.
  rewrite Q, orb_false_r in R. destruct (o_enc o) as [k|] eqn:K.
  - destruct I0 as (I1 & I2 & I3 & I4 & I5 & gone & I6 & I7 & I8 & I9).
    rewrite I1, I2, I3, E1, E2, E3, !Z.eqb_refl in R. cbn [negb orb] in R. rewrite I1, I2, <- E1, <- E2 in R.
    destruct (f_width f =? 0) eqn:Z1; [lia|]. destruct (f_height f =? 0) eqn:Z2; [lia|]. cbn [orb] in R. rewrite K in R.
    unfold codec_feed in R. rewrite F1, F2 in R. cbn [negb] in R. unfold schedule_work in R. cbn [k_current k_queue k_quality k_key_next k_dying] in R.
    destruct (k_current k) as [g|] eqn:C.
    + cbn [bind fst snd] in R. injection R as <- _. unfold qinv, note. cbn [o_pending o_gone o_quality_changed o_x o_y o_enc o_width o_height o_format o_log k_dying k_current k_queue].
      repeat (split; [assumption|]). split; [discriminate|].
      exists gone. rewrite started_app, finished_app, map_app, I6, I7, I9. cbn [wait started finished flat_map app map]. rewrite !app_nil_r.
      split; [rewrite <- !app_assoc; reflexivity|]. auto.
    + rewrite (I5 eq_refl) in *. cbn [bind fst snd app] in R. injection R as <- _. unfold qinv, note. cbn [o_pending o_gone o_quality_changed o_x o_y o_enc o_width o_height o_format o_log k_dying k_current k_queue].
      repeat (split; [assumption|]). split; [discriminate|].
      exists gone. rewrite started_app, finished_app, map_app, I6, I7, I9. cbn [wait started finished flat_map app map fst]. rewrite !app_nil_r. auto.
  - destruct I0 as (I1 & -> & -> & L). rewrite I1 in R. destruct (f_width f =? 0) eqn:Z1; [lia|]. cbn [negb orb] in R.
    unfold open_h264_resize in R. cbn [o_enc o_width o_height] in R. destruct (f_width f =? 0); [lia|].
    destruct (f_height f =? 0) eqn:Z2; [lia|]. cbn [orb] in R.
    unfold codec_feed in R. rewrite F1, F2 in R. cbn [negb] in R. unfold schedule_work, codec_new in R. cbn [k_current k_queue k_quality k_key_next k_dying app bind fst snd] in R.
    injection R as <- _. unfold qinv, note. cbn [o_pending o_gone o_quality_changed o_x o_y o_enc o_width o_height o_format o_log k_dying k_current k_queue].
    split; [exact P|]. split; [exact G|]. split; [reflexivity|]. split; [exact X|]. split; [exact Y|].
    split; [exact E1|]. split; [exact E2|]. split; [exact E3|]. split; [reflexivity|]. split; [discriminate|]. exists []. rewrite L. cbn. auto.
Qed.

Lemma combine_snoc (A B : Type) : forall (l : list A) (m : list B) a c, length l = length m ->
  combine (l ++ [a]) (m ++ [c]) = combine l m ++ [(a, c)].
Proof. induction l as [|u l IH]; intros [|v m] a c E; try discriminate; [reflexivity|]. cbn. rewrite IH; [reflexivity|]. cbn in E. lia. Qed.

Lemma qdone w h fmt x y fs ps o p o' : 0 < w < 2 ^ 16 -> 0 < h < 2 ^ 16 -> Forall (fun f => f_width f = w /\ f_height f = h) fs ->
  qinv w h fmt x y fs ps o -> good_packet p -> step o (Done p) = Ok o' -> qinv w h fmt x y fs (ps ++ [p]) o'.
Proof.
  intros W H FS (P & G & Q & X & Y & I0) GP R. cbn [step] in R. rewrite G in R.
  destruct (o_enc o) as [k|] eqn:K; [|discriminate].
  destruct I0 as (I1 & I2 & I3 & I4 & I5 & gone & I6 & I7 & I8 & I9). unfold on_work_done in R. cbn [k_dying] in R.
  destruct (k_current k) as [f|] eqn:C; [|discriminate]. rewrite I4 in R. destruct p as [|b p]; [destruct GP as [N _]; congruence|].
  match type of R with context [schedule_work ?z] => destruct (schedule_work z) as [k' st] eqn:SW end. cbn [bind] in R. unfold note in R.
  cbn [o_pending o_pts o_reset o_quality o_dying o_gone o_quality_changed o_x o_y o_enc o_width o_height o_format o_log] in R.
  match type of R with handle_packet ?o1 _ _ = _ => destruct (handle_ok o1 (b :: p) (f_pts f)) as (o2 & R2 & A1 & A2 & A3 & A4 & A5 & A6 & A7 & A8 & A9 & A10 & A11 & A12);
    cbn [o_pending o_pts o_reset o_quality o_dying o_gone o_quality_changed o_x o_y o_enc o_width o_height o_format o_log] in * end; [exact P|exact GP|lia|lia|].
  rewrite R2 in R. injection R as <-. unfold qinv. rewrite A1, A2, A3, A4, A5, A7, A8, A9, A11, A12.
  assert (FF : f_width f = w /\ f_height f = h).
  { rewrite Forall_forall in FS. apply FS. rewrite I6. apply in_or_app. right. left. reflexivity. } destruct FF as [FW FH].
  assert (OO : map (out x y) (combine (gone ++ [f]) (ps ++ [b :: p])) = map (out x y) (combine gone ps) ++
     [(h264_head (o_x o) (o_y o) (o_width o) (o_height o) (zlen (b :: p)) 0 ++ b :: p, 1, o_width o, o_height o, f_pts f)]).
  { rewrite (combine_snoc _ _ _ _ _ _ I8), map_app. cbn [map out]. rewrite FW, FH, X, Y, I1, I2. reflexivity. }
  repeat (split; [assumption|]). unfold schedule_work in SW. cbn [k_current k_queue k_quality k_key_next k_dying] in SW.
  destruct (k_queue k) as [|g q] eqn:KQ; injection SW as <- <-; cbn [k_dying k_current k_queue].
  - split; [reflexivity|]. split; [reflexivity|]. do 6 (split; [assumption|]). split; [reflexivity|]. split; [reflexivity|]. exists (gone ++ [f]).
    rewrite I6, !started_app, !finished_app, !map_app, I7, I9, OO, !app_length, I8. cbn [wait started finished flat_map app map fst length]. rewrite !app_nil_r. auto.
  - split; [reflexivity|]. split; [reflexivity|]. do 6 (split; [assumption|]). split; [reflexivity|]. split; [discriminate|]. exists (gone ++ [f]).
    rewrite I6, !started_app, !finished_app, !map_app, I7, I9, OO, !app_length, I8. cbn [wait started finished flat_map app map fst length]. rewrite !app_nil_r, <- !app_assoc. auto.
Qed.

Lemma qrun w h fmt x y : 0 < w < 2 ^ 16 -> 0 < h < 2 ^ 16 -> forall l fs ps o o',
  Forall (same_size w h fmt) l -> Forall (fun f => f_width f = w /\ f_height f = h) fs -> qinv w h fmt x y fs ps o -> run o l = Ok o' ->
  qinv w h fmt x y (fs ++ frames l) (ps ++ packets l) o'.
Proof.
  intros W H. induction l as [|a l IH]; intros fs ps o o' F FS I0 R; cbn [run] in R.
  - injection R as <-. cbn. rewrite !app_nil_r. exact I0.
  - inversion F as [|? ? A B]; subst. destruct (step o a) as [o1|] eqn:S1; [|discriminate]. cbn [bind] in R.
    destruct a as [f ok|p|p| |v|]; try destruct A.
    + subst ok. cbn [step] in S1. pose proof I0 as (_ & G & _). rewrite G in S1.
      destruct (open_h264_encode o f true) as [[o2 n]|] eqn:E; [|discriminate]. injection S1 as <-. cbn [fst] in R.
      destruct H1 as (GF & E1 & E2 & E3).
      eapply qencode in E; [|exact I0|split; [reflexivity|]; split; [exact GF|]; auto].
      specialize (IH (fs ++ [f]) ps o2 o' B). cbn [frames packets flat_map app]. rewrite <- app_assoc in IH. apply IH; auto.
      apply Forall_app. split; [exact FS|]. constructor; [auto|constructor].
    + eapply qdone in S1; [|exact W|exact H|exact FS|exact I0|exact (conj H0 H1)].
      specialize (IH fs (ps ++ [p]) o1 o' B FS S1 R). rewrite <- app_assoc in IH. exact IH.
    + cbn [step] in S1. pose proof I0 as (P & G & Q & X & Y & J). rewrite G in S1.
      unfold open_h264_request_keyframe in S1. destruct (o_enc o) as [k|] eqn:K; [|discriminate]. injection S1 as <-.
      refine (IH fs ps _ o' B FS _ R). unfold qinv. cbn. repeat (split; [assumption|]). exact J.
Qed.

Lemma qinv_new w h fmt x y : qinv w h fmt x y [] [] (open_h264_new x y).
Proof. unfold qinv. cbn. auto 10. Qed.
