(** Lemmas about H.264, for H264_Props.v. *)
From Verif Require Import Common CommonProofs H264_Model H264_Spec.

Lemma started_app a b : started (a ++ b) = started a ++ started b.
Proof. apply flat_map_app. Qed.
Lemma finished_app a b : finished (a ++ b) = finished a ++ finished b.
Proof. apply flat_map_app. Qed.
Lemma refs_app id a b : refs id (a ++ b) = refs id a + refs id b.
Proof. induction a as [|e a IH]; cbn [app refs fold_right]; [reflexivity|]. fold (refs id (a ++ b)) (refs id a). rewrite IH.
  destruct e; try lia; destruct (Nat.eqb _ _); lia. Qed.
Lemma holds_app id a b : holds id (a ++ b) = holds id a + holds id b.
Proof. induction a as [|e a IH]; cbn [app holds fold_right]; [reflexivity|]. fold (holds id (a ++ b)) (holds id a). rewrite IH.
  destruct e; try lia; destruct (Nat.eqb _ _); lia. Qed.

(** What comes out for a frame and its packet. *)
Definition out (x y : Z) (fp : frame * list Z) : list Z * Z * Z * Z * Z :=
  let '(f, p) := fp in
  (h264_head x y (f_width f) (f_height f) (zlen p) 0 ++ p, 1, f_width f, f_height f, f_pts f).

Lemma handle_ok o p t : o_pending o = init_pending -> good_packet p ->
  0 < o_width o < 2 ^ 16 -> 0 < o_height o < 2 ^ 16 ->
  exists o', handle_packet o p t = Ok o' /\
    o_enc o' = o_enc o /\ o_pending o' = init_pending /\ o_width o' = o_width o /\ o_height o' = o_height o /\
    o_format o' = o_format o /\ o_quality o' = o_quality o /\ o_quality_changed o' = o_quality_changed o /\
    o_x o' = o_x o /\ o_y o' = o_y o /\ o_dying o' = o_dying o /\ o_gone o' = o_gone o /\
    o_log o' = o_log o ++ [Finished (h264_head (o_x o) (o_y o) (o_width o) (o_height o) (zlen p) 0 ++ p) 1
                             (o_width o) (o_height o) t].
Proof.
  intros P [NE L] W H. unfold handle_packet. rewrite P. change (100000000 <? zlen init_pending) with false. cbv iota.
  unfold open_h264_pull. cbn [o_pending o_reset o_width o_height o_x o_y o_pts o_enc o_format o_quality
    o_quality_changed o_dying o_gone o_log].
  assert (ZL : zlen (init_pending ++ p) - 12 - 8 = zlen p).
  { unfold zlen. rewrite app_length. change (length init_pending) with 20%nat. lia. }
  assert (0 < zlen p) by (destruct p; [contradiction|unfold zlen; cbn [length]; lia]).
  rewrite ZL, (Z.mod_small (zlen p) (2 ^ 64)) by lia.
  destruct (zlen p =? 0) eqn:Q; [lia|].
  rewrite (Z.mod_small (zlen p)), (Z.mod_small (o_width o)), (Z.mod_small (o_height o)) by lia.
  eexists. split; [reflexivity|]. unfold note.
  cbn [o_pending o_reset o_width o_height o_x o_y o_pts o_enc o_format o_quality
    o_quality_changed o_dying o_gone o_log].
  repeat (split; [reflexivity|]). f_equal. f_equal. f_equal.
  change (skipn 20 (init_pending ++ p)) with p. destruct (o_reset o); reflexivity.
Qed.

(** The states met in the server's use. *)
Definition inv (first : bool) (now : option frame) (last : option (Z * Z * Z)) (asked changed : bool) (q : Z) (o : open) : Prop :=
  o_pending o = init_pending /\ o_dying o = [] /\ o_gone o = false /\ o_quality o = q /\
  if first then now = None /\ last = None /\ o_enc o = None /\ o_width o = 0 /\ asked = false
  else
    last = Some (o_width o, o_height o, o_format o) /\ o_quality_changed o = changed /\
    0 < o_width o < 2 ^ 16 /\ 0 < o_height o < 2 ^ 16 /\
    (exists k, o_enc o = Some k /\ k_queue k = [] /\ k_dying k = false /\ k_current k = now /\ k_key_next k = asked) /\
    match now with Some f => f_width f = o_width o /\ f_height f = o_height o | None => True end.

Definition is_some {A} (x : option A) : bool := match x with Some _ => true | None => false end.

Lemma encode_ok first last asked changed q o f : good_frame f -> inv first None last asked changed q o ->
  exists o', open_h264_encode o f true = Ok (o', 0) /\
    inv false (Some f) (Some (f_width f, f_height f, f_format f)) false false q o' /\
    o_x o' = o_x o /\ o_y o' = o_y o /\
    o_log o' = o_log o ++ [Reffed (f_id f); Held (f_id f);
       Started f (match last with
          | None => true
          | Some (w, h, fmt) =>
              asked || changed || negb ((w =? f_width f) && (h =? f_height f) && (fmt =? f_format f)) end)].
Proof.
  intros (W & H & G & P) (I1 & I2 & I3 & I4 & I5). unfold open_h264_encode.
  assert (NEW : forall o', open_h264_resize o f true = Some o' ->
     o_enc o' = Some (codec_new (qp_of q)) /\ o_pending o' = init_pending /\ o_dying o' = [] /\ o_gone o' = false /\
     o_quality o' = q /\ o_quality_changed o' = false /\ o_width o' = f_width f /\ o_height o' = f_height f /\
     o_format o' = f_format f /\ o_x o' = o_x o /\ o_y o' = o_y o /\ o_log o' = o_log o).
  { intros o' E. unfold open_h264_resize in E. injection E as <-.
    cbn [o_pending o_reset o_width o_height o_x o_y o_pts o_enc o_format o_quality
      o_quality_changed o_dying o_gone o_log]. rewrite I2, I4.
    repeat split; try assumption. destruct first.
    - destruct I5 as (_ & _ & -> & _). reflexivity.
    - destruct I5 as (_ & _ & _ & _ & (k & -> & _ & _ & KC & _) & _).
      unfold codec_destroy. rewrite KC. reflexivity. }
  assert (FEED : forall k, k_queue k = [] -> k_current k = None -> k_dying k = false ->
     codec_feed k f = Ok (mk_codec (k_quality k) [] (Some f) false false,
                          [Reffed (f_id f); Held (f_id f); Started f (k_key_next k)])).
  { intros k K1 K2 K3. unfold codec_feed. rewrite G, P. cbn [negb]. unfold schedule_work. cbn [k_current k_queue].
    rewrite K1, K2. cbn [app k_quality k_key_next k_dying]. rewrite K3. reflexivity. }
  set (r := negb (f_width f =? o_width o) || negb (f_height f =? o_height o) ||
            negb (f_format f =? o_format o) || o_quality_changed o).
  destruct r eqn:R.
  - destruct (open_h264_resize o f true) as [o1|] eqn:E; [|discriminate].
    destruct (NEW o1 eq_refl) as (N1 & N2 & N3 & N4 & N5 & N6 & N7 & N8 & N9 & N10 & N11 & N12).
    rewrite N7, N8. destruct (f_width f =? 0) eqn:Z1; [lia|]. destruct (f_height f =? 0) eqn:Z2; [lia|]. cbn [orb].
    rewrite N1, (FEED (codec_new (qp_of q))) by reflexivity. cbn [bind fst snd].
    eexists. split; [reflexivity|]. unfold note, inv.
    cbn [o_pending o_reset o_width o_height o_x o_y o_pts o_enc o_format o_quality
      o_quality_changed o_dying o_gone o_log]. rewrite N2, N3, N4, N5, N6, N9, N10, N11, N12.
    split; [|split; [reflexivity|split; [reflexivity|]]].
    + repeat (split; [reflexivity|]). split; [exact W|]. split; [exact H|].
      split; [|split; reflexivity]. eexists. split; [reflexivity|]. repeat split.
    + cbn [k_key_next codec_new]. f_equal. f_equal. f_equal. f_equal.
      destruct first.
      * destruct I5 as (_ & -> & _). reflexivity.
      * destruct I5 as (-> & CH & _). rewrite <- CH. unfold r in R. f_equal.
        rewrite (Z.eqb_sym (f_width f)), (Z.eqb_sym (f_height f)), (Z.eqb_sym (f_format f)) in R.
        destruct asked, (o_quality_changed o), (o_width o =? f_width f), (o_height o =? f_height f), (o_format o =? f_format f); try reflexivity; discriminate.
  - destruct first.
    + destruct I5 as (_ & _ & _ & W0 & _). unfold r in R. rewrite W0 in R.
      destruct (f_width f =? 0) eqn:Z1; [lia|]. discriminate.
    + destruct I5 as (-> & CH & WW & HH & (k & K1 & K2 & K3 & K4 & K5) & _).
      destruct (o_width o =? 0) eqn:Z1; [lia|]. destruct (o_height o =? 0) eqn:Z2; [lia|]. cbn [orb].
      rewrite K1, (FEED k K2 K4 K3). cbn [bind fst snd].
      unfold r in R. apply orb_false_elim in R. destruct R as [R R4].
      apply orb_false_elim in R. destruct R as [R R3]. apply orb_false_elim in R. destruct R as [R1 R2].
      apply negb_false_iff, Z.eqb_eq in R1, R2, R3.
      eexists. split; [reflexivity|]. unfold note, inv.
      cbn [o_pending o_reset o_width o_height o_x o_y o_pts o_enc o_format o_quality
        o_quality_changed o_dying o_gone o_log].
      split; [|split; [reflexivity|split; [reflexivity|]]].
      * split; [exact I1|]. split; [exact I2|]. split; [exact I3|]. split; [exact I4|].
        rewrite R1, R2, R3. split; [reflexivity|]. split; [exact R4|]. split; [exact WW|]. split; [exact HH|].
        split; [|split; reflexivity]. eexists. split; [reflexivity|]. repeat split.
      * rewrite K5, <- CH, R4, R1, R2, R3, !Z.eqb_refl. cbn [andb negb]. rewrite !orb_false_r. reflexivity.
Qed.

Lemma done_ok last asked changed q o f p : good_packet p -> inv false (Some f) last asked changed q o ->
  exists o', step o (Done p) = Ok o' /\ inv false None last asked changed q o' /\ o_x o' = o_x o /\ o_y o' = o_y o /\
    exists evs, o_log o' = o_log o ++ evs /\ started evs = [] /\ finished evs = [out (o_x o) (o_y o) (f, p)] /\
      forall id, refs id evs = - counts (Some f) id /\ holds id evs = - counts (Some f) id.
Proof.
  intros GP (I1 & I2 & I3 & I4 & -> & CH & WW & HH & (k & K1 & K2 & K3 & K4 & K5) & FW & FH).
  unfold step. rewrite I3, K1. unfold on_work_done. rewrite K4. cbn [k_dying]. rewrite K3.
  assert (NE : p <> []) by apply GP. destruct p as [|b p]; [contradiction|]. set (pp := b :: p) in *.
  unfold schedule_work. cbn [k_current k_queue]. rewrite K2. cbn [bind].
  edestruct (handle_ok (note ([Released (f_id f); Unreffed (f_id f)] ++ [])
     (mk_open (Some (mk_codec (k_quality k) [] None (k_key_next k) false)) (o_pending o) (o_pts o) (o_width o)
        (o_height o) (o_format o) (o_reset o) (o_quality o) (o_quality_changed o) (o_x o) (o_y o)
        (o_dying o) false (o_log o))) pp (f_pts f)) as (o' & E & H1 & H2 & H3 & H4 & H5 & H6 & H7 & H8 & H9 & H10 & H11 & H12);
    [exact I1|exact GP|exact WW|exact HH|].
  exists o'. split; [exact E|]. unfold note in *.
  cbn [o_pending o_reset o_width o_height o_x o_y o_pts o_enc o_format o_quality
    o_quality_changed o_dying o_gone o_log] in *.
  split; [|split; [exact H8|split; [exact H9|]]].
  - unfold inv. rewrite H2, H3, H4, H5, H6, H7, H10, H11.
    split; [reflexivity|]. split; [exact I2|]. split; [reflexivity|]. split; [exact I4|].
    split; [reflexivity|]. split; [exact CH|]. split; [exact WW|]. split; [exact HH|]. split; [|exact I].
    rewrite H1. eexists. split; [reflexivity|]. repeat split. exact K5.
  - eexists. split; [rewrite H12, <- app_assoc; reflexivity|]. cbn [app].
    split; [reflexivity|]. split.
    + cbn [finished flat_map app]. unfold out. rewrite FW, FH. reflexivity.
    + intros id. cbn [refs holds fold_right counts]. destruct (Nat.eqb (f_id f) id); split; lia.
Qed.

Lemma paced_run : forall l first now last asked changed q o,
  Forall good_op l -> paced first (is_some now) l -> inv first now last asked changed q o ->
  exists o' evs, run o l = Ok o' /\ o_log o' = o_log o ++ evs /\
    started evs = keyed last asked changed q l /\
    finished evs = map (out (o_x o) (o_y o)) (combine ((match now with Some f => [f] | None => [] end) ++ frames l) (packets l)) /\
    (forall id, refs id evs = counts (in_flight now l) id - counts now id) /\
    (forall id, holds id evs = counts (in_flight now l) id - counts now id).
Proof.
  induction l as [|a l IH]; intros first now last asked changed q o GA PA IN.
  - exists o, []. cbn [run]. rewrite app_nil_r. split; [reflexivity|]. split; [reflexivity|]. split; [reflexivity|].
    split; [|split; intros id; cbn [in_flight refs holds fold_right]; lia].
    cbn [packets frames flat_map finished]. rewrite combine_nil. reflexivity.
  - inversion GA as [|? ? GO GL]; subst. destruct a as [f ok|p|p| |v|].
    + (* Encode *)
      cbn [paced] in PA. destruct PA as (B & -> & PA). destruct now; [discriminate|].
      destruct (encode_ok first last asked changed q o f GO IN) as (o1 & E & IN1 & X & Y & L1).
      destruct (IH false (Some f) _ false false q o1 GL PA IN1) as (o' & evs & R & L & S1 & F1 & R1 & H1).
      exists o'. eexists. cbn [run step].
      destruct IN as (_ & _ & GN & _). rewrite GN, E. cbn [bind fst]. split; [exact R|].
      rewrite L, L1, <- app_assoc. split; [reflexivity|].
      rewrite started_app, finished_app, S1, F1, X, Y.
      split; [reflexivity|]. split; [reflexivity|].
      split; intros id; [rewrite refs_app, R1|rewrite holds_app, H1]; cbn [refs holds fold_right in_flight counts];
        destruct (Nat.eqb (f_id f) id); lia.
    + (* Done *)
      cbn [paced] in PA. destruct PA as (B & PA). destruct now as [f|]; [|discriminate].
      destruct first.
      { destruct IN as (_ & _ & _ & _ & D & _). discriminate. }
      destruct (done_ok last asked changed q o f p GO IN) as (o1 & E & IN1 & X & Y & ev1 & L1 & S1 & F1 & C1).
      destruct (IH false None _ asked changed q o1 GL PA IN1) as (o' & evs & R & L & S2 & F2 & R2 & H2).
      exists o'. eexists. cbn [run]. rewrite E. cbn [bind]. split; [exact R|].
      rewrite L, L1, <- app_assoc. split; [reflexivity|].
      rewrite started_app, finished_app, S1, F1, S2, F2, X, Y.
      split; [reflexivity|]. split; [reflexivity|].
      split; intros id; destruct (C1 id) as [CR CHH]; [rewrite refs_app, R2, CR|rewrite holds_app, H2, CHH]; cbn [in_flight counts]; lia.
    + destruct PA.
    + (* Key *)
      cbn [paced] in PA. destruct PA as (-> & PA).
      destruct IN as (I1 & I2 & I3 & I4 & IL & CH & WW & HH & (k & K1 & K2 & K3 & K4 & K5) & FN).
      cbn [run step]. rewrite I3. unfold open_h264_request_keyframe. rewrite K1. cbn [bind].
      edestruct (IH false now last true changed q) as (o' & evs & R & L & S1 & F1 & R1 & H1); [exact GL|exact PA| |].
      2:{ exists o', evs. split; [exact R|]. split; [exact L|]. split; [exact S1|]. split; [exact F1|]. split; assumption. }
      unfold inv. cbn [o_pending o_reset o_width o_height o_x o_y o_pts o_enc o_format o_quality
        o_quality_changed o_dying o_gone o_log].
      split; [exact I1|]. split; [exact I2|]. split; [exact I3|]. split; [exact I4|]. split; [exact IL|].
      split; [exact CH|]. split; [exact WW|]. split; [exact HH|]. split; [|exact FN].
      eexists. split; [reflexivity|]. cbn [k_queue k_dying k_current k_key_next request_keyframe].
      split; [exact K2|]. split; [exact K3|]. split; [exact K4|reflexivity].
    + (* Quality *)
      cbn [paced] in PA. cbn [run step]. assert (I3 : o_gone o = false) by apply IN. rewrite I3. cbn [bind].
      edestruct (IH first now last asked (changed || negb (quality_of v =? q)) (quality_of v) (open_h264_set_quality o v))
        as (o' & evs & R & L & S1 & F1 & R1 & H1); [exact GL|exact PA| |].
      2:{ exists o', evs. split; [exact R|]. split; [exact L|]. split; [exact S1|]. split; [exact F1|]. split; assumption. }
      destruct IN as (I1 & I2 & _ & I4 & I5). unfold inv, open_h264_set_quality. fold (quality_of v).
      cbn [o_pending o_reset o_width o_height o_x o_y o_pts o_enc o_format o_quality
        o_quality_changed o_dying o_gone o_log]. subst q.
      split; [exact I1|]. split; [exact I2|]. split; [exact I3|]. split; [reflexivity|].
      destruct first; [exact I5|]. destruct I5 as (IL & CH & I5). split; [exact IL|]. split; [|exact I5].
      rewrite CH, (Z.eqb_sym (o_quality o)). reflexivity.
    + (* Destroy *)
      cbn [paced] in PA. assert (I2 : o_dying o = []) by apply IN. assert (I3 : o_gone o = false) by apply IN.
      cbn [run step]. rewrite I3. cbn [bind]. destruct PA as [->|[B [p ->]]].
      * exists (open_h264_destroy o), []. cbn [run]. split; [reflexivity|].
        split; [cbn [open_h264_destroy o_log]; rewrite app_nil_r; reflexivity|].
        split; [reflexivity|]. cbn [frames packets flat_map]. rewrite combine_nil. split; [reflexivity|].
        split; intros id; cbn [in_flight refs holds fold_right]; lia.
      * destruct now as [f|]; [|discriminate]. destruct first.
        { destruct IN as (_ & _ & _ & _ & D & _). discriminate. }
        destruct IN as (I1 & _ & _ & I4 & IL & CH & WW & HH & (k & K1 & K2 & K3 & K4 & K5) & FN).
        cbn [run step open_h264_destroy o_dying]. rewrite I2, K1. unfold codec_destroy. rewrite K4. cbn [app].
        unfold on_work_done. cbn [k_current k_dying]. cbn [bind].
        eexists. eexists. split; [reflexivity|].
        unfold note. cbn [o_log]. split; [reflexivity|]. split; [reflexivity|].
        cbn [frames packets flat_map]. rewrite combine_nil. split; [reflexivity|].
        split; intros id; cbn [in_flight refs holds fold_right counts]; destruct (Nat.eqb (f_id f) id); lia.
Qed.

Lemma inv_new x y : inv true None None false false 6 (open_h264_new x y).
Proof. unfold inv. cbn. repeat split. Qed.

Lemma read_h264_head x y w h p : 0 <= x < 2 ^ 16 -> 0 <= y < 2 ^ 16 -> 0 <= w < 2 ^ 16 -> 0 <= h < 2 ^ 16 ->
  zlen p < 2 ^ 32 -> read_h264 (h264_head x y w h (zlen p) 0 ++ p) = Some (x, y, w, h, 0, p).
Proof.
  intros A B C D L. assert (0 <= zlen p) by (unfold zlen; lia). unfold h264_head.
  assert (B2 : forall v, be 2 v = [v / 256 mod 256; v mod 256]) by reflexivity.
  assert (B4 : forall v, be 4 v = [v / 256 / 256 / 256 mod 256; v / 256 / 256 mod 256; v / 256 mod 256; v mod 256]) by reflexivity.
  change (be 4 ENC_OPEN_H264) with [0; 0; 0; 50]. change (be 4 0) with [0; 0; 0; 0].
  rewrite !B2, B4. cbn [app read_h264]. rewrite <- !B2, <- B4.
  rewrite !unbe_be by (change (256 ^ Z.of_nat 4) with (2 ^ 32); change (256 ^ Z.of_nat 2) with (2 ^ 16); lia).
  rewrite Z.eqb_refl. reflexivity.
Qed.

(** ** Source buffers *)

Lemma look_spec (taken : list bool) : length taken <> O -> forall count i, (i < length taken)%nat ->
  let '(b, next) := look taken count i in
  (b < length taken)%nat /\ next = Nat.modulo (b + 1) (length taken) /\
  (nth b taken false = true -> forall j, (j <= count)%nat -> nth (Nat.modulo (i + j) (length taken)) taken false = true).
Proof.
  intros NZ. induction count as [|count IH]; intros i L; cbn [look].
  - split; [exact L|]. split; [reflexivity|]. intros T j J. replace j with O by lia.
    rewrite Nat.add_0_r, Nat.mod_small by exact L. exact T.
  - destruct (nth i taken false) eqn:T.
    + specialize (IH (Nat.modulo (i + 1) (length taken)) (Nat.mod_upper_bound _ _ NZ)).
      destruct (look taken count (Nat.modulo (i + 1) (length taken))) as [b next]. destruct IH as (B & N & A).
      split; [exact B|]. split; [exact N|]. intros TB j J. destruct j as [|j].
      * rewrite Nat.add_0_r, Nat.mod_small by exact L. exact T.
      * specialize (A TB j ltac:(lia)). rewrite Nat.add_mod_idemp_l in A by exact NZ.
        replace (i + Datatypes.S j)%nat with (i + 1 + j)%nat by lia. exact A.
    + split; [exact L|]. split; [reflexivity|]. intros TB. congruence.
Qed.

Lemma take_spec (taken : list bool) index : (index < length taken)%nat ->
  match take_src_buffer taken index with
  | Some (b, next) => (b < length taken)%nat /\ nth b taken false = false /\ (next < length taken)%nat
  | None => forall b, (b < length taken)%nat -> nth b taken false = true
  end.
Proof.
  intros L. assert (NZ : length taken <> O) by lia. unfold take_src_buffer.
  pose proof (look_spec taken NZ (length taken - 1) index L) as H.
  destruct (look taken (length taken - 1) index) as [b next]. destruct H as (B & N & A).
  destruct (nth b taken false) eqn:T.
  - intros c C. specialize (A eq_refl (Nat.modulo (c + (length taken - index)) (length taken))).
    rewrite Nat.add_mod_idemp_r in A by exact NZ.
    replace (index + (c + (length taken - index)))%nat with (c + 1 * length taken)%nat in A by lia.
    rewrite (Nat.mod_add c 1 (length taken) NZ), (Nat.mod_small c (length taken) C) in A. apply A.
    assert (Nat.modulo (c + (length taken - index)) (length taken) < length taken)%nat by (apply Nat.mod_upper_bound; exact NZ). lia.
  - split; [exact B|]. split; [exact T|]. subst next. apply Nat.mod_upper_bound. exact NZ.
Qed.

(** ** Lists *)

Ltac destruct_all I := repeat (destruct I as [I|I]; [|]); try contradiction.

Lemma paced_lengths : forall l first (now : option frame), paced first (is_some now) l ->
  (length (packets l) <= length (frames l) + match now with Some _ => 1 | None => 0 end)%nat.
Proof.
  induction l as [|a l IH]; intros first now P; [cbn; lia|]. destruct a as [f ok|p|p| |v|]; cbn [paced] in P.
  - destruct P as (B & _ & P). destruct now; [discriminate|]. specialize (IH false (Some f) P).
    cbn [packets frames flat_map app length] in *. fold (packets l) in *. fold (frames l) in *. lia.
  - destruct P as (B & P). destruct now; [|discriminate]. specialize (IH first None P).
    cbn [packets frames flat_map app length] in *. fold (packets l) in *. fold (frames l) in *. lia.
  - destruct P.
  - destruct P as (_ & P). exact (IH first now P).
  - exact (IH first now P).
  - destruct P as [->|[_ [p ->]]]; cbn; lia.
Qed.

Lemma nth_error_combine {A B} : forall (l : list A) (m : list B) k a b,
  nth_error l k = Some a -> nth_error m k = Some b -> nth_error (combine l m) k = Some (a, b).
Proof.
  induction l as [|x l IH]; intros [|y m] [|k] a b H K; try discriminate; cbn in *.
  - congruence.
  - auto.
Qed.

Lemma nth_error_combine_inv {A B} : forall (l : list A) (m : list B) k a b,
  nth_error (combine l m) k = Some (a, b) -> nth_error l k = Some a /\ nth_error m k = Some b.
Proof.
  induction l as [|x l IH]; intros [|y m] [|k] a b H; try discriminate; cbn in *.
  - injection H as <- <-. auto.
  - auto.
Qed.

Lemma good_at l k f p : Forall good_op l -> nth_error (frames l) k = Some f -> nth_error (packets l) k = Some p ->
  0 < f_width f < 2 ^ 16 /\ 0 < f_height f < 2 ^ 16 /\ zlen p < 2 ^ 32.
Proof.
  intros G NF NP. apply nth_error_In in NF, NP. rewrite Forall_forall in G.
  unfold frames in NF. apply in_flat_map in NF. destruct NF as (a & IA & NF).
  unfold packets in NP. apply in_flat_map in NP. destruct NP as (b & IB & NP).
  destruct a; try contradiction. destruct NF as [<-|[]]. destruct b; try contradiction. destruct NP as [<-|[]].
  pose proof (G _ IA) as (W & H & _). pose proof (G _ IB) as (_ & Z). auto.
Qed.
