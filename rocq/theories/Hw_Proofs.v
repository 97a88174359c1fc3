From Verif Require Import Common Hw_Model Hw_Spec.

Lemma find_first maxlen node devices :
  find_render_node maxlen node devices =
  match first_node devices with Some path => (0, strncpy (maxlen - 1) path ++ [Some 0]) | None => (1, node) end.
Proof. induction devices as [|[path|] devices IH]; cbn [find_render_node first_node]; auto. Qed.

Lemma read_copied l n : Forall (fun c => c <> 0) l -> node_path (map Some (l ++ repeat 0 n) ++ [Some 0]) = Ok l.
Proof.
  induction 1 as [|c l C F IH].
  - destruct n; reflexivity.
  - cbn [app map node_path]. destruct (Z.eqb_spec c 0); [contradiction|]. rewrite IH. reflexivity.
Qed.

Lemma first_ok devices path : paths_ok devices -> first_node devices = Some path -> Forall (fun c => c <> 0) path.
Proof. induction 1 as [|[p|] d P F IH]; cbn [first_node]; [discriminate|congruence|exact IH]. Qed.

Lemma Forall_firstn A (P : A -> Prop) n l : Forall P l -> Forall P (firstn n l).
Proof. intros F. revert n. induction F; intros [|n]; cbn [firstn]; constructor; auto. Qed.

Lemma node_of devices : paths_ok devices ->
  let '(r, node) := find_render_node 64 fresh_node devices in
  match first_node devices with
  | Some path => r = 0 /\ node_path node = Ok (firstn 63 path)
  | None => r = 1 /\ node_path node = Fault Uninit
  end.
Proof.
  intros P. rewrite find_first. destruct (first_node devices) as [path|] eqn:E; [|split; reflexivity].
  split; [reflexivity|]. unfold strncpy. change (64 - 1)%nat with 63%nat. apply read_copied, Forall_firstn, (first_ok _ _ P E).
Qed.

(* the part of [create] after the device *)
Definition after_device (L : lib) : res (bool * kit) :=
  let k := mk_kit true true true 1 0 false None false in
  if negb (l_format L) then Ok (false, free_rest (unref_dev k))
  else if negb (l_find L) then Ok (false, free_rest (unref_dev k))
  else
    let '(ok, k) := init_hw_frames L k in
    if negb ok then Ok (false, free_rest (unref_dev k))
    else
      let* s := init_filters L k in
      let '(ok, k) := s in
      if negb ok then Ok (false, free_rest (unref_dev (drop_frames k)))
      else if negb (l_codec L) then Ok (false, free_rest (unref_dev (drop_frames k)))
      else if negb (l_sink_frames L) then Fault NullDeref
      else if negb (l_open L) then Ok (false, free_rest (unref_dev (drop_frames k)))
      else Ok (true, mk_kit true true true (k_dev k) (k_frames k) (k_has_frames k) (k_graph k) true).

Lemma create_is L : paths_ok (l_devices L) ->
  create L =
  if negb (l_self L) then Ok (false, nothing)
  else if negb (l_packet L) then Ok (false, nothing)
  else if negb (l_work L) then Ok (false, nothing)
  else match first_node (l_devices L) with
       | None => Fault Uninit
       | Some path => if negb (l_device L (firstn 63 path)) then Ok (false, free_rest (mk_kit true true true 0 0 false None false)) else after_device L
       end.
Proof.
  intros P. unfold create. pose proof (node_of _ P) as N. destruct (find_render_node _ _ _) as [r node].
  destruct (first_node (l_devices L)) as [path|]; destruct N as [-> N]; cbn [Z.ltb Z.compare]; rewrite N; reflexivity.
Qed.

Ltac cases := repeat match goal with |- context [if negb ?b then _ else _] => destruct b eqn:?; cbn [negb] end.

(* what the whole run comes to *)
Lemma filters_made L k ok k' : k_graph k = None -> init_filters L k = Ok (ok, k') ->
  if ok
  then k_self k' = k_self k /\ k_packet k' = k_packet k /\ k_work k' = k_work k /\ k_codec k' = k_codec k /\
    k_dev k' = (k_dev k + l_filters L)%nat /\ k_has_frames k' = k_has_frames k /\ l_config L (k_has_frames k) = true /\
    (if k_has_frames k then k_frames k' = (k_frames k + 1)%nat /\ k_graph k' = Some (l_filters L, 1%nat)
     else k_frames k' = k_frames k /\ k_graph k' = Some (l_filters L, 0%nat))
  else k_self k' = k_self k /\ k_packet k' = k_packet k /\ k_work k' = k_work k /\ k_codec k' = k_codec k /\
    k_has_frames k' = k_has_frames k /\ k_graph k' = None /\ (k_has_frames k = true -> k_frames k = 1%nat -> k_dev k' = k_dev k /\ k_frames k' = 1%nat) /\
    (k_has_frames k = false -> k_dev k' = k_dev k /\ k_frames k' = k_frames k).
Proof.
  intros G. unfold init_filters, init_buffersrc. cbv zeta.
  destruct k as [a b c dv fr hf g co]. cbn [k_graph k_self k_packet k_work k_dev k_frames k_has_frames k_codec] in *. subst g.
  destruct (l_graph L); cbn [negb]; [|intros [= <- <-]; cbn; repeat split; auto].
  destruct (l_source L); cbn [negb bind]; [|intros [= <- <-]; cbn; rewrite Nat.sub_0_r; repeat split; auto].
  destruct (l_params L); cbn [negb bind]; [|intros [= <- <-]; cbn; rewrite Nat.sub_0_r; repeat split; auto].
  destruct (l_params_set L); cbn [negb bind]; [|discriminate].
  destruct hf; cbn [k_graph k_self k_packet k_work k_dev k_frames k_has_frames k_codec andb];
  (destruct (_ && _ && _ && _); cbn [negb];
   [|intros [= <- <-]; unfold free_graph; cbn; repeat split; auto; try (intros; subst; cbn; lia); try discriminate]).
  - destruct (l_config L true) eqn:C; cbn [negb]; intros [= <- <-]; [cbn; repeat split; auto|].
    unfold free_graph. cbn. repeat split; auto; intros; subst; cbn; try lia; try discriminate.
  - destruct (l_config L false) eqn:C; cbn [negb]; intros [= <- <-]; [cbn; repeat split; auto|].
    unfold free_graph. cbn. repeat split; auto; intros; subst; cbn; try lia; try discriminate.
Qed.

(* what the encoder holds once its filters are made *)
Definition made (L : lib) (codec : bool) : kit :=
  if l_frames_init L
  then mk_kit true true true (2 + l_filters L) 2 true (Some (l_filters L, 1%nat)) codec
  else mk_kit true true true (1 + l_filters L) 0 false (Some (l_filters L, 0%nat)) codec.

Lemma kit_eq k a b c d f h g co : k_self k = a -> k_packet k = b -> k_work k = c -> k_dev k = d -> k_frames k = f ->
  k_has_frames k = h -> k_graph k = g -> k_codec k = co -> k = mk_kit a b c d f h g co.
Proof. destruct k; cbn; congruence. Qed.

Lemma after_is L ok k : after_device L = Ok (ok, k) ->
  if ok then k = made L true /\ l_codec L = true /\ l_open L = true /\ l_config L (l_frames_init L) = true
  else given_back k \/
    (k = free_rest (unref_dev (drop_frames (made L false))) /\ l_codec L && l_open L = false).
Proof.
  unfold after_device. cbv zeta.
  destruct (l_format L); cbn [negb]; [|intros [= <- <-]; left; repeat split].
  destruct (l_find L); cbn [negb]; [|intros [= <- <-]; left; repeat split].
  unfold init_hw_frames. destruct (l_frames L); cbn [negb]; [|intros [= <- <-]; left; repeat split].
  destruct (init_filters L _) as [[ok1 k1]|] eqn:F; cbn [bind]; [|discriminate].
  apply filters_made in F; [|destruct (l_frames_init L); reflexivity].
  destruct ok1; cbn [negb].
  - assert (M : k1 = made L false /\ l_config L (l_frames_init L) = true).
    { destruct F as (A1 & A2 & A3 & A4 & A5 & A6 & A7 & A8). unfold made. destruct (l_frames_init L); cbn in *; destruct A8;
      (split; [apply kit_eq; auto; lia|exact A7]). }
    destruct M as [-> C]. clear F.
    destruct (l_codec L); cbn [negb]; [|intros [= <- <-]; right; split; reflexivity].
    destruct (l_sink_frames L); cbn [negb]; [|discriminate].
    destruct (l_open L); cbn [negb]; [|intros [= <- <-]; right; split; reflexivity].
    intros [= <- <-]. split; [|auto]. unfold made. destruct (l_frames_init L); reflexivity.
  - intros [= <- <-]. left. destruct F as (A1 & A2 & A3 & A4 & A5 & A6 & A7 & A8).
    destruct (l_frames_init L); cbn in A5, A7, A8.
    + destruct (A7 eq_refl eq_refl) as [B1 B2]. unfold given_back, drop_frames. rewrite A5. cbn. rewrite A4, A6, B1, B2. cbn. repeat split.
    + destruct (A8 eq_refl) as [B1 B2]. unfold given_back, drop_frames. rewrite A5. cbn. rewrite A4, A6, B1, B2. cbn. repeat split.
Qed.

Lemma left_over L : let k := free_rest (unref_dev (drop_frames (made L false))) in
  k_graph k <> None /\ (0 < l_filters L -> 0 < k_dev k)%nat.
Proof. unfold made. destruct (l_frames_init L); cbn; split; try discriminate; lia. Qed.

Lemma destroyed L : given_back (destroy (made L true)).
Proof.
  unfold made, destroy, given_back. destruct (l_frames_init L); cbn [drop_frames k_has_frames]; cbn.
  - unfold free_graph. cbn. repeat split. destruct (l_filters L); lia.
  - unfold free_graph. cbn. repeat split. destruct (l_filters L); lia.
Qed.

Lemma create_fails L k : paths_ok (l_devices L) -> create L = Ok (false, k) ->
  given_back k \/ (k = free_rest (unref_dev (drop_frames (made L false))) /\ l_codec L && l_open L = false).
Proof.
  intros P. rewrite create_is by exact P. cases; try (intros [= <-]; left; repeat split).
  destruct (first_node _) as [path|]; [|discriminate]. cases; [|intros [= <-]; left; repeat split].
  intros H. apply (after_is L false k H).
Qed.
Lemma create_made L k : paths_ok (l_devices L) -> create L = Ok (true, k) ->
  k = made L true /\ l_config L (l_frames_init L) = true /\
  exists path, first_node (l_devices L) = Some path /\ l_device L (firstn 63 path) = true.
Proof.
  intros P. rewrite create_is by exact P. cases; try discriminate.
  destruct (first_node _) as [path|]; [|discriminate]. cases; [|discriminate].
  intros H. apply (after_is L true k) in H as (H1 & _ & _ & H2). split; [exact H1|]. split; [exact H2|]. eauto.
Qed.

(* the codec being all that fails *)
Lemma filters_open L k : init_filters (codec_opens L) k = init_filters L k.
Proof. reflexivity. Qed.
Lemma codec_alone L : paths_ok (l_devices L) -> only_codec_fails L ->
  create L = Ok (false, free_rest (unref_dev (drop_frames (made L false)))).
Proof.
  intros P ((k & H) & SF & CO). rewrite create_is in H by exact P. rewrite create_is by exact P.
  change (l_self (codec_opens L)) with (l_self L) in H. change (l_packet (codec_opens L)) with (l_packet L) in H.
  change (l_work (codec_opens L)) with (l_work L) in H. change (l_devices (codec_opens L)) with (l_devices L) in H.
  change (l_device (codec_opens L)) with (l_device L) in H. revert H. cases; try discriminate.
  destruct (first_node _) as [path|]; [|discriminate]. cases; [|discriminate].
  unfold after_device. cbv zeta. change (l_format (codec_opens L)) with (l_format L). change (l_find (codec_opens L)) with (l_find L).
  destruct (l_format L); cbn [negb]; [|discriminate]. destruct (l_find L); cbn [negb]; [|discriminate].
  unfold init_hw_frames. change (l_frames (codec_opens L)) with (l_frames L). change (l_frames_init (codec_opens L)) with (l_frames_init L).
  destruct (l_frames L); cbn [negb]; [|discriminate]. rewrite filters_open.
  destruct (init_filters L _) as [[ok1 k1]|] eqn:F; cbn [bind]; [|discriminate].
  destruct ok1; cbn [negb]; [|discriminate]. intros _.
  apply filters_made in F; [|destruct (l_frames_init L); reflexivity].
  assert (M : k1 = made L false).
  { destruct F as (A1 & A2 & A3 & A4 & A5 & A6 & A7 & A8). unfold made. destruct (l_frames_init L); cbn in *; destruct A8; apply kit_eq; auto; lia. }
  subst k1. rewrite SF. cbn [negb]. destruct (l_codec L); cbn [negb andb] in *; [|reflexivity]. rewrite CO. reflexivity.
Qed.

(* frames *)
Lemma planes_opened : forall fds objects r ev, open_planes fds objects = Ok (r, ev) -> r = objects ++ fds /\ ev = map Opened fds.
Proof.
  induction fds as [|fd fds IH]; intros objects r ev; cbn [open_planes].
  - intros [= <- <-]. rewrite app_nil_r. auto.
  - destruct (_ <=? _)%nat; [discriminate|]. destruct (open_planes fds _) as [[r1 e1]|] eqn:E; cbn [bind fst snd]; [|discriminate].
    intros [= <- <-]. apply IH in E as [-> ->]. rewrite <- app_assoc. auto.
Qed.
Lemma opened_app fd a b : opened fd (a ++ b) = (opened fd a + opened fd b)%nat.
Proof. unfold opened. rewrite filter_app, app_length. reflexivity. Qed.
Lemma closed_app fd a b : closed fd (a ++ b) = (closed fd a + closed fd b)%nat.
Proof. unfold closed. rewrite filter_app, app_length. reflexivity. Qed.
Lemma balance fd fds : opened fd (map Opened fds ++ map Closed fds) = closed fd (map Opened fds ++ map Closed fds).
Proof.
  rewrite opened_app, closed_app.
  assert (A : closed fd (map Opened fds) = 0%nat /\ opened fd (map Closed fds) = 0%nat /\ opened fd (map Opened fds) = closed fd (map Closed fds)).
  { unfold opened, closed. induction fds as [|g fds (A & B & C)]; cbn [map filter]; [auto|]. destruct (g =? fd); cbn [length]; auto. }
  destruct A as (-> & -> & ->). lia.
Qed.
Lemma balance_first fd fds : forall a b, map Opened fds ++ map Closed fds = a ++ b -> (closed fd a <= opened fd a)%nat.
Proof.
  intros a b H.
  assert (K : (exists n, a = map Opened (firstn n fds)) \/ exists n, a = map Opened fds ++ map Closed (firstn n fds)).
  { pose proof (f_equal (firstn (length a)) H) as E. rewrite firstn_app in E. rewrite (firstn_app (length a) a b), Nat.sub_diag, firstn_all in E.
    cbn [firstn] in E. rewrite app_nil_r in E. rewrite !firstn_map in E.
    destruct (Nat.le_gt_cases (length a) (length (map Opened fds))) as [L|L].
    - left. exists (length a). rewrite <- E at 1. replace (length a - length (map Opened fds))%nat with 0%nat by lia. cbn [firstn map]. apply app_nil_r.
    - right. exists (length a - length (map Opened fds))%nat. rewrite <- E at 1. f_equal. f_equal. apply firstn_all2. rewrite map_length in L. lia. }
  assert (Z1 : forall l, closed fd (map Opened l) = 0%nat). { intros l. unfold closed. induction l; cbn [map filter]; auto. }
  assert (Z2 : forall l n, (closed fd (map Closed (firstn n l)) <= opened fd (map Opened l))%nat).
  { intros l. unfold closed, opened. induction l as [|g l IH]; intros [|n]; cbn [firstn map filter length]; try lia.
    specialize (IH n). destruct (g =? fd); cbn [length]; lia. }
  destruct K as [[n ->]|[n ->]]; [rewrite Z1; lia|]. rewrite closed_app, opened_app, Z1. specialize (Z2 fds n). lia.
Qed.

Lemma work_done h A packet p ev : do_work h A packet = Ok (p, ev) ->
  p = packet ++ codec_gave A /\ ev = map Opened (a_fds A) ++ map Closed (a_fds A).
Proof.
  unfold do_work, fb_to_avframe. destruct (open_planes (a_fds A) []) as [[o e]|] eqn:O1; cbn [bind fst snd]; [|discriminate].
  apply planes_opened in O1 as [-> ->]. cbn [app].
  destruct (a_frame A); cbn [negb bind fst]; [|discriminate]. destruct (a_buffer A); cbn [negb bind fst snd]; [|discriminate].
  destruct h; cbn [negb]; [|discriminate]. unfold encode, codec_gave.
  destruct (a_add A =? 0); cbn [negb andb bind snd]; [|intros [= <- <-]; rewrite app_nil_r; auto].
  destruct (a_alloc A); cbn [negb andb bind snd]; [|intros [= <- <-]; rewrite app_nil_r; auto].
  destruct (a_get A =? 0); cbn [negb andb bind snd]; [|intros [= <- <-]; rewrite app_nil_r; auto].
  destruct (a_send A =? 0); cbn [negb andb bind snd]; [|intros [= <- <-]; rewrite app_nil_r; auto].
  destruct (match packet ++ _ with c :: _ => _ | [] => _ end); cbn [bind snd]; [discriminate|]. intros [= <- <-]. auto.
Qed.

Lemma works_done h : forall l packets rest ev, works h l [] = Ok (packets, rest, ev) ->
  rest = [] /\ packets = filter (fun p => negb (length p =? 0)%nat) (map codec_gave l) /\
  forall fd, opened fd ev = closed fd ev /\ forall a b, ev = a ++ b -> (closed fd a <= opened fd a)%nat.
Proof.
  induction l as [|A l IH]; intros packets rest ev; cbn [works].
  - intros [= <- <- <-]. split; [reflexivity|]. split; [reflexivity|]. intros fd. split; [reflexivity|]. intros [|] b H; [cbn; lia|discriminate].
  - destruct (do_work h A []) as [[p e]|] eqn:D; cbn [bind fst snd]; [|discriminate]. apply work_done in D as [-> ->]. cbn [app].
    assert (HO : hand_on (codec_gave A) = (filter (fun p => negb (length p =? 0)%nat) [codec_gave A], [])).
    { unfold hand_on. cbn [filter]. destruct (codec_gave A); reflexivity. }
    rewrite HO. destruct (works h l []) as [[[outs q] e]|] eqn:W; cbn [bind]; [|discriminate].
    intros [= <- <- <-]. destruct (IH _ _ _ eq_refl) as (-> & -> & B). split; [reflexivity|]. split; [cbn [map filter]; destruct (negb _); reflexivity|].
    intros fd. destruct (B fd) as [B1 B2]. split; [rewrite opened_app, closed_app, B1, balance; reflexivity|].
    intros a b H. destruct (Nat.le_gt_cases (length a) (length (map Opened (a_fds A) ++ map Closed (a_fds A)))) as [L|L].
    + apply (balance_first fd (a_fds A) a (skipn (length a) (map Opened (a_fds A) ++ map Closed (a_fds A)))).
      pose proof (f_equal (firstn (length a)) H) as E. rewrite firstn_app in E. rewrite (firstn_app (length a) a b), Nat.sub_diag, firstn_all in E.
      replace (length a - _)%nat with 0%nat in E by lia. cbn [firstn] in E. rewrite !app_nil_r in E.
      rewrite <- E at 1. symmetry. apply firstn_skipn.
    + pose proof (f_equal (firstn (length a)) H) as E. rewrite firstn_app in E. rewrite (firstn_app (length a) a b), Nat.sub_diag, firstn_all in E.
      cbn [firstn] in E. rewrite app_nil_r in E. rewrite (firstn_all2 (_ ++ _)) in E by lia. rewrite <- E.
      rewrite closed_app, opened_app, balance. apply Nat.add_le_mono_l.
      apply (B2 _ (skipn (length a - length (map Opened (a_fds A) ++ map Closed (a_fds A))) e)). symmetry. apply firstn_skipn.
Qed.

Lemma works_safe : forall l packet, Forall (fun A => (length (a_fds A) <= 4)%nat /\ a_frame A = true /\ a_buffer A = true /\
    match codec_gave A with c :: _ => c = 0 | [] => True end) l -> packet = [] ->
  exists r, works true l packet = Ok r.
Proof.
  induction l as [|A l IH]; intros packet F ->; cbn [works]; [eauto|]. inversion F as [|? ? (L & AF & AB & G) F']; subst.
  assert (O1 : forall fds objects, (length objects + length fds <= 4)%nat -> exists r, open_planes fds objects = Ok r).
  { induction fds as [|fd fds IF]; intros objects K; cbn [open_planes length] in *; [eauto|].
    destruct (Nat.leb_spec max_planes (length objects)); [unfold max_planes in *; lia|].
    destruct (IF (objects ++ [fd])) as [r ->]; [rewrite app_length; cbn; lia|]. cbn [bind]. eauto. }
  destruct (O1 (a_fds A) []) as [[o e] OE]; [cbn; lia|].
  assert (D : exists p ev, do_work true A [] = Ok (p, ev)).
  { unfold do_work, fb_to_avframe. rewrite OE. cbn [bind]. rewrite AF, AB. cbn [negb bind fst snd]. unfold encode, codec_gave in *.
    destruct (a_add A =? 0); cbn [negb andb bind snd] in *; [|eauto]. destruct (a_alloc A); cbn [negb andb bind snd] in *; [|eauto].
    destruct (a_get A =? 0); cbn [negb andb bind snd] in *; [|eauto]. destruct (a_send A =? 0); cbn [negb andb bind snd] in *; [|eauto].
    cbn [app]. destruct (concat (a_packets A)) as [|c w]; cbn [bind snd]; [eauto|]. subst c. cbn. eauto. }
  destruct D as (p & ev & D). rewrite D. cbn [bind fst snd].
  destruct (hand_on p) as [out q] eqn:HO. assert (q = []) by (unfold hand_on in HO; destruct p; congruence). subst q.
  destruct (IH [] F' eq_refl) as [[[outs q] e'] W]. rewrite W. cbn [bind]. eauto.
Qed.
