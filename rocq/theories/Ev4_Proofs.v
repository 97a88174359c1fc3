(** More proofs for Ev_Props.v: pixel formats, sizes, areas, time. *)
From Verif Require Import Common CommonProofs Pixels_Model Msg_Model Msg_Spec Msg2_Spec Msg_Proofs Upd_Spec Upd_Proofs Upd2_Proofs
  Msg6_Proofs Ev_Spec Ev2_Proofs Ev3_Proofs.

(** ** Pixel formats *)

Lemma be2_parts v : exists a b, be 2 v = [a; b] /\ (short v -> unbe [a; b] = v).
Proof.
  pose proof (be_length 2 v) as L. pose proof (unbe_be 2 v) as U. destruct (be 2 v) as [|a [|b [|]]]; try discriminate.
  exists a, b. split; [reflexivity|]. exact U.
Qed.

Lemma format_read p1 p2 p3 f q1 q2 q3 : good_format f -> true_colour_flag f <> 0 ->
  client_pixfmt (firstn 16 (skipn 4 (pixel_format_msg p1 p2 p3 f q1 q2 q3))) = f.
Proof.
  intros (R & G & B) T. unfold pixel_format_msg.
  destruct (be2_parts (red_max f)) as (r1 & r2 & -> & HR). destruct (be2_parts (green_max f)) as (g1 & g2 & -> & HG).
  destruct (be2_parts (blue_max f)) as (b1 & b2 & -> & HB). cbn [app skipn firstn].
  unfold client_pixfmt. cbn [nth true_colour_flag]. rewrite (HR R), (HG G), (HB B).
  destruct (true_colour_flag f =? 0) eqn:T0; [apply Z.eqb_eq in T0; contradiction|]. destruct f. reflexivity.
Qed.

Lemma format_parts p1 p2 p3 f q1 q2 q3 :
  zlen (pixel_format_msg p1 p2 p3 f q1 q2 q3) = 20 /\
  u8 (firstn 16 (skipn 4 (pixel_format_msg p1 p2 p3 f q1 q2 q3))) 3 = true_colour_flag f.
Proof.
  unfold pixel_format_msg.
  destruct (be2_parts (red_max f)) as (r1 & r2 & -> & _). destruct (be2_parts (green_max f)) as (g1 & g2 & -> & _).
  destruct (be2_parts (blue_max f)) as (b1 & b2 & -> & _). split; reflexivity.
Qed.

Lemma format_set E r c p1 p2 p3 f q1 q2 q3 :
  on_message E r c (pixel_format_msg p1 p2 p3 f q1 q2 q3) =
  Ok (on_set_pixel_format c (pixel_format_msg p1 p2 p3 f q1 q2 q3)).
Proof. reflexivity. Qed.

Lemma true_colour E r c p1 p2 p3 f q1 q2 q3 : good_format f -> true_colour_flag f <> 0 ->
  exists c', on_message E r c (pixel_format_msg p1 p2 p3 f q1 q2 q3) = Ok (c', 20) /\ fmt c' = f /\ log c' = log c.
Proof.
  intros G T. rewrite format_set. unfold on_set_pixel_format. destruct (format_parts p1 p2 p3 f q1 q2 q3) as [L U].
  rewrite L, U. cbn [Z.ltb Z.compare]. change (20 <? 20) with false. cbv iota.
  destruct (true_colour_flag f =? 0) eqn:T0; [apply Z.eqb_eq in T0; contradiction|].
  eexists. split; [reflexivity|]. split; [|reflexivity]. cbn [fmt set_fmt_changed set_fmt]. apply format_read; assumption.
Qed.

Definition entry_ok (i : Z) : bool :=
  let r := colour 7 (i / 32 mod 8) in let g := colour 7 (i / 4 mod 8) in let b := colour 3 (i mod 4) in
  match get colour_map (6 + 6 * i) 6 with
  | Ok l => forallb (fun p => fst p =? snd p) (combine l (be 2 r ++ be 2 g ++ be 2 b)) && (zlen l =? 6)
  | Fault _ => false
  end &&
  (2 * Z.abs (r * 7 - 65535 * (i / 32)) <=? 7) && (2 * Z.abs (g * 7 - 65535 * (i / 4 mod 8)) <=? 7) &&
  (2 * Z.abs (b * 3 - 65535 * (i mod 4)) <=? 3).
Lemma entries_ok : forallb entry_ok (zrange 256) = true.
Proof. vm_compute. reflexivity. Qed.

Lemma combine_eq : forall l m : list Z, length l = length m ->
  forallb (fun p => fst p =? snd p) (combine l m) = true -> l = m.
Proof.
  induction l as [|a l IH]; intros [|b m] L H; try discriminate; [reflexivity|].
  cbn in H. apply andb_prop in H as [A B]. apply Z.eqb_eq in A. injection L as L. f_equal; [exact A|apply IH; assumption].
Qed.

Lemma entry i : 0 <= i < 256 -> exists r g b, map_entry colour_map i r g b /\
  nearest r 7 (i / 32) /\ nearest g 7 (i / 4 mod 8) /\ nearest b 3 (i mod 4).
Proof.
  intros I. pose proof (sweep _ _ entries_ok i I) as H. unfold entry_ok in H.
  set (r := colour 7 (i / 32 mod 8)) in *. set (g := colour 7 (i / 4 mod 8)) in *. set (b := colour 3 (i mod 4)) in *.
  apply andb_prop in H as [H H4]. apply andb_prop in H as [H H3]. apply andb_prop in H as [H H2].
  exists r, g, b. split.
  - unfold map_entry. destruct (get colour_map (6 + 6 * i) 6) as [l|]; [|discriminate].
    apply andb_prop in H as [A B]. f_equal. apply Z.eqb_eq in B. apply combine_eq; [|exact A].
    unfold zlen in B. rewrite !app_length, !be_length. lia.
  - apply Z.leb_le in H2, H3, H4. auto.
Qed.

Lemma map_colour E r c p1 p2 p3 f q1 q2 q3 : true_colour_flag f = 0 ->
  exists c' m, on_message E r c (pixel_format_msg p1 p2 p3 f q1 q2 q3) = Ok (c', 20) /\ log c' = log c ++ [Sent m] /\
    fmt c' = mk_fmt 8 8 0 1 7 7 3 5 2 0 /\ zlen m = 6 + 6 * 256 /\ firstn 6 m = [1; 0] ++ be 2 0 ++ be 2 256 /\
    forall i, 0 <= i < 256 -> exists r g b, map_entry m i r g b /\
      nearest r 7 (i / 32) /\ nearest g 7 (i / 4 mod 8) /\ nearest b 3 (i mod 4).
Proof.
  intros T. rewrite format_set. unfold on_set_pixel_format. destruct (format_parts p1 p2 p3 f q1 q2 q3) as [L U].
  rewrite L, U, T. change (20 <? 20) with false. cbv iota. change (0 =? 0) with true. cbv iota.
  eexists. exists colour_map. split; [reflexivity|]. split; [reflexivity|]. split.
  - cbn [fmt set_fmt_changed set_fmt say set_log]. unfold client_pixfmt.
    match goal with |- context [true_colour_flag (mk_fmt ?a ?b ?c ?d ?e ?f ?g ?h ?i ?j)] => change (true_colour_flag (mk_fmt a b c d e f g h i j)) with d end.
    unfold u8 in U. rewrite U, T. reflexivity.
  - split; [vm_compute; reflexivity|]. split; [vm_compute; reflexivity|]. intros i I. apply entry. exact I.
Qed.

(** the message marks the formats as changed *)
Lemma format_marks E r c p1 p2 p3 f q1 q2 q3 c' n :
  on_message E r c (pixel_format_msg p1 p2 p3 f q1 q2 q3) = Ok (c', n) ->
  fmt_changed c' = true /\ updating c' = updating c /\ encs c' = encs c /\ closed c' = closed c.
Proof.
  rewrite format_set. unfold on_set_pixel_format. destruct (format_parts p1 p2 p3 f q1 q2 q3) as [L U].
  rewrite L. change (20 <? 20) with false. cbv iota. intros [= <- <-]. destruct (_ =? 0); auto.
Qed.

Lemma no_encoding c e : ~ In e (encs c) -> has_encoding c e = false.
Proof.
  intros N. unfold has_encoding. destruct (existsb _ _) eqn:X; [|reflexivity]. exfalso. apply N.
  apply existsb_exists in X as (y & I & Y). apply Z.eqb_eq in Y. subst. exact I.
Qed.
Lemma with_encoding c e : In e (encs c) -> has_encoding c e = true.
Proof. intros I. unfold has_encoding. apply existsb_exists. exists e. split; [exact I|apply Z.eqb_refl]. Qed.

(** ** Sizes *)

Lemma pts_stamp c f : pts_rect c f = stamp c f.
Proof.
  unfold pts_rect, stamp. destruct (f_pts f); [|reflexivity]. unfold has_encoding. change ENC_PTS with (-1000). destruct (existsb _ _); [|reflexivity].
  unfold time_rect, rect_head. rewrite <- !app_assoc. reflexivity.
Qed.

Lemma stamps_if c f : (if match stamp c f with [] => true | _ => false end then 0 else 1) = stamps c f.
Proof. unfold stamps. destruct (stamp c f); reflexivity. Qed.

Lemma sendable_not c : sendable c -> closed c = false /\ fmt_changed c && negb (has_encoding c ENC_FENCE) = false.
Proof.
  intros [A [B|B]]; split; auto; [rewrite B; reflexivity|]. rewrite (with_encoding c ENC_FENCE B). apply andb_false_r.
Qed.

Lemma resized_bool c w h : known c <> (w, h) -> negb ((fst (known c) =? w) && (snd (known c) =? h)) = true.
Proof.
  intros N. destruct (known c) as [a b]. cbn [fst snd]. destruct (Z.eqb_spec a w); [|reflexivity].
  destruct (Z.eqb_spec b h); [|reflexivity]. subst. contradiction.
Qed.

Lemma size_bytes c w h : resize_rect c w h = size_rect (has_encoding c ENC_EXTDESKTOPSIZE) w h.
Proof.
  unfold resize_rect, size_rect, ext_size_rect, rect_head, pattern32. destruct (has_encoding c ENC_EXTDESKTOPSIZE).
  - rewrite <- !app_assoc. reflexivity.
  - rewrite app_nil_r. reflexivity.
Qed.

Lemma told E fuel c f c' : step E fuel c (IEncoded f) = Ok c' -> sendable c -> known c <> (f_w f, f_h f) ->
  exists c1, mv c1 c' /\ tr c1 c' /\ damage c1 = union_rect (damage c) 0 0 (f_w f) (f_h f) /\ known c1 = (f_w f, f_h f) /\
    disp c1 = disp c /\
    log c1 = log c ++ [Update KFrame (update_head (f_rects f + stamps c f + 1) ++
      size_rect (has_encoding c ENC_EXTDESKTOPSIZE) (f_w f) (f_h f) ++ stamp c f ++ f_data f)].
Proof.
  assert (R : forall c c', receive E fuel c (e_more E (log c)) = Ok c' -> mv c c') by (intros; eapply receive_mv; eauto).
  assert (R2 : forall c c', receive E fuel c (e_more E (log c)) = Ok c' -> tr c c') by (intros; eapply receive_tr; eauto).
  intros H S N. apply sendable_not in S as [S1 S2]. cbn [step] in H. unfold finish_update in H.
  rewrite S1, S2, (resized_bool _ _ _ N), size_bytes, pts_stamp in H. rewrite stamps_if in H. cbv zeta in H. cbn [andb] in H.
  destruct (negb (supports_resizing c)); [discriminate|].
  apply bind_ok in H as (c3 & H & H2).
  match type of H with (if _ then complete_update _ _ ?v else _) = _ => exists v; set (c2 := v) in * end.
  split; [|split; [|repeat split; reflexivity]].
  - clearbody c2. eapply mv_trans; [|eapply mv_trans; [apply ping_mv|eapply ppf_mv; [exact R|exact H2]]].
    revert H. destruct (e_sync _ _); [apply complete_mv; exact R|intros [= <-]; apply mv_refl].
  - clearbody c2. eapply tr_trans; [|eapply tr_trans; [apply ping_tr|eapply ppf_tr; [exact R2|exact H2]]].
    revert H. destruct (e_sync _ _); [apply complete_tr; exact R2|intros [= <-]; apply tr_refl].
Qed.

Lemma not_told E fuel c f c' : step E fuel c (IEncoded f) = Ok c' -> sendable c -> known c = (f_w f, f_h f) ->
  exists l, log c' = log c ++ Update KFrame (update_head (f_rects f + stamps c f) ++
      stamp c f ++ f_data f) :: l.
Proof.
  assert (R : forall c c', receive E fuel c (e_more E (log c)) = Ok c' -> mv c c') by (intros; eapply receive_mv; eauto).
  intros H S K. apply sendable_not in S as [S1 S2]. cbn [step] in H. unfold finish_update in H.
  rewrite S1, S2, K, pts_stamp in H. rewrite stamps_if in H. cbn [fst snd] in H. rewrite !Z.eqb_refl in H. cbv zeta in H. cbn [andb negb app] in H.
  apply bind_ok in H as (c3 & H & H2).
  match type of H with (if _ then complete_update _ _ ?v else _) = _ => set (c2 := v) in * end.
  assert (M : mv c2 c').
  { clearbody c2. eapply mv_trans; [|eapply mv_trans; [apply ping_mv|eapply ppf_mv; [exact R|exact H2]]].
    revert H. destruct (e_sync _ _); [apply complete_mv; exact R|intros [= <-]; apply mv_refl]. }
  apply mv_log in M as (l & L). exists l. rewrite L. cbn. rewrite <- app_assoc. reflexivity.
Qed.

Lemma kept_or_encoded c c' x y : mv c c' -> (forall f, disp c = Some f -> holds x y f) -> covers (damage c) x y ->
  covers (damage c') x y \/ exists l, log c' = log c ++ l /\ encoded l x y.
Proof.
  intros [M _] D C. specialize (M (holds x y) D). apply moves_keep in M; [|exact C].
  exact M.
Qed.

Lemma inside_union d w h px py : 0 <= px < w -> 0 <= py < h -> w <= 32767 -> h <= 32767 ->
  covers (union_rect d 0 0 w h) px py.
Proof.
  intros X Y W H. apply covers_union. right.
  assert (E : rect_box 0 0 w h = (0, 0, 0 + w, 0 + h)) by (apply rect_box_small; lia). rewrite E. split.
  - cbn. apply andb_true_intro. split; apply Z.ltb_lt; lia.
  - constructor. lia.
Qed.

(** the size the client was told is kept *)
Lemma atom_known c c' : atom c c' -> exists l, log c' = log c ++ l /\
  (known c' = known c \/ exists x y w h, In (FbReq 0 x y w h) l).
Proof.
  destruct 1 as [c c' l _ L _ _ K _ _ _ _|c c' x y w h l _ L _ _ K _ _ _ _|c c' inc x y w h _ L _ _ K _ _ _ _
    |c c' f ok _ L _ _ K _ _|c c' L _ _ K _ _|c c' on L _ _ K _ _ _ _|c c' _ _ L _ _ K _ _|c c' _ _ L _ _ K _ _];
    try (eexists; split; [exact L|]; left; exact K).
  - eexists. split; [exact L|]. right. exists x, y, w, h. apply in_or_app. right. left. reflexivity.
  - exists []. split; [rewrite app_nil_r; exact L|auto].
Qed.
Lemma tr_known c c' : tr c c' -> exists l, log c' = log c ++ l /\
  (known c' = known c \/ exists x y w h, In (FbReq 0 x y w h) l).
Proof.
  induction 1 as [c|a b c A _ (l2 & L2 & B2)].
  - exists []. split; [symmetry; apply app_nil_r|auto].
  - destruct (atom_known _ _ A) as (l1 & L1 & B1). exists (l1 ++ l2). split; [rewrite L2, L1, app_assoc; reflexivity|].
    destruct B2 as [B2|(x & y & w & h & I)]; [|right; exists x, y, w, h; apply in_or_app; auto].
    destruct B1 as [B1|(x & y & w & h & I)]; [left; congruence|right; exists x, y, w, h; apply in_or_app; auto].
Qed.
Lemma step_known E fuel c i c' w h : step E fuel c i = Ok c' -> same_size w h i -> known c = (w, h) ->
  exists l, log c' = log c ++ l /\ (known c' = (w, h) \/ exists x y w h, In (FbReq 0 x y w h) l).
Proof.
  assert (T : forall a b, tr a b -> known a = (w, h) -> exists l, log b = log a ++ l /\ (known b = (w, h) \/ exists x y w h, In (FbReq 0 x y w h) l)).
  { intros a b T K. rewrite <- K. apply tr_known. exact T. }
  assert (R : forall c c', receive E fuel c (e_more E (log c)) = Ok c' -> tr c c') by (intros; eapply receive_tr; eauto).
  intros H S K. unfold step in H. destruct i.
  - destruct (closed c); [apply ok_inj in H; subst; apply T; [constructor|exact K]|]. apply receive_tr in H. apply T; assumption.
  - apply (process_tr E _ R) in H. apply T in H; [destruct (closed (set_disp (Some f) c)); exact H|].
    destruct (closed (set_disp (Some f) c)); exact K.
  - destruct S as [<- <-]. apply (finish_tr E _ R) in H as [H|(c1 & ((b & GL) & _ & _ & _ & _ & _ & G) & H)]; [apply T; assumption|].
    assert (K1 : known c1 = (f_w f, f_h f)) by (destruct G as [[G _]|(_ & G & _)]; congruence).
    destruct (T _ _ H K1) as (l & L & X). exists (Update KFrame b :: l). split; [rewrite L, GL, <- app_assoc; reflexivity|].
    destruct X as [X|(x & y & u & v & I)]; [auto|right; exists x, y, u, v; right; exact I].
  - apply (complete_tr E _ R) in H. apply T; assumption.
  - apply (process_tr E _ R) in H. apply T in H; assumption.
  - apply (process_tr E _ R) in H. apply T in H; assumption.
  - apply ok_inj in H. subst c'. exists []. split; [symmetry; apply app_nil_r|auto].
Qed.
Lemma run_known E fuel w h l : forall c c', run E fuel c l = Ok c' -> Forall (same_size w h) l -> known c = (w, h) ->
  exists new, log c' = log c ++ new /\ (known c' = (w, h) \/ exists x y w h, In (FbReq 0 x y w h) new).
Proof.
  induction l as [|i l IH]; intros c c'; cbn [run].
  - intros [= <-] _ K. exists []. split; [symmetry; apply app_nil_r|auto].
  - intros H S K. apply bind_ok in H as (c1 & H & H2). inversion S as [|? ? S1 S2]; subst.
    destruct (step_known _ _ _ _ _ _ _ H S1 K) as (l1 & L1 & B1).
    destruct B1 as [B1|(x & y & u & v & I)].
    + destruct (IH _ _ H2 S2 B1) as (l2 & L2 & B2). exists (l1 ++ l2). split; [rewrite L2, L1, app_assoc; reflexivity|].
      destruct B2 as [B2|(x & y & u & v & I)]; [auto|right; exists x, y, u, v; apply in_or_app; auto].
    + destruct (run_still _ _ _ _ _ H2) as (l2 & L2 & _). exists (l1 ++ l2). split; [rewrite L2, L1, app_assoc; reflexivity|].
      right. exists x, y, u, v. apply in_or_app. auto.
Qed.

(** ** Continuous updates: the area *)

Lemma misses d x y w h : 0 <= x -> 0 <= y -> 0 <= w -> 0 <= h -> x + w <= 32767 -> y + h <= 32767 ->
  ~ touches d x y w h -> not_empty (intersect_rect d x y w h) = false.
Proof.
  intros X Y W H X2 Y2 N. destruct (not_empty _) eqn:E; [|reflexivity]. exfalso. apply N.
  unfold not_empty in E. apply existsb_exists in E as (b & I & B). unfold intersect_rect in I. apply filter_In in I as [I _].
  apply in_map_iff in I as (a & EA & I).
  assert (ER : rect_box x y w h = (x, y, x + w, y + h)) by (apply rect_box_small; lia). rewrite ER in EA.
  destruct a as [[[a1 a2] a3] a4]. cbn in EA. subst b. cbn in B. apply andb_prop in B as [B1 B2]. apply Z.ltb_lt in B1, B2.
  exists (Z.max a1 x), (Z.max a2 y). split; [|lia]. apply Exists_exists. exists (a1, a2, a3, a4). split; [exact I|]. lia.
Qed.

Section Area.
Variable E : env.
Variable r : client -> res client.

(** continuous updates stay on, with their area, and nothing is encoded *)
Definition waits (c c' : client) : Prop :=
  cu_on c' = cu_on c /\ cu_rect c' = cu_rect c /\ damage c' = damage c /\
  exists l, log c' = log c ++ l /\ Forall not_encode l.
Lemma waits_refl c : waits c c.
Proof. repeat (split; [reflexivity|]). exists []. split; [symmetry; apply app_nil_r|constructor]. Qed.
Lemma waits_trans a b c : waits a b -> waits b c -> waits a c.
Proof.
  intros (A & B & C & l & L & F) (A' & B' & C' & l' & L' & F'). split; [congruence|]. split; [congruence|]. split; [congruence|].
  exists (l ++ l'). rewrite L', L, app_assoc. split; [reflexivity|]. apply Forall_app. auto.
Qed.
Lemma waits_say c c' o : cu_on c' = cu_on c -> cu_rect c' = cu_rect c -> damage c' = damage c ->
  log c' = log c ++ [o] -> not_encode o -> waits c c'.
Proof. intros A B C D F. split; [exact A|]. split; [exact B|]. split; [exact C|]. exists [o]. auto. Qed.

Definition outside (c : client) : Prop := cu_on c = true /\ has_damage c = false.
Lemma waits_outside c c' : waits c c' -> outside c -> outside c'.
Proof.
  intros (A & B & C & _) [U V]. split; [congruence|]. unfold has_damage in *. rewrite A, B, C. exact V.
Qed.

Lemma answered_waits (s : bool) c k c' : outside c -> (forall c2, outside c -> k c = Ok c2 -> waits c c2) -> answered r s c k = Ok c' -> waits c c'.
Proof.
  intros O K. unfold answered. destruct s; [|apply K; exact O]. unfold decrement_pending.
  destruct (updating c); [discriminate|]. destruct O as [O1 O2]. rewrite O1. cbn [bind]. change (1 <=? 0) with false. cbv iota.
  apply K. split; assumption.
Qed.

Lemma process_waits c c' : outside c -> process_requests E r c = Ok c' -> waits c c'.
Proof.
  intros O. unfold process_requests. destruct (closed c); [intros [= <-]; apply waits_refl|].
  destruct (disp c) as [f|]; [|intros [= <-]; apply waits_refl].
  destruct (updating c); [intros [= <-]; apply waits_refl|].
  destruct (negb (cu_on c) && (pending c =? 0)); [intros [= <-]; apply waits_refl|].
  destruct (if ext_notified c then (c, false) else send_ext_support (set_ext_notified true c)) as [c1 s1] eqn:E1.
  assert (W1 : waits c c1).
  { destruct (ext_notified c); [injection E1 as E1 E1'; subst; apply waits_refl|].
    unfold send_ext_support in E1. cbv zeta in E1.
    destruct (negb (has_encoding (set_ext_notified true c) ENC_QEMU_KEY) && negb (has_encoding (set_ext_notified true c) ENC_NTP));
      injection E1 as E1 E1'; subst.
    - repeat (split; [reflexivity|]). exists []. split; [symmetry; apply app_nil_r|constructor].
    - eapply waits_say; try reflexivity; exact I. }
  intros H. eapply waits_trans; [exact W1|]. pose proof (waits_outside _ _ W1 O) as O1. revert H. apply answered_waits; [exact O1|].
  intros c2 _. cbv zeta. set (cur := negb (srv_seq c1 =? cur_seq c1) && has_encoding c1 ENC_CURSOR).
  set (c3 := if cur then send_cursor_update E c1 else c1).
  assert (W3 : waits c1 c3).
  { subst c3. destruct cur; [|apply waits_refl]. unfold send_cursor_update.
    destruct (e_cursor _ _ _); (eapply waits_say; try reflexivity; exact I). }
  clearbody c3. intros H. eapply waits_trans; [exact W3|]. pose proof (waits_outside _ _ W3 O1) as O3. revert H.
  apply answered_waits; [exact O3|]. intros c4 _.
  destruct (send_led_state c3) as [c6 s6] eqn:E6.
  assert (W6 : waits c3 c6).
  { unfold send_led_state in E6. destruct (led_want c3 =? led c3); [injection E6 as E6 E6'; subst; apply waits_refl|].
    destruct (negb (has_encoding c3 ENC_QEMU_LED) && negb (has_encoding c3 ENC_VMWARE_LED)); injection E6 as E6 E6'; subst; [apply waits_refl|].
    eapply waits_say; try reflexivity; exact I. }
  intros H. eapply waits_trans; [exact W6|]. pose proof (waits_outside _ _ W6 O3) as O6. revert H.
  apply answered_waits; [exact O6|]. intros c7 _. unfold send_frame. destruct O6 as [_ ->]. cbn [negb]. intros [= <-]. apply waits_refl.
Qed.
End Area.

Lemma area_respected E fuel c f rg c' x y w h : cu_on c = true -> cu_rect c = (x, y, w, h) ->
  0 <= x -> 0 <= y -> 0 <= w -> 0 <= h -> x + w <= 32767 -> y + h <= 32767 ->
  ~ touches (damage c) x y w h -> ~ touches rg x y w h ->
  step E fuel c (IDamage f rg) = Ok c' -> exists l, log c' = log c ++ l /\ Forall not_encode l.
Proof.
  intros CU CR X Y W H X2 Y2 N1 N2 ST. cbn [step] in ST.
  apply process_waits in ST.
  - destruct ST as (_ & _ & _ & l & L & F). exists l. split; [|exact F]. rewrite L. destruct (closed (set_disp (Some f) c)); reflexivity.
  - assert (T : ~ touches (region_union (damage c) rg) x y w h).
    { intros (px & py & C & R1 & R2). apply covers_app in C as [C|C]; [apply N1|apply N2]; exists px, py; auto. }
    destruct (closed (set_disp (Some f) c)); (split; [exact CU|]); unfold has_damage;
      cbn [damage set_damage set_disp cu_on cu_rect]; rewrite CU, CR.
    + destruct (negb (not_empty (damage c))); [reflexivity|]. cbn [negb]. apply misses; assumption.
    + destruct (negb (not_empty (region_union (damage c) rg))); [reflexivity|]. cbn [negb]. apply misses; assumption.
Qed.

(** ** Time *)

Lemma ntp_read p1 p2 p3 t0 t1 t2 t3 : 0 <= t0 < 2 ^ 32 -> 0 <= t1 < 2 ^ 32 -> 0 <= t2 < 2 ^ 32 -> 0 <= t3 < 2 ^ 32 ->
  u32 (ntp_msg p1 p2 p3 t0 t1 t2 t3) 4 = t0 /\ u32 (ntp_msg p1 p2 p3 t0 t1 t2 t3) 8 = t1 /\
  u32 (ntp_msg p1 p2 p3 t0 t1 t2 t3) 12 = t2 /\ u32 (ntp_msg p1 p2 p3 t0 t1 t2 t3) 16 = t3 /\
  zlen (ntp_msg p1 p2 p3 t0 t1 t2 t3) = 20.
Proof.
  intros A B C D. unfold ntp_msg. split; [apply u32_at; [reflexivity|exact A]|].
  split; [rewrite app_assoc; apply u32_at; [reflexivity|exact B]|].
  split; [rewrite !app_assoc, <- (app_assoc _ (be 4 t2)); apply u32_at; [reflexivity|exact C]|].
  split; [rewrite !app_assoc; rewrite <- (app_nil_r (be 4 t3)); apply u32_at; [reflexivity|exact D]|].
  unfold zlen. rewrite !app_length, !be_length. reflexivity.
Qed.

Lemma ntp_answer E r c p1 p2 p3 t0 t1 t2 : 0 <= t0 < 2 ^ 32 -> 0 <= t1 < 2 ^ 32 -> 0 <= t2 < 2 ^ 32 ->
  on_message E r c (ntp_msg p1 p2 p3 t0 t1 t2 0) =
  Ok (say (NtpReply (ntp_msg p1 p2 p3 t0 (e_now E (log c) mod 2 ^ 32) t2 0)) c, 20).
Proof.
  intros A B C. destruct (ntp_read p1 p2 p3 t0 t1 t2 0 A B C ltac:(lia)) as (R0 & R1 & R2 & R3 & L).
  change (on_message E r c (ntp_msg p1 p2 p3 t0 t1 t2 0)) with (on_ntp E c (ntp_msg p1 p2 p3 t0 t1 t2 0)).
  unfold on_ntp. rewrite L, R3. change (20 <? 20) with false. cbv iota zeta. change (negb (0 =? 0)) with false. cbv iota.
  assert (X : firstn 8 (ntp_msg p1 p2 p3 t0 t1 t2 0) = [160; p1; p2; p3] ++ be 4 t0).
  { unfold ntp_msg. rewrite app_assoc. apply firstn_app_eq. reflexivity. }
  assert (Y : firstn 8 (skipn 12 (ntp_msg p1 p2 p3 t0 t1 t2 0)) = be 4 t2 ++ be 4 0).
  { unfold ntp_msg. rewrite !app_assoc, <- (app_assoc _ (be 4 t2)). rewrite skipn_app_eq by reflexivity. reflexivity. }
  rewrite X, Y. unfold ntp_msg. rewrite <- app_assoc. reflexivity.
Qed.

Lemma ntp_times E r c p1 p2 p3 t0 t1 t2 t3 : 0 <= t0 < 2 ^ 32 -> 0 <= t1 < 2 ^ 32 -> 0 <= t2 < 2 ^ 32 -> 0 < t3 < 2 ^ 32 ->
  on_message E r c (ntp_msg p1 p2 p3 t0 t1 t2 t3) = Ok (c, 20) \/
  on_message E r c (ntp_msg p1 p2 p3 t0 t1 t2 t3) = Fault SignedOverflow.
Proof.
  intros A B C D. destruct (ntp_read p1 p2 p3 t0 t1 t2 t3 A B C ltac:(lia)) as (R0 & R1 & R2 & R3 & L).
  change (on_message E r c (ntp_msg p1 p2 p3 t0 t1 t2 t3)) with (on_ntp E c (ntp_msg p1 p2 p3 t0 t1 t2 t3)).
  unfold on_ntp. rewrite L, R3. change (20 <? 20) with false. cbv iota zeta.
  destruct (t3 =? 0) eqn:T; [apply Z.eqb_eq in T; lia|]. cbn [negb]. destruct (_ && _); auto.
Qed.

(** complete messages that change what frames look like *)
Lemma encodings_mark E c m c' n : on_set_encodings E c m = (c', n) -> n <> 0 ->
  fmt_changed c' = true /\ updating c' = updating c /\ closed c' = closed c.
Proof.
  unfold on_set_encodings. destruct (zlen m <? 4); [intros [= _ <-]; contradiction|].
  destruct (_ <? _); [intros [= _ <-]; contradiction|]. destruct (scan_encodings _ _ _ _) as [k q]. intros [= <- _] _.
  unfold send_ping, send_clipboard_caps, send_fence.
  repeat match goal with |- context [if ?b then _ else _] => destruct b end; auto.
Qed.

Lemma changes_mark E r c m c' n : (exists t, m = 0 :: t) \/ (exists t, m = 2 :: t) -> on_message E r c m = Ok (c', n) -> n <> 0 ->
  fmt_changed c' = true /\ closed c' = closed c.
Proof.
  intros [(t & ->)|(t & ->)] H N.
  - cbn [on_message] in H. apply ok_inj in H. revert H. unfold on_set_pixel_format.
    destruct (_ <? _); [intros [= _ <-]; contradiction|]. intros [= <- _]. destruct (_ =? 0); auto.
  - cbn [on_message] in H. apply ok_inj in H. destruct (encodings_mark _ _ _ _ _ H N) as (A & _ & B). auto.
Qed.

Lemma stale E r fuel c m c1 n l c2 new fr c3 : (exists t, m = 0 :: t) \/ (exists t, m = 2 :: t) ->
  on_message E r c m = Ok (c1, n) -> n <> 0 -> run E fuel c1 l = Ok c2 -> log c2 = log c1 ++ new -> still new ->
  closed c2 = false -> ~ In (-312) (encs c2) -> step E fuel c2 (IEncoded fr) = Ok c3 ->
  exists l, log c3 = log c2 ++ Dropped :: l /\ ~ sent_frame l.
Proof.
  intros M H N R L S C NF ST. destruct (changes_mark _ _ _ _ _ _ M H N) as [F _].
  destruct (run_still _ _ _ _ _ R) as (new' & L' & B). rewrite L' in L. apply app_inv_head in L. subst new'.
  destruct (B S) as [_ B2]. eapply dropped; [exact ST|exact C|apply B2; exact F|]. apply (no_encoding c2 ENC_FENCE). exact NF.
Qed.

Lemma nothing l : Forall not_encode l -> nothing_encoded l.
Proof. intros F (r & w & h & ok & I). rewrite Forall_forall in F. exact (F _ I). Qed.

Lemma told_fully E fuel c f c' : step E fuel c (IEncoded f) = Ok c' -> sendable c -> known c <> (f_w f, f_h f) ->
  f_w f <= 32767 -> f_h f <= 32767 ->
  exists l, log c' = log c ++ Update KFrame (update_head (f_rects f + stamps c f + 1) ++
      size_rect (has_encoding c ENC_EXTDESKTOPSIZE) (f_w f) (f_h f) ++ stamp c f ++ f_data f) :: l /\
    forall px py, 0 <= px < f_w f -> 0 <= py < f_h f -> (forall d, disp c = Some d -> holds px py d) ->
      covers (damage c') px py \/ encoded l px py.
Proof.
  intros H S K W HH. destruct (told _ _ _ _ _ H S K) as (c1 & M & _ & D & _ & DI & L).
  destruct (mv_log _ _ M) as (l & LL). exists l. split.
  - rewrite LL, L, <- app_assoc. reflexivity.
  - intros px py X Y DH. destruct (kept_or_encoded c1 c' px py M) as [A|(l' & L' & A)].
    + rewrite DI. exact DH.
    + rewrite D. apply inside_union; assumption.
    + auto.
    + rewrite LL in L'. apply app_inv_head in L'. subst l'. auto.
Qed.

Lemma told_once E fuel c f c1 l c2 new f' c3 : step E fuel c (IEncoded f) = Ok c1 -> sendable c -> known c <> (f_w f, f_h f) ->
  Forall (same_size (f_w f) (f_h f)) l -> run E fuel c1 l = Ok c2 -> log c2 = log c ++ new ->
  (forall x y w h, ~ In (FbReq 0 x y w h) new) ->
  f_w f' = f_w f -> f_h f' = f_h f -> sendable c2 -> step E fuel c2 (IEncoded f') = Ok c3 ->
  exists rest, log c3 = log c2 ++ Update KFrame (update_head (f_rects f' + stamps c2 f') ++ stamp c2 f' ++ f_data f') :: rest.
Proof.
  intros H S K F R L N W HH S2 H3. destruct (told _ _ _ _ _ H S K) as (ca & _ & T & _ & KA & _ & LA).
  destruct (tr_known _ _ T) as (l1 & L1 & B1). rewrite LA in L1.
  assert (B : known c1 = (f_w f, f_h f) \/ exists x y w h, In (FbReq 0 x y w h) l1) by (destruct B1; [left; congruence|auto]).
  destruct (run_still _ _ _ _ _ R) as (l2 & L2 & _).
  assert (EN : new = ([Update KFrame (update_head (f_rects f + stamps c f + 1) ++
      size_rect (has_encoding c ENC_EXTDESKTOPSIZE) (f_w f) (f_h f) ++ stamp c f ++ f_data f)] ++ l1) ++ l2).
  { rewrite L2, L1, <- !app_assoc in L. apply app_inv_head in L. symmetry. rewrite <- app_assoc. exact L. }
  destruct B as [B|(x & y & w & h & I)].
  2: { exfalso. apply (N x y w h). rewrite EN. apply in_or_app. left. apply in_or_app. right. exact I. }
  destruct (run_known _ _ _ _ _ _ _ R F B) as (l2' & L2' & B2). rewrite L2 in L2'. apply app_inv_head in L2'. subst l2'.
  destruct B2 as [B2|(x & y & w & h & I)].
  2: { exfalso. apply (N x y w h). rewrite EN. apply in_or_app. right. exact I. }
  rewrite <- W, <- HH in B2. exact (not_told _ _ _ _ _ H3 S2 B2).
Qed.

Lemma unsupported E fuel c f : sendable c -> known c <> (f_w f, f_h f) -> ~ In (-223) (encs c) -> ~ In (-308) (encs c) ->
  step E fuel c (IEncoded f) = Fault UseAfterFree.
Proof.
  intros S K A B. apply sendable_not in S as [S1 S2]. cbn [step]. unfold finish_update. rewrite S1, S2, (resized_bool _ _ _ K).
  unfold supports_resizing. rewrite (no_encoding c ENC_DESKTOPSIZE A), (no_encoding c ENC_EXTDESKTOPSIZE B). reflexivity.
Qed.
