From Verif Require Import Common CommonProofs Ws_Proofs WsStream_Proofs.
From Verif Require Import Pixels_Model Pixels_Proofs Zrle_Model Zrle_Spec Zrle_Proofs Zrle2_Proofs Raw_Proofs.
From Verif Require Import Tight_Model Tight_Spec Tight_Proofs.

(** Compact lengths. *)
Definition len_bytes (size : Z) : list Z :=
  if size <? 128 then [size]
  else if size <? 16384 then [128 + size mod 128; size / 128]
  else [128 + size mod 128; 128 + (size / 128) mod 128; size / 16384].

Lemma lor_top : forall m, 0 <= m < 128 -> Z.lor m 128 = 128 + m.
Proof.
  intros m H. pose proof (sweep (fun m => Z.lor m 128 =? 128 + m) 128 eq_refl m H) as E. cbn beta in E. lia.
Qed.

Lemma lor_zero : forall m, Z.lor m 0 = m.
Proof. exact Z.lor_0_r. Qed.

Lemma land127 : forall m, Z.land m 127 = m mod 128.
Proof. intros m. change 127 with (Z.ones 7). rewrite Z.land_ones by lia. reflexivity. Qed.

Lemma land255 : forall m, Z.land m 255 = m mod 256.
Proof. intros m. change 255 with (Z.ones 8). rewrite Z.land_ones by lia. reflexivity. Qed.

Lemma first_byte : forall m, 0 <= m -> Z.lor (Z.land m 127) (if m >=? 128 then 128 else 0) mod 256 =
  if m <? 128 then m else 128 + m mod 128.
Proof.
  intros m H. rewrite land127. pose proof (Z.mod_pos_bound m 128 ltac:(lia)) as B.
  destruct (Z.ltb_spec m 128).
  - replace (m >=? 128) with false by lia. rewrite lor_zero, (Z.mod_small m 128), Z.mod_small; lia.
  - replace (m >=? 128) with true by lia. rewrite lor_top by lia. rewrite Z.mod_small; lia.
Qed.

Lemma second_byte : forall m, 0 <= m -> Z.lor (Z.land (m / 2 ^ 7) 127) (if m >=? 16384 then 128 else 0) mod 256 =
  if m <? 16384 then m / 128 else 128 + (m / 128) mod 128.
Proof.
  intros m H. rewrite land127. change (2 ^ 7) with 128. pose proof (Z.mod_pos_bound (m / 128) 128 ltac:(lia)) as B.
  assert (0 <= m / 128) by (apply Z.div_pos; lia).
  destruct (Z.ltb_spec m 16384).
  - assert (m / 128 < 128) by (apply Z.div_lt_upper_bound; lia).
    replace (m >=? 16384) with false by lia. rewrite lor_zero, (Z.mod_small (m / 128) 128), Z.mod_small; lia.
  - replace (m >=? 16384) with true by lia. rewrite lor_top by lia. rewrite Z.mod_small; lia.
Qed.

Lemma third_byte : forall m, 0 <= m < 2 ^ 22 -> Z.land (m / 2 ^ 14) 255 mod 256 = m / 16384.
Proof.
  intros m H. rewrite land255. change (2 ^ 14) with 16384.
  assert (0 <= m / 16384) by (apply Z.div_pos; lia).
  assert (m / 16384 < 256) by (apply Z.div_lt_upper_bound; lia).
  rewrite !Z.mod_small; lia.
Qed.

Lemma encode_size_ok : forall v size v', 0 <= size < 2 ^ 22 -> encode_size v size = Ok v' ->
  tdata v' = tdata v ++ len_bytes size /\ tcap v' = tcap v.
Proof.
  intros v size v' H E. unfold encode_size in E.
  pose proof (first_byte size ltac:(lia)) as B1. pose proof (second_byte size ltac:(lia)) as B2.
  pose proof (third_byte size H) as B3. unfold len_bytes.
  destruct (append_8 v _) as [v1|] eqn:E1; cbn [bind] in E; [|discriminate].
  apply append_8_ok in E1 as [D1 C1]. rewrite B1 in D1.
  destruct (size >=? 128) eqn:G1.
  - destruct (append_8 v1 _) as [v2|] eqn:E2; cbn [bind] in E; [|discriminate].
    apply append_8_ok in E2 as [D2 C2]. rewrite B2 in D2. replace (size <? 128) with false in * by lia.
    destruct (size >=? 16384) eqn:G2.
    + apply append_8_ok in E as [D3 C3]. rewrite B3 in D3. replace (size <? 16384) with false in * by lia.
      rewrite D3, D2, D1, <- !app_assoc. split; [reflexivity|congruence].
    + apply ok_inj in E as <-. replace (size <? 16384) with true in * by lia.
      rewrite D2, D1, <- !app_assoc. split; [reflexivity|congruence].
  - cbn [bind] in E. replace (size >=? 16384) with false in E by lia. apply ok_inj in E as <-.
    replace (size <? 128) with true in * by lia. auto.
Qed.

Lemma encode_size_total : forall v size, 0 <= size -> zlen (tdata v) + zlen (len_bytes size) <= tcap v ->
  exists v', encode_size v size = Ok v'.
Proof.
  intros v size H C. unfold encode_size, len_bytes in *.
  assert (Ls : zlen (tdata v) < tcap v).
  { destruct (size <? 128); [|destruct (size <? 16384)]; cbn in C; lia. }
  rewrite append_8_total by exact Ls. cbn [bind].
  destruct (size >=? 128) eqn:G1.
  - replace (size <? 128) with false in C by lia.
    rewrite append_8_total.
    2: { cbn [tdata tcap]. rewrite (zlen_app (tdata v)). destruct (size <? 16384); cbn in C |- *; lia. }
    cbn [bind]. destruct (size >=? 16384) eqn:G2; [|eauto].
    replace (size <? 16384) with false in C by lia. rewrite append_8_total; [eauto|].
    cbn [tdata tcap]. rewrite !zlen_app. cbn in C |- *. lia.
  - cbn [bind]. replace (size >=? 16384) with false by lia. eauto.
Qed.

Lemma read_len_bytes : forall size rest, 0 <= size < 2 ^ 22 -> read_len (len_bytes size ++ rest) = Some (size, rest).
Proof.
  intros size rest H. unfold len_bytes, read_len.
  destruct (Z.ltb_spec size 128); cbn [app].
  - replace (size <? 128) with true by lia. reflexivity.
  - assert (B : 0 <= size mod 128 < 128) by (apply Z.mod_pos_bound; lia).
    destruct (Z.ltb_spec size 16384); cbn [app].
    + replace (128 + size mod 128 <? 128) with false by lia.
      assert (size / 128 < 128) by (apply Z.div_lt_upper_bound; lia).
      replace (size / 128 <? 128) with true by lia. do 2 f_equal.
      pose proof (Z.div_mod size 128). lia.
    + replace (128 + size mod 128 <? 128) with false by lia.
      assert (B2 : 0 <= (size / 128) mod 128 < 128) by (apply Z.mod_pos_bound; lia).
      replace (128 + (size / 128) mod 128 <? 128) with false by lia. do 2 f_equal.
      pose proof (Z.div_mod size 128) as D1. pose proof (Z.div_mod (size / 128) 128) as D2.
      rewrite Z.div_div in D2 by lia. change (128 * 128) with 16384 in D2. lia.
Qed.

Lemma len_bytes_bytes : forall size, 0 <= size < 2 ^ 22 -> all_bytes (len_bytes size).
Proof.
  intros size H. unfold len_bytes, all_bytes, is_byte.
  assert (B : 0 <= size mod 128 < 128) by (apply Z.mod_pos_bound; lia).
  assert (B2 : 0 <= (size / 128) mod 128 < 128) by (apply Z.mod_pos_bound; lia).
  assert (0 <= size / 128) by (apply Z.div_pos; lia).
  assert (0 <= size / 16384) by (apply Z.div_pos; lia).
  assert (size / 16384 < 256) by (apply Z.div_lt_upper_bound; lia).
  destruct (Z.ltb_spec size 128); [repeat constructor; lia|].
  destruct (Z.ltb_spec size 16384).
  - assert (size / 128 < 128) by (apply Z.div_lt_upper_bound; lia). repeat constructor; lia.
  - repeat constructor; lia.
Qed.

Lemma len_shortest : forall size l rest, 0 <= size < 2 ^ 22 -> all_bytes l ->
  read_len (l ++ rest) = Some (size, rest) -> (length (len_bytes size) <= length l)%nat.
Proof.
  intros size l rest H B R. unfold len_bytes.
  destruct l as [|a [|b [|c l]]].
  - cbn [app] in R. exfalso. unfold read_len in R.
    destruct rest as [|a r1]; [discriminate|]. destruct (a <? 128).
    + injection R as _ R. apply (f_equal (@length Z)) in R. cbn [length] in R. lia.
    + destruct r1 as [|b r2]; [discriminate|]. destruct (b <? 128).
      * injection R as _ R. apply (f_equal (@length Z)) in R. cbn [length] in R. lia.
      * destruct r2 as [|c r3]; [discriminate|]. injection R as _ R.
        apply (f_equal (@length Z)) in R. cbn [length] in R. lia.
  - inversion B as [|? ? Ba _]; subst. unfold is_byte in *. cbn [app] in R. unfold read_len in R.
    destruct (Z.ltb_spec a 128).
    + injection R as ->. replace (size <? 128) with true by lia. cbn. lia.
    + exfalso. destruct rest as [|b r2]; [discriminate|]. destruct (b <? 128).
      * injection R as _ R. apply (f_equal (@length Z)) in R. cbn [length] in R. lia.
      * destruct r2 as [|c r3]; [discriminate|]. injection R as _ R.
        apply (f_equal (@length Z)) in R. cbn [length] in R. lia.
  - inversion B as [|? ? Ba Bb]; subst. inversion Bb as [|? ? Bb' _]; subst. unfold is_byte in *.
    cbn [app] in R. unfold read_len in R.
    destruct (Z.ltb_spec a 128).
    + injection R as -> R. apply (f_equal (@length Z)) in R. cbn [length] in R. lia.
    + destruct (Z.ltb_spec b 128).
      * assert (E : size = a - 128 + 128 * b) by congruence.
        replace (size <? 16384) with true by lia. destruct (size <? 128); cbn [length]; lia.
      * exfalso. destruct rest as [|c r3]; [discriminate|]. injection R as _ R.
        apply (f_equal (@length Z)) in R. cbn [length] in R. lia.
  - destruct (size <? 128); [|destruct (size <? 16384)]; cbn [length]; lia.
Qed.

(** Rectangle headers. *)
Lemma head_fields : forall e x y w h rest, 0 <= e < 2 ^ 32 ->
  0 <= x < 2 ^ 16 -> 0 <= y < 2 ^ 16 -> 0 <= w < 2 ^ 16 -> 0 <= h < 2 ^ 16 ->
  exists head, take 12 (rect_head e x y w h ++ rest) = Some (head, rest) /\
    u16 head = x /\ u16 (skipn 2 head) = y /\ u16 (skipn 4 head) = w /\ u16 (skipn 6 head) = h /\
    unbe (skipn 8 head) = e.
Proof.
  intros e x y w h rest He Hx Hy Hw Hh. unfold rect_head.
  rewrite !(Z.mod_small _ (2 ^ 16)) by lia. rewrite (Z.mod_small e) by lia.
  set (head := be 2 x ++ be 2 y ++ be 2 w ++ be 2 h ++ be 4 e).
  assert (Lh : length head = 12%nat) by (unfold head; rewrite !app_length, !be_length; reflexivity).
  exists head. unfold take. replace (12 <=? length (head ++ rest))%nat with true by (rewrite app_length; lia).
  rewrite (firstn_app_eq _ 12), (skipn_app_eq _ 12) by exact Lh. split; [reflexivity|].
  assert (S2 : skipn 2 head = be 2 y ++ be 2 w ++ be 2 h ++ be 4 e)
    by (unfold head; apply skipn_app_eq; apply be_length).
  assert (S4 : skipn 4 head = be 2 w ++ be 2 h ++ be 4 e)
    by (change 4%nat with (2 + 2)%nat at 1; rewrite <- skipn_skipn, S2; apply skipn_app_eq; apply be_length).
  assert (S6 : skipn 6 head = be 2 h ++ be 4 e)
    by (change 6%nat with (2 + 4)%nat at 1; rewrite <- skipn_skipn, S4; apply skipn_app_eq; apply be_length).
  assert (S8 : skipn 8 head = be 4 e)
    by (change 8%nat with (2 + 6)%nat at 1; rewrite <- skipn_skipn, S6; apply skipn_app_eq; apply be_length).
  rewrite S2, S4, S6, S8. unfold head. rewrite !u16_be by lia. rewrite unbe_be by lia. auto.
Qed.

Lemma rect_head_length : forall e x y w h, zlen (rect_head e x y w h) = 12.
Proof. intros. unfold rect_head, zlen. rewrite !app_length, !be_length. reflexivity. Qed.

Lemma take_app : forall (l rest : list Z), take (length l) (l ++ rest) = Some (l, rest).
Proof.
  intros l rest. unfold take. rewrite app_length. replace (_ <=? _)%nat with true by lia.
  rewrite firstn_app_exact, skipn_app_exact. reflexivity.
Qed.

Lemma take_zlen : forall (l rest : list Z), take (Z.to_nat (zlen l)) (l ++ rest) = Some (l, rest).
Proof. intros. unfold zlen. rewrite Nat2Z.id. apply take_app. Qed.

Lemma Forall2_impl : forall A B (R Q : A -> B -> Prop) l l', (forall x y, R x y -> Q x y) ->
  Forall2 R l l' -> Forall2 Q l l'.
Proof. intros A B R Q l l' H F. induction F; constructor; auto. Qed.

Section T.
Variable zstate : Type.
Variable deflate : zstate -> list Z -> bool -> zstate * list Z.
Variable tj : string -> Z -> Z -> Z -> list Z -> option (list Z).
Variable have_jpeg : bool.
Notation tenc := (tenc zstate).
Notation work_on := (work_on deflate tj have_jpeg).
Notation work := (work deflate tj have_jpeg).
Notation enc_tile := (tight_encode_tile zstate deflate tj have_jpeg).
Notation deflate_all := (deflate_all zstate deflate).

(** One tile's data. *)
Lemma basic_rows_ok : forall h f off bs w zs buf zs' buf',
  basic_rows zstate deflate h f off bs w zs buf = Ok (zs', buf') ->
  exists rows cps, length rows = h /\ zs' = fst (deflate_all zs rows) /\ buf' = buf ++ snd (deflate_all zs rows) /\
    concat rows = concat cps /\ Forall (fun c => zlen c = calc_bytes_per_cpixel (tf_dst f)) cps /\
    length cps = (h * w)%nat /\
    row_good (tf_fb f) off bs (calc_bytes_per_cpixel (tf_dst f)) (cfmt f) (tf_src f) (Z.of_nat w) (Z.of_nat h) cps.
Proof.
  induction h as [|h IH]; intros f off bs w zs buf zs' buf' H; cbn [basic_rows] in H.
  - apply ok_inj, pair_equal_spec in H as [<- <-]. exists [], []. cbn [Zrle_Spec.deflate_all fst snd concat].
    rewrite app_nil_r. repeat split; [constructor|]. intros i j Hi Hj. lia.
  - destruct (pixel_to_cpixel _ _ _ _ _ _) as [row|] eqn:E; cbn [bind] in H; [|discriminate].
    destruct (put _ _ _); cbn [bind] in H; [|discriminate].
    destruct (tight_deflate _ _ _ _ _ _) as [[zs1 b1]|] eqn:D; cbn [bind fst snd] in H; [|discriminate].
    unfold tight_deflate in D.
    destruct (deflate zs row (match h with O => true | S _ => false end)) as [zs2 out] eqn:Dd.
    destruct (_ <? _); [|discriminate]. apply ok_inj, pair_equal_spec in D as [-> <-].
    destruct (IH _ _ _ _ _ _ _ _ H) as [rows [cps [L [-> [-> [C [F [Lc G]]]]]]]].
    destruct (to_px _ _ _ _ _ _ _ E) as [px [cr [P [Fr [Zr ->]]]]].
    destruct (pixels_of_length _ _ _ _ _ P) as [Lp _].
    assert (Lr : length cr = w) by (rewrite <- (Forall2_len _ _ _ _ _ Fr); exact Lp).
    exists (concat cr :: rows), (cr ++ cps). cbn [length]. split; [lia|].
    assert (Dl : deflate_all zs (concat cr :: rows) =
      (fst (deflate_all zs1 rows), out ++ snd (deflate_all zs1 rows))).
    { cbn [Zrle_Spec.deflate_all].
      replace (match rows with [] => true | _ :: _ => false end) with (match h with O => true | S _ => false end)
        by (rewrite <- L; destruct rows; reflexivity).
      rewrite Dd. destruct (deflate_all zs1 rows); reflexivity. }
    rewrite Dl. cbn [fst snd]. split; [reflexivity|]. split; [rewrite app_assoc; reflexivity|].
    split; [cbn [concat]; rewrite C, concat_app; reflexivity|].
    split; [apply Forall_app; auto|]. split; [rewrite app_length, Lr, Lc; lia|].
    intros i j Hi Hj. destruct (Z.eq_dec j 0) as [->|J].
    + assert (K : (Z.to_nat i < w)%nat) by lia.
      destruct (pixels_of_nth _ _ _ _ _ _ P K) as [p [N Gp]].
      destruct (Forall2_nth _ _ _ _ _ Fr _ _ N) as [c [N2 Cv]].
      exists p, c. split; [|split; [exact Cv|]].
      * rewrite <- Gp. f_equal. rewrite Z2Nat.id by lia. lia.
      * replace (Z.to_nat (0 * Z.of_nat w + i)) with (Z.to_nat i) by (f_equal; lia).
        rewrite nth_error_app1 by lia. exact N2.
    + destruct (G i (j - 1) Hi ltac:(lia)) as [p [c [Gp [Cv N]]]].
      exists p, c. split; [|split; [exact Cv|]].
      * rewrite <- Gp. f_equal. lia.
      * assert (0 <= (j - 1) * Z.of_nat w) by (apply Z.mul_nonneg_nonneg; lia).
        rewrite nth_error_app2 by (rewrite Lr; lia). rewrite Lr, <- N. f_equal. lia.
Qed.

Lemma basic_rows_size : forall h f off bs w zs buf zs' buf',
  basic_rows zstate deflate h f off bs w zs buf = Ok (zs', buf') -> zlen buf < MAX_TILE_SIZE ->
  zlen buf' < MAX_TILE_SIZE.
Proof.
  induction h as [|h IH]; intros f off bs w zs buf zs' buf' H L; cbn [basic_rows] in H.
  - apply ok_inj, pair_equal_spec in H as [<- <-]. exact L.
  - destruct (pixel_to_cpixel _ _ _ _ _ _) as [row|] eqn:E; cbn [bind] in H; [|discriminate].
    destruct (put _ _ _); cbn [bind] in H; [|discriminate].
    destruct (tight_deflate _ _ _ _ _ _) as [[zs1 b1]|] eqn:D; cbn [bind fst snd] in H; [|discriminate].
    unfold tight_deflate in D. destruct (deflate _ _ _) as [zs2 out].
    destruct (_ <? _) eqn:Q; [|discriminate]. apply ok_inj, pair_equal_spec in D as [-> <-].
    apply (IH _ _ _ _ _ _ _ _ H). rewrite zlen_app. lia.
Qed.

(** A worker leaves alone what is not on its list. *)
Lemma work_on_keeps : forall f a i a' j, valid zstate a i -> valid zstate a j -> i <> j ->
  work_on f a i = Ok a' -> get_tile a' j = get_tile a j.
Proof.
  intros f a i a' j Vi Vj D H. unfold Tight_Model.work_on in H.
  destruct (get_tile a i) as [t|]; cbn [bind] in H; [|discriminate].
  destruct (tt_state t); try (injection H as <-; reflexivity).
  unfold tight_encode_tile in H. cbv zeta in H. destruct (negb have_jpeg || _).
  - destruct (nth_error (te_zs a) _) as [zs|] eqn:En; [|discriminate].
    destruct (encode_tile_basic _ _ _ _ _ _ _ _) as [r|]; cbn [bind] in *; [|discriminate].
    apply ok_inj in H as <-. unfold get_tile, set_tile, tile_index. cbn [te_grid te_gw].
    rewrite set_nth_other; [reflexivity|]. intros E. apply (index_inj zstate a i j Vi Vj) in E. congruence.
  - destruct (encode_tile_jpeg _ _ _ _ _ _) as [r|]; cbn [bind] in *; [|discriminate].
    apply ok_inj in H as <-. apply get_set_other; assumption.
Qed.

Lemma work_keeps : forall f l a a' j, Forall (valid zstate a) l -> valid zstate a j -> ~ In j l ->
  work f a l = Ok a' -> get_tile a' j = get_tile a j.
Proof.
  induction l as [|i l IH]; intros a a' j V Vj N H; cbn [Tight_Model.work] in H; [injection H as <-; reflexivity|].
  destruct (work_on f a i) as [b|] eqn:E; cbn [bind] in H; [|discriminate].
  inversion V as [|? ? V1 V2]; subst. pose proof (work_on_shape _ _ _ _ _ _ _ _ E) as S.
  rewrite (IH b a' j).
  - apply (work_on_keeps f a i b j); [exact V1|exact Vj|intros ->; apply N; left; reflexivity|exact E].
  - eapply Forall_impl; [|exact V2]. intros k. apply shape_valid. exact S.
  - apply (shape_valid zstate a); assumption.
  - intros I. apply N. right. exact I.
  - exact H.
Qed.

(** The bytes of a finished tile. *)
Definition emit (x_pos y_pos : Z) (te : tenc) (j : job) : list Z :=
  match get_tile te j with
  | Ok t =>
      rect_head 7 (x_pos + fst j * TSL) (y_pos + snd j * TSL) (tight_tile_width te (fst j * TSL))
        (tight_tile_height te (snd j * TSL)) ++ [tt_type t] ++ len_bytes (zlen (tt_buf t)) ++ tt_buf t
  | Fault _ => []
  end.

Definition is_encoded (te : tenc) (j : job) : bool :=
  match get_tile te j with Ok t => match tt_state t with Encoded => true | _ => false end | Fault _ => false end.

Definition is_damaged (te : tenc) (j : job) : bool :=
  match get_tile te j with Ok t => match tt_state t with Damaged => true | _ => false end | Fault _ => false end.

Lemma emit_shape : forall xp yp a b j, shape zstate a b -> get_tile a j = get_tile b j -> emit xp yp a j = emit xp yp b j.
Proof.
  intros xp yp a b j [Sw [Sh _]] G. unfold emit, tight_tile_width, tight_tile_height. rewrite G, Sw, Sh. reflexivity.
Qed.

Lemma finish_ok : forall xp yp jobs te dst te' v, well_formed te -> NoDup jobs -> Forall (valid zstate te) jobs ->
  (forall j t, In j jobs -> is_encoded te j = true -> get_tile te j = Ok t -> zlen (tt_buf t) < 2 ^ 22) ->
  finish_loop xp yp jobs te dst = Ok (te', v) ->
  tdata v = tdata dst ++ concat (map (emit xp yp te) (filter (is_encoded te) jobs)) /\
  shape zstate te te' /\ te_zs te' = te_zs te.
Proof.
  induction jobs as [|j jobs IH]; intros te dst te' v W N V B H; cbn [finish_loop filter] in *.
  - apply ok_inj, pair_equal_spec in H as [<- <-]. cbn [map concat]. rewrite app_nil_r.
    split; [reflexivity|]. split; [apply shape_refl|reflexivity].
  - inversion N as [|? ? N1 N2]; subst. inversion V as [|? ? V1 V2]; subst.
    destruct (get_tile te j) as [t|] eqn:G; cbn [bind] in H; [|discriminate].
    assert (K : forall te1, shape zstate te te1 -> (forall i, In i jobs -> get_tile te1 i = get_tile te i) ->
      well_formed te1 /\ Forall (valid zstate te1) jobs /\
      (forall i t, In i jobs -> is_encoded te1 i = true -> get_tile te1 i = Ok t -> zlen (tt_buf t) < 2 ^ 22) /\
      map (emit xp yp te1) (filter (is_encoded te1) jobs) = map (emit xp yp te) (filter (is_encoded te) jobs)).
    { intros te1 S Q. split; [apply (shape_wf zstate te); assumption|].
      split; [eapply Forall_impl; [|exact V2]; intros k; apply shape_valid; exact S|].
      split.
      - intros i t0 I Ei Gi. unfold is_encoded in Ei. rewrite Q in Ei, Gi by exact I.
        apply (B i); [right; exact I|exact Ei|exact Gi].
      - assert (Fe : filter (is_encoded te1) jobs = filter (is_encoded te) jobs).
        { apply filter_ext_in. intros i I. unfold is_encoded. rewrite Q by exact I. reflexivity. }
        rewrite Fe. apply map_ext_in. intros i I. apply filter_In in I as [I _].
        apply emit_shape; [apply shape_sym; exact S|apply Q; exact I]. }
    destruct (tt_state t) eqn:St.
    + unfold is_encoded at 1. rewrite G, St. apply IH; try assumption. intros i t0 I. apply B. right. exact I.
    + unfold is_encoded at 1. rewrite G, St. apply IH; try assumption. intros i t0 I. apply B. right. exact I.
    + unfold is_encoded at 1. rewrite G, St. cbn [map concat].
      unfold finish_tile in H. cbv zeta in H.
      assert (Bt : zlen (tt_buf t) < 2 ^ 22)
        by (apply (B j); [left; reflexivity|unfold is_encoded; rewrite G, St; reflexivity|exact G]).
      destruct (encode_size _ _) as [d|] eqn:Es; cbn [bind fst snd] in H; [|discriminate].
      apply encode_size_ok in Es as [Ds _]; [|split; [apply zlen_nonneg|exact Bt]].
      set (te1 := set_tile te j (mk_tt Ready (tt_type t) (tt_buf t))) in *.
      assert (S1 : shape zstate te te1) by apply shape_set.
      destruct (K te1 S1) as [W1 [V3 [B1 M1]]].
      { intros i I. apply get_set_other; [exact V1| |intros ->; auto].
        rewrite Forall_forall in V2. apply V2. exact I. }
      destruct (IH te1 _ _ _ W1 N2 V3 B1 H) as [T [S2 Z2]].
      split; [|split; [eapply shape_trans; eassumption|rewrite Z2; reflexivity]].
      rewrite T, M1, append_tdata, Ds, !append_tdata. unfold emit at 2. rewrite G.
      rewrite <- !app_assoc. reflexivity.
Qed.

Lemma finish_enc : forall xp yp jobs te dst te' v, well_formed te -> NoDup jobs -> tdata dst = [] ->
  Forall (valid zstate te) jobs ->
  (forall j t, In j jobs -> is_encoded te j = true -> get_tile te j = Ok t -> zlen (tt_buf t) < 2 ^ 22) ->
  finish_loop xp yp jobs te dst = Ok (te', v) ->
  tdata v = concat (map (emit xp yp te) (filter (is_encoded te) jobs)) /\
  shape zstate te te' /\ te_zs te' = te_zs te.
Proof.
  intros xp yp jobs te dst te' v W N E V B H.
  destruct (finish_ok _ _ _ _ _ _ _ W N V B H) as [T R]. rewrite E in T. auto.
Qed.

(** Reading a tile. *)
Lemma tile_width_range : forall (te : tenc) x, well_formed te -> 0 <= x < te_gw te ->
  1 <= tight_tile_width te (x * TSL) <= 64 /\ x * TSL + tight_tile_width te (x * TSL) <= te_w te.
Proof. clear tj.
  intros te x [Wg [_ [_ [_ [Ww _]]]]] X. unfold tight_tile_width, TSL.
  destruct (Z.eq_dec (te_w te) 0) as [E|E].
  - rewrite E in Wg. cbn in Wg. lia.
  - pose proof (udiv_up (te_w te) ltac:(lia)) as [U _]. rewrite <- Wg in U.
    destruct (_ >? _) eqn:Q; lia.
Qed.

Lemma tile_height_range : forall (te : tenc) y, well_formed te -> 0 <= y < te_gh te ->
  1 <= tight_tile_height te (y * TSL) <= 64 /\ y * TSL + tight_tile_height te (y * TSL) <= te_h te.
Proof. clear tj.
  intros te y [_ [Wg [_ [_ [_ Wh]]]]] Y. unfold tight_tile_height, TSL.
  destruct (Z.eq_dec (te_h te) 0) as [E|E].
  - rewrite E in Wg. cbn in Wg. lia.
  - pose proof (udiv_up (te_h te) ltac:(lia)) as [U _]. rewrite <- Wg in U.
    destruct (_ >? _) eqn:Q; lia.
Qed.

Lemma agrees_fmt : forall f, tpixel_agrees (tf_dst f) ->
  calc_bytes_per_cpixel (tf_dst f) = tpixel_size (tf_dst f) /\ 1 <= tpixel_size (tf_dst f) <= 4 /\
  cfmt f = if is_tpixel3 (tf_dst f) then rgb_bytes else tf_dst f.
Proof. clear tj.
  intros f A. unfold tpixel_size, cfmt, calc_bytes_per_cpixel.
  destruct (is_tpixel3 (tf_dst f)) eqn:E.
  - unfold is_tpixel3 in E. replace (bits_per_pixel (tf_dst f) =? 32) with true by lia.
    replace (depth (tf_dst f)) with 24 by lia. repeat split; try reflexivity; lia.
  - destruct A as [A|[A|[A|[A D]]]]; [congruence| | |]; rewrite A.
    + repeat split; try reflexivity; lia.
    + repeat split; try reflexivity; lia.
    + change (32 =? 32) with true. cbv iota.
      assert ((depth (tf_dst f) + 8 - 1) / 8 = 4) as ->
        by (symmetry; apply Z.div_unique with (depth (tf_dst f) + 7 - 32); lia).
      repeat split; try reflexivity; lia.
Qed.

(** What becomes of one damaged tile. *)
Definition is_basic (f : tframe) : bool := negb have_jpeg || (tf_quality f >=? 10).

(** A JPEG rectangle, in terms of the model's table of names. *)
Definition jpeg_made (f : tframe) (xp yp : Z) (r : trect) : Prop :=
  exists image, t_data r = T_jpeg image /\
  match jpeg_pixfmt (tf_fourcc f) with
  | None => image = []
  | Some fmt =>
      exists img,
      (forall i j, 0 <= i < t_w r -> 0 <= j < t_h r ->
        get img ((j * t_w r + i) * (bits_per_pixel (tf_src f) / 8)) (bits_per_pixel (tf_src f) / 8) =
        get (tf_fb f) (((t_y r - yp + j) * tf_stride f + (t_x r - xp + i)) * (bits_per_pixel (tf_src f) / 8))
          (bits_per_pixel (tf_src f) / 8)) /\
      match tj fmt (11 * tf_quality f + 1) (t_w r) (t_h r) img with
      | None => image = []
      | Some out => image = if 32768 <? zlen out then [] else out
      end
  end.

Definition rect_of (xp yp : Z) (te : tenc) (j : job) (r : trect) : Prop :=
  t_x r = xp + fst j * TSL /\ t_y r = yp + snd j * TSL /\
  t_w r = tight_tile_width te (fst j * TSL) /\ t_h r = tight_tile_height te (snd j * TSL).

Variable istate : Type.
Variable inflate : istate -> list Z -> istate * list Z.
Variable synced : zstate -> istate -> Prop.
Hypothesis zlib : zlib_works zstate istate deflate inflate synced.

Lemma Forall2_set : forall A B (R : A -> B -> Prop) l l', Forall2 R l l' -> forall n x y, R x y ->
  Forall2 R (set_nth l n x) (set_nth l' n y).
Proof.
  intros A B R l l' F. induction F as [|a b l l' H F IH]; intros n x y P; cbn [set_nth]; [constructor|].
  destruct n; constructor; auto.
Qed.

Lemma stream_byte : forall m, 0 <= m < 4 -> existsb (Z.eqb (m * 16)) [0; 16; 32; 48] = true /\
  (m * 16 =? 144) = false /\ m * 16 / 16 = m.
Proof.
  intros m H. assert (m = 0 \/ m = 1 \/ m = 2 \/ m = 3) as [->|[->|[->| ->]]] by lia; repeat split; reflexivity.
Qed.

Lemma basic_tile_reads : forall f xp yp te j te1 sts t, well_formed te -> valid zstate te j ->
  is_basic f = true -> tpixel_agrees (tf_dst f) ->
  0 <= xp -> xp + te_w te <= 2 ^ 16 -> 0 <= yp -> yp + te_h te <= 2 ^ 16 ->
  12 <= tight_tile_width te (fst j * TSL) * tight_tile_height te (snd j * TSL) * tpixel_size (tf_dst f) ->
  streams_synced synced te sts -> get_tile te j = Ok t -> tt_state t = Damaged ->
  work_on f te j = Ok te1 ->
  exists r sts1, rect_of xp yp te j r /\ trect_shows f xp yp r /\ streams_synced synced te1 sts1 /\
    is_encoded te1 j = true /\ (forall t, get_tile te1 j = Ok t -> zlen (tt_buf t) < 2 ^ 22) /\
    forall rest, read_trect istate inflate (Z.to_nat (tpixel_size (tf_dst f))) sts (emit xp yp te1 j ++ rest)
      = Some (r, sts1, rest).
Proof.
  intros f xp yp te j te1 sts t W V Bm Ag X1 X2 Y1 Y2 Big Sy Gt St H.
  unfold Tight_Model.work_on in H. rewrite Gt in H. cbn [bind] in H. rewrite St in H.
  unfold tight_encode_tile in H. cbv zeta in H. unfold is_basic in Bm. rewrite Bm in H.
  pose proof (Z.mod_pos_bound (fst j) 4 ltac:(lia)) as Mb.
  destruct (nth_error (te_zs te) (Z.to_nat (fst j mod 4))) as [zs|] eqn:En; [|discriminate].
  destruct (encode_tile_basic _ _ _ _ _ _ _ _) as [[zs' buf]|] eqn:Eb; cbn [bind fst snd] in H; [|discriminate].
  apply ok_inj in H. destruct V as [Vx Vy].
  pose proof (tile_width_range te (fst j) W Vx) as [Tw1 Tw2].
  pose proof (tile_height_range te (snd j) W Vy) as [Th1 Th2].
  set (w := tight_tile_width te (fst j * TSL)) in *. set (h := tight_tile_height te (snd j * TSL)) in *.
  unfold encode_tile_basic in Eb. cbv zeta in Eb.
  assert (Sz : zlen buf < 2 ^ 22).
  { apply basic_rows_size in Eb; [unfold MAX_TILE_SIZE, TSL in Eb; lia|unfold MAX_TILE_SIZE, TSL; cbn; lia]. }
  apply basic_rows_ok in Eb as [rows [cps [Lr [-> [Eb [Cc [Fc [Lc G]]]]]]]]. cbn [app] in Eb.
  destruct (agrees_fmt f Ag) as [A1 [A2 A3]]. rewrite A1, A3 in *.
  rewrite !Z2Nat.id in G by lia.
  assert (Hst : exists st, nth_error sts (Z.to_nat (fst j mod 4)) = Some st /\ synced zs st).
  { destruct (Forall2_nth _ _ _ _ _ Sy _ _ En) as [st [N S]]. eauto. }
  destruct Hst as [st [Nst Sst]].
  destruct (zlib zs st rows Sst) as [st' [Inf Sy']].
  { intros E. rewrite E in Lr. cbn [length] in Lr. lia. }
  assert (Gt1 : get_tile te1 j = Ok (mk_tt Encoded (TIGHT_STREAM (fst j mod 4)) buf)).
  { rewrite <- H. apply get_set_same; [|split; assumption].
    unfold well_formed. cbn [te_w te_h te_gw te_gh te_grid te_zs]. rewrite set_nth_length. exact W. }
  assert (Sh : tight_tile_width te1 (fst j * TSL) = w /\ tight_tile_height te1 (snd j * TSL) = h)
    by (rewrite <- H; split; reflexivity). destruct Sh as [Sw Sh].
  exists (mk_trect (xp + fst j * TSL) (yp + snd j * TSL) w h (T_pixels cps)), (set_nth sts (Z.to_nat (fst j mod 4)) st').
  split; [unfold rect_of; cbn [t_x t_y t_w t_h]; auto|]. split; [|split; [|split; [|split]]].
  - exists cps. cbn [t_x t_y t_w t_h t_data]. split; [reflexivity|]. split; [rewrite Lc; lia|].
    intros i k Hi Hk. destruct (G i k Hi Hk) as [p [c [Gp [Cv N]]]]. exists p, c.
    split; [rewrite <- Gp; f_equal; ring|]. split; [exact Cv|exact N].
  - unfold streams_synced. rewrite <- H. cbn [te_zs set_tile]. apply Forall2_set; assumption.
  - unfold is_encoded. rewrite Gt1. reflexivity.
  - intros t0 G0. rewrite Gt1 in G0. injection G0 as <-. exact Sz.
  - intros rest. unfold emit. rewrite Gt1, Sw, Sh. cbn [tt_type tt_buf]. rewrite <- !app_assoc.
    unfold TSL in Tw2, Th2, Tw1, Th1.
    destruct (head_fields 7 (xp + fst j * TSL) (yp + snd j * TSL) w h
      ([TIGHT_STREAM (fst j mod 4)] ++ len_bytes (zlen buf) ++ buf ++ rest)) as [head [T [F1 [F2 [F3 [F4 F5]]]]]];
      [lia|unfold TSL; lia|unfold TSL; lia|lia|lia|].
    unfold read_trect. rewrite T, F1, F2, F3, F4, F5. change (7 =? 7) with true. cbn [app]. cbv iota.
    unfold TIGHT_STREAM. destruct (stream_byte _ Mb) as [Q1 [Q2 Q3]]. rewrite Q2, Q1, Q3.
    unfold read_basic.
    assert (Cw : (Z.to_nat (w * h) * Z.to_nat (tpixel_size (tf_dst f)) <? 12)%nat = false).
    { apply Nat.ltb_ge. rewrite <- Z2Nat.inj_mul by (try apply Z.mul_nonneg_nonneg; lia). lia. }
    rewrite Cw. rewrite read_len_bytes by (split; [apply zlen_nonneg|exact Sz]).
    rewrite Nst, take_zlen. rewrite <- Eb in Inf. rewrite Inf.
    replace (Z.to_nat (w * h)) with (length cps) by (rewrite Lc, Z2Nat.inj_mul by lia; lia).
    rewrite Cc. rewrite <- (app_nil_r (concat cps)).
    rewrite read_cpixels_concat; [reflexivity|]. rewrite Z2Nat.id by lia. exact Fc.
Qed.

Lemma jpeg_tile_reads : forall f xp yp te j te1 sts t size, well_formed te -> valid zstate te j ->
  is_basic f = false -> 0 <= bits_per_pixel (tf_src f) ->
  0 <= xp -> xp + te_w te <= 2 ^ 16 -> 0 <= yp -> yp + te_h te <= 2 ^ 16 ->
  streams_synced synced te sts -> get_tile te j = Ok t -> tt_state t = Damaged ->
  work_on f te j = Ok te1 ->
  exists r, rect_of xp yp te j r /\ jpeg_made f xp yp r /\ streams_synced synced te1 sts /\
    is_encoded te1 j = true /\ (forall t, get_tile te1 j = Ok t -> zlen (tt_buf t) < 2 ^ 22) /\
    forall rest, read_trect istate inflate size sts (emit xp yp te1 j ++ rest) = Some (r, sts, rest).
Proof.
  intros f xp yp te j te1 sts t size W V Bm Bs X1 X2 Y1 Y2 Sy Gt St H.
  unfold Tight_Model.work_on in H. rewrite Gt in H. cbn [bind] in H. rewrite St in H.
  unfold tight_encode_tile in H. cbv zeta in H. unfold is_basic in Bm. rewrite Bm in H.
  destruct (encode_tile_jpeg _ _ _ _ _ _) as [buf|] eqn:Eb; cbn [bind] in H; [|discriminate].
  apply ok_inj in H. pose proof V as [Vx Vy].
  pose proof (tile_width_range te (fst j) W Vx) as [Tw1 Tw2].
  pose proof (tile_height_range te (snd j) W Vy) as [Th1 Th2].
  set (w := tight_tile_width te (fst j * TSL)) in *. set (h := tight_tile_height te (snd j * TSL)) in *.
  assert (Gt1 : get_tile te1 j = Ok (mk_tt Encoded TIGHT_JPEG buf)) by (rewrite <- H; apply get_set_same; assumption).
  assert (Sh : tight_tile_width te1 (fst j * TSL) = w /\ tight_tile_height te1 (snd j * TSL) = h)
    by (rewrite <- H; split; reflexivity). destruct Sh as [Sw Sh].
  unfold encode_tile_jpeg in Eb. cbv zeta in Eb.
  assert (J : zlen buf < 2 ^ 22 /\
    match jpeg_pixfmt (tf_fourcc f) with
    | None => buf = []
    | Some fmt => exists img,
      copy_rows (Z.to_nat h) (tf_fb f) (fst j * TSL * (bits_per_pixel (tf_src f) / 8)
       + snd j * TSL * (tf_stride f * (bits_per_pixel (tf_src f) / 8)))
       (tf_stride f * (bits_per_pixel (tf_src f) / 8)) (w * (bits_per_pixel (tf_src f) / 8)) = Ok img /\
      match tj fmt (11 * tf_quality f + 1) w h img with
      | None => buf = []
      | Some out => buf = if 32768 <? zlen out then [] else out
      end
    end).
  { destruct (jpeg_pixfmt (tf_fourcc f)) as [fmt|]; [|injection Eb as <-; split; [cbn; lia|reflexivity]].
    destruct (copy_rows _ _ _ _ _) as [img|] eqn:Ec; cbn [bind] in Eb; [|discriminate].
    destruct (tj _ _ _ _ _) as [out|] eqn:Et.
    - apply ok_inj in Eb. unfold MAX_TILE_SIZE, TSL in Eb. subst buf. split.
      + destruct (_ >? _) eqn:Q; [cbn; lia|lia].
      + exists img. split; [reflexivity|]. rewrite Et. destruct (_ >? _) eqn:Q; destruct (_ <? _) eqn:Q2; lia || reflexivity.
    - injection Eb as <-. split; [cbn; lia|]. exists img. rewrite Et. auto. }
  destruct J as [Sz J].
  exists (mk_trect (xp + fst j * TSL) (yp + snd j * TSL) w h (T_jpeg buf)).
  split; [unfold rect_of; cbn [t_x t_y t_w t_h]; auto|]. split; [|split; [|split; [|split]]].
  - exists buf. cbn [t_x t_y t_w t_h t_data]. split; [reflexivity|].
    destruct (jpeg_pixfmt (tf_fourcc f)) as [fmt|]; [|exact J].
    destruct J as [img [C T]]. exists img. split; [|exact T].
    intros i k Hi Hk. assert (0 <= bits_per_pixel (tf_src f) / 8) by (apply Z.div_pos; lia).
    rewrite (copy_rows_px _ _ _ _ w (bits_per_pixel (tf_src f) / 8) _ ltac:(lia) ltac:(lia) C i k Hi)
      by (rewrite Z2Nat.id by lia; exact Hk).
    f_equal. ring.
  - unfold streams_synced. rewrite <- H. exact Sy.
  - unfold is_encoded. rewrite Gt1. reflexivity.
  - intros t0 G0. rewrite Gt1 in G0. injection G0 as <-. exact Sz.
  - intros rest. unfold emit. rewrite Gt1, Sw, Sh. cbn [tt_type tt_buf]. rewrite <- !app_assoc.
    unfold TSL in Tw2, Th2, Tw1, Th1.
    destruct (head_fields 7 (xp + fst j * TSL) (yp + snd j * TSL) w h
      ([TIGHT_JPEG] ++ len_bytes (zlen buf) ++ buf ++ rest)) as [head [T [F1 [F2 [F3 [F4 F5]]]]]];
      [lia|unfold TSL; lia|unfold TSL; lia|lia|lia|].
    unfold read_trect. rewrite T, F1, F2, F3, F4, F5. change (7 =? 7) with true. cbn [app]. cbv iota.
    change (TIGHT_JPEG =? 144) with true. cbv iota.
    rewrite read_len_bytes by (split; [apply zlen_nonneg|exact Sz]). rewrite take_zlen. reflexivity.
Qed.

(** The whole frame, tiles in order. *)
Lemma frame_reads : forall f xp yp l te te' sts, well_formed te -> NoDup l -> Forall (valid zstate te) l ->
  (is_basic f = true -> tpixel_agrees (tf_dst f) /\
     forall j, In j l -> is_damaged te j = true ->
     12 <= tight_tile_width te (fst j * TSL) * tight_tile_height te (snd j * TSL) * tpixel_size (tf_dst f)) ->
  0 <= bits_per_pixel (tf_src f) ->
  0 <= xp -> xp + te_w te <= 2 ^ 16 -> 0 <= yp -> yp + te_h te <= 2 ^ 16 ->
  streams_synced synced te sts -> (forall j, In j l -> is_encoded te j = false) ->
  work f te l = Ok te' ->
  exists rs sts', streams_synced synced te' sts' /\
    read_trects istate inflate (Z.to_nat (tpixel_size (tf_dst f))) (length rs) sts
      (concat (map (emit xp yp te') (filter (is_encoded te') l))) = Some (rs, sts') /\
    Forall2 (rect_of xp yp te) (filter (is_damaged te) l) rs /\
    Forall (fun r => if is_basic f then trect_shows f xp yp r else jpeg_made f xp yp r) rs /\
    filter (is_encoded te') l = filter (is_damaged te) l /\
    (forall j t, In j l -> is_damaged te j = true -> get_tile te' j = Ok t -> zlen (tt_buf t) < 2 ^ 22).
Proof.
  intros f xp yp. induction l as [|j l IH]; intros te te' sts W N V C Bs X1 X2 Y1 Y2 Sy Ne H;
    cbn [Tight_Model.work filter] in *.
  - injection H as <-. exists [], sts. repeat split; try assumption; try constructor. intros ? ? [].
  - destruct (work_on f te j) as [te1|] eqn:E; cbn [bind] in H; [|discriminate].
    inversion N as [|? ? N1 N2]; subst. inversion V as [|? ? V1 V2]; subst.
    pose proof (work_on_shape _ _ _ _ _ _ _ _ E) as S.
    assert (W1 : well_formed te1) by (apply (shape_wf zstate te); assumption).
    assert (V3 : Forall (valid zstate te1) l)
      by (eapply Forall_impl; [|exact V2]; intros k; apply shape_valid; exact S).
    assert (K : forall i, In i l -> get_tile te1 i = get_tile te i).
    { intros i I. apply (work_on_keeps f te j te1 i); [exact V1| |intros ->; auto|exact E].
      rewrite Forall_forall in V2. apply V2. exact I. }
    assert (Kd : forall i, In i l -> is_damaged te1 i = is_damaged te i)
      by (intros i I; unfold is_damaged; rewrite K by exact I; reflexivity).
    assert (Ke : forall i, In i l -> is_encoded te1 i = is_encoded te i)
      by (intros i I; unfold is_encoded; rewrite K by exact I; reflexivity).
    pose proof S as [Sw [Sh _]].
    assert (Kw : forall x, tight_tile_width te1 x = tight_tile_width te x)
      by (intros; unfold tight_tile_width; rewrite Sw; reflexivity).
    assert (Kh : forall x, tight_tile_height te1 x = tight_tile_height te x)
      by (intros; unfold tight_tile_height; rewrite Sh; reflexivity).
    assert (IH1 : forall sts1, streams_synced synced te1 sts1 -> exists rs sts', streams_synced synced te' sts' /\
      read_trects istate inflate (Z.to_nat (tpixel_size (tf_dst f))) (length rs) sts1
        (concat (map (emit xp yp te') (filter (is_encoded te') l))) = Some (rs, sts') /\
      Forall2 (rect_of xp yp te) (filter (is_damaged te) l) rs /\
      Forall (fun r => if is_basic f then trect_shows f xp yp r else jpeg_made f xp yp r) rs /\
      filter (is_encoded te') l = filter (is_damaged te) l /\
      (forall j t, In j l -> is_damaged te j = true -> get_tile te' j = Ok t -> zlen (tt_buf t) < 2 ^ 22)).
    { intros sts1 Sy1. destruct (IH te1 te' sts1) as [rs [sts' [R1 [R2 [R3 [R4 [R5 R6]]]]]]]; try assumption.
      - intros B. destruct (C B) as [Ag Big]. split; [exact Ag|]. intros i I D. rewrite Kw, Kh.
        apply Big; [right; exact I|rewrite <- Kd by exact I; exact D].
      - rewrite <- Sw; exact X2.
      - rewrite <- Sh; exact Y2.
      - intros i I. rewrite Ke by exact I. apply Ne. right. exact I.
      - exists rs, sts'. split; [exact R1|]. split; [exact R2|].
        assert (Fd : filter (is_damaged te1) l = filter (is_damaged te) l) by (apply filter_ext_in; exact Kd).
        rewrite Fd in *. split; [|split; [exact R4|split; [exact R5|]]].
        + eapply Forall2_impl; [|exact R3]. intros i r. unfold rect_of. rewrite Kw, Kh. auto.
        + intros i t I D. apply R6; [exact I|]. rewrite Kd by exact I. exact D. }
    assert (Gj : get_tile te' j = get_tile te1 j).
    { apply (work_keeps f l te1); [exact V3|apply (shape_valid zstate te); assumption|exact N1|exact H]. }
    assert (Ej : is_encoded te' j = is_encoded te1 j) by (unfold is_encoded; rewrite Gj; reflexivity).
    pose proof (work_shape _ _ _ _ _ _ _ _ H) as S'.
    destruct (is_damaged te j) eqn:D.
    + unfold is_damaged in D. destruct (get_tile te j) as [t|] eqn:Gt; [|discriminate].
      destruct (tt_state t) eqn:St; try discriminate.
      assert (T : exists r sts1, rect_of xp yp te j r /\
        (if is_basic f then trect_shows f xp yp r else jpeg_made f xp yp r) /\ streams_synced synced te1 sts1 /\
        is_encoded te1 j = true /\ (forall t, get_tile te1 j = Ok t -> zlen (tt_buf t) < 2 ^ 22) /\
        forall rest, read_trect istate inflate (Z.to_nat (tpixel_size (tf_dst f))) sts (emit xp yp te1 j ++ rest)
          = Some (r, sts1, rest)).
      { destruct (is_basic f) eqn:Bm.
        - destruct (C eq_refl) as [Ag Big].
          apply (basic_tile_reads f xp yp te j te1 sts t); try assumption.
          apply Big; [left; reflexivity|]. unfold is_damaged. rewrite Gt, St. reflexivity.
        - destruct (jpeg_tile_reads f xp yp te j te1 sts t (Z.to_nat (tpixel_size (tf_dst f))) W V1 Bm Bs X1 X2 Y1 Y2 Sy Gt St E)
            as [r [Q1 [Q2 [Q3 [Q4 [Q5 Q6]]]]]]. exists r, sts. auto 10. }
      destruct T as [r [sts1 [T1 [T2 [T3 [T4 [T5 T6]]]]]]].
      destruct (IH1 sts1 T3) as [rs [sts' [R1 [R2 [R3 [R4 [R5 R6]]]]]]].
      exists (r :: rs), sts'. rewrite Ej, T4. cbn [map concat length read_trects].
      rewrite (emit_shape xp yp te' te1 j (shape_sym _ _ _ S') Gj), T6, R2.
      split; [exact R1|]. split; [reflexivity|]. split; [constructor; assumption|].
      split; [constructor; assumption|]. split; [rewrite R5; reflexivity|].
      intros i t0 [<-|I] Dm G0; [apply T5; rewrite <- Gj; exact G0|apply (R6 i); assumption].
    + assert (E1 : te1 = te).
      { unfold Tight_Model.work_on in E. unfold is_damaged in D.
        destruct (get_tile te j) as [t|]; cbn [bind] in E; [|discriminate].
        destruct (tt_state t); try discriminate; injection E as <-; reflexivity. }
      subst te1. destruct (IH1 sts Sy) as [rs [sts' [R1 [R2 [R3 [R4 [R5 R6]]]]]]].
      rewrite Ej, (Ne j (or_introl eq_refl)).
      exists rs, sts'. split; [exact R1|]. split; [exact R2|]. split; [exact R3|]. split; [exact R4|].
      split; [exact R5|]. intros i t0 [<-|I] Dm G0; [|apply (R6 i); assumption].
      unfold is_damaged in D, Dm. congruence.
Qed.
End T.
