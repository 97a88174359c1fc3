(** Proofs about the damage refinery. *)
From Verif Require Import Common CommonProofs Zrle_Model Transform_Model Transform_Spec Refinery_Model Refinery_Spec.

Lemma range_in a b x : In x (range a b) <-> a <= x < b.
Proof.
  unfold range. rewrite in_map_iff. split.
  - intros (i & E & Hi). apply in_seq in Hi. lia.
  - intros H. exists (Z.to_nat (x - a)). split; [lia|]. apply in_seq. lia.
Qed.

Lemma range_S a b : a < b -> range a b = a :: range (a + 1) b.
Proof.
  intros H. unfold range. replace (Z.to_nat (b - a)) with (Datatypes.S (Z.to_nat (b - (a + 1)))) by lia.
  cbn [seq map]. f_equal; [lia|]. rewrite <- seq_shift, map_map. apply map_ext. intros i. lia.
Qed.

Lemma range_empty a b : b <= a -> range a b = [].
Proof. intros H. unfold range. replace (Z.to_nat (b - a)) with 0%nat by lia. reflexivity. Qed.

Lemma int16_small v : 0 <= v < 32768 -> int16 v = v.
Proof.
  intros H. unfold int16, to_signed. change (2 ^ 16) with 65536. change (2 ^ (16 - 1)) with 32768.
  rewrite Z.mod_small by lia. destruct (v <? 32768) eqn:E; lia.
Qed.

Lemma int32_small v : 0 <= v < 2 ^ 31 -> to_signed 32 v = v.
Proof.
  intros H. unfold to_signed. change (2 ^ 31) with 2147483648 in H. change (2 ^ 32) with 4294967296.
  change (2 ^ (32 - 1)) with 2147483648.
  rewrite Z.mod_small by lia. destruct (v <? 2147483648) eqn:E; lia.
Qed.

Lemma tiles_up_small v : 0 <= v <= 32736 -> tiles_up v = (v + 31) / 32.
Proof.
  intros H. unfold tiles_up. rewrite Z.mod_small by (change (2 ^ 32) with 4294967296; lia).
  f_equal. lia.
Qed.

Lemma tile_rows_ok n mem : forall off bs len,
  0 <= off -> 0 <= len -> 0 <= bs -> (forall i, 0 <= i < Z.of_nat n -> off + i * bs + len <= zlen mem) ->
  tile_rows n mem off bs len =
    Ok (flat_map (fun i => firstn (Z.to_nat len) (skipn (Z.to_nat (off + i * bs)) mem)) (range 0 (Z.of_nat n))).
Proof.
  induction n; intros off bs len H0 H1 H2 H.
  - reflexivity.
  - cbn [tile_rows]. unfold get at 1.
    assert (G : (0 <=? off) && (0 <=? len) && (off + len <=? Z.of_nat (length mem)) = true).
    { assert (H' := H 0 ltac:(lia)). unfold zlen in H'. rewrite Z.mul_0_l in H'.
      rewrite !andb_true_iff, !Z.leb_le. lia. }
    rewrite G. cbn [bind].
    rewrite IHn; [|lia|lia|lia|].
    + cbn [bind]. rewrite (range_S 0 (Z.of_nat (Datatypes.S n))) by lia. cbn [flat_map]. f_equal. f_equal.
      * rewrite Z.mul_0_l, Z.add_0_r. reflexivity.
      * assert (R : range (0 + 1) (Z.of_nat (Datatypes.S n)) = map (fun i => i + 1) (range 0 (Z.of_nat n))).
        { unfold range. rewrite map_map.
          replace (Z.to_nat (Z.of_nat (Datatypes.S n) - (0 + 1))) with (Z.to_nat (Z.of_nat n - 0)) by lia.
          apply map_ext. intros i. lia. }
        rewrite R. rewrite !flat_map_concat_map, map_map. f_equal. apply map_ext. intros i.
        f_equal. f_equal. f_equal. lia.
    + intros i Hi. specialize (H (i + 1)). lia.
Qed.

Lemma range_shift a n : range a (a + n) = map (fun i => a + i) (range 0 n).
Proof.
  unfold range. rewrite map_map. replace (a + n - a) with (n - 0) by lia. apply map_ext. intros i. lia.
Qed.

Definition in_grid (w h tx ty : Z) : Prop := 0 <= tx /\ 32 * tx < w /\ 0 <= ty /\ 32 * ty < h.

Lemma hash_tile_ok xxh r p tx ty :
  sound p -> rf_w r = pic_w p -> rf_h r = pic_h p -> in_grid (pic_w p) (pic_h p) tx ty ->
  hash_tile xxh r tx ty (pic_mem p) (pic_stride p) (pic_bpp p) = Ok (xxh (tile_bytes p tx ty) mod 2 ^ 32).
Proof.
  intros (W & H & B & St & M) Ew Eh (X0 & X1 & Y0 & Y1).
  unfold hash_tile, tile_bytes. rewrite Ew, Eh.
  assert (2 ^ 31 = 2147483648) by reflexivity. assert (2 ^ 32 = 4294967296) by reflexivity.
  assert (Ex : Z.min (((tx + 1) * 32) mod 2 ^ 32) (pic_w p) = Z.min (32 * tx + 32) (pic_w p)).
  { rewrite Z.mod_small by lia. lia. }
  assert (Ey : Z.min (((ty + 1) * 32) mod 2 ^ 32) (pic_h p) = Z.min (32 * ty + 32) (pic_h p)).
  { rewrite Z.mod_small by lia. lia. }
  rewrite Ex, Ey. rewrite !int32_small by lia.
  set (xe := Z.min (32 * tx + 32) (pic_w p)). set (ye := Z.min (32 * ty + 32) (pic_h p)).
  assert (Hxe : 32 * tx < xe <= pic_w p) by lia. assert (Hye : 32 * ty < ye <= pic_h p) by lia.
  rewrite tile_rows_ok.
  - cbn [bind]. f_equal. f_equal. f_equal.
    rewrite Z2Nat.id by lia.
    replace ye with (32 * ty + (ye - ty * 32)) at 2 by lia.
    rewrite range_shift, !flat_map_concat_map, map_map. f_equal. apply map_ext. intros i.
    f_equal; [f_equal; lia|]. f_equal. f_equal. ring.
  - assert (0 <= pic_stride p * pic_bpp p) by (apply Z.mul_nonneg_nonneg; lia).
    apply Z.add_nonneg_nonneg; apply Z.mul_nonneg_nonneg; lia.
  - apply Z.mul_nonneg_nonneg; lia.
  - apply Z.mul_nonneg_nonneg; lia.
  - intros i Hi. rewrite Z2Nat.id in Hi by lia.
    assert ((ty * 32 + i) + 1 <= pic_h p) by lia.
    assert (A : tx * 32 * pic_bpp p + ty * 32 * (pic_stride p * pic_bpp p) + i * (pic_stride p * pic_bpp p)
            + pic_bpp p * (xe - tx * 32) = ((ty * 32 + i) * pic_stride p + xe) * pic_bpp p) by ring.
    rewrite A. transitivity (pic_h p * pic_stride p * pic_bpp p); [|exact M].
    apply Z.mul_le_mono_nonneg_r; [exact B|]. nia.
Qed.

(** The table of hashes, as a function of the tile. *)
Definition entry (r : refinery) (tx ty : Z) : Z :=
  nth (Z.to_nat (tx + ty * ((rf_w r + 31) / 32))) (rf_hashes r) 0.

Definition table_ok (r : refinery) : Prop :=
  0 <= rf_w r <= 32736 /\ 0 <= rf_h r <= 32736 /\
  Z.of_nat (length (rf_hashes r)) = ((rf_w r + 31) / 32) * ((rf_h r + 31) / 32).

Lemma grid_index w h tx ty :
  0 <= w -> 0 <= h -> in_grid w h tx ty ->
  0 <= tx < (w + 31) / 32 /\ 0 <= ty < (h + 31) / 32 /\
  0 <= tx + ty * ((w + 31) / 32) < ((w + 31) / 32) * ((h + 31) / 32).
Proof.
  intros W H (X0 & X1 & Y0 & Y1).
  assert (tx + 1 <= (w + 31) / 32) by (apply Z.div_le_lower_bound; lia).
  assert (ty + 1 <= (h + 31) / 32) by (apply Z.div_le_lower_bound; lia).
  split; [lia|]. split; [lia|]. nia.
Qed.

Lemma index_inj n tx ty tx' ty' :
  0 <= tx < n -> 0 <= tx' < n -> tx + ty * n = tx' + ty' * n -> tx = tx' /\ ty = ty'.
Proof. intros A B E. assert (ty = ty') by nia. subst. lia. Qed.

Lemma in_grid_dec w h tx ty : {in_grid w h tx ty} + {~ in_grid w h tx ty}.
Proof.
  unfold in_grid. destruct (Z_le_dec 0 tx); [|right; lia]. destruct (Z_lt_dec (32 * tx) w); [|right; lia].
  destruct (Z_le_dec 0 ty); [|right; lia]. destruct (Z_lt_dec (32 * ty) h); [|right; lia]. left. lia.
Qed.

Lemma put_nth l i v : 0 <= i < Z.of_nat (length l) ->
  exists l', put l i [v] = Ok l' /\ length l' = length l /\
    forall j, nth j l' 0 = if Nat.eqb j (Z.to_nat i) then v else nth j l 0.
Proof.
  intros H. unfold put. assert (G : (0 <=? i) && (i + Z.of_nat (length [v]) <=? Z.of_nat (length l)) = true)
    by (cbn [length]; lia).
  rewrite G. eexists. split; [reflexivity|]. split.
  - rewrite !app_length, firstn_length, skipn_length. cbn [length]. lia.
  - intros j. assert (Lf : length (firstn (Z.to_nat i) l) = Z.to_nat i) by (rewrite firstn_length; lia).
    destruct (Nat.eqb_spec j (Z.to_nat i)).
    + subst j. rewrite app_nth2 by lia. rewrite Lf, Nat.sub_diag. reflexivity.
    + destruct (Nat.lt_ge_cases j (Z.to_nat i)).
      * rewrite app_nth1 by lia. rewrite <- (firstn_skipn (Z.to_nat i) l) at 2. rewrite app_nth1 by lia. reflexivity.
      * rewrite app_nth2 by lia. rewrite Lf.
        rewrite app_nth2 by (cbn [length]; lia). cbn [length].
        rewrite <- (firstn_skipn (Z.to_nat i + 1) l) at 2.
        rewrite app_nth2 by (rewrite firstn_length; lia). f_equal. rewrite firstn_length. lia.
Qed.

Lemma refine_tile_ok xxh r p tx ty :
  sound p -> rf_w r = pic_w p -> rf_h r = pic_h p -> table_ok r -> in_grid (pic_w p) (pic_h p) tx ty ->
  exists hs, refine_tile xxh r tx ty (pic_mem p) (pic_stride p) (pic_bpp p) =
      Ok (mk_rf (rf_w r) (rf_h r) hs, negb (xxh (tile_bytes p tx ty) mod 2 ^ 32 =? entry r tx ty)) /\
    table_ok (mk_rf (rf_w r) (rf_h r) hs) /\
    forall tx' ty', in_grid (pic_w p) (pic_h p) tx' ty' ->
      entry (mk_rf (rf_w r) (rf_h r) hs) tx' ty' =
      if (tx' =? tx) && (ty' =? ty) then xxh (tile_bytes p tx ty) mod 2 ^ 32 else entry r tx' ty'.
Proof.
  intros Sd Ew Eh (Tw & Th & Tl) G.
  unfold refine_tile. rewrite hash_tile_ok by assumption. cbn [bind].
  pose proof G as G'. rewrite <- Ew, <- Eh in G'.
  destruct (grid_index _ _ _ _ (proj1 Tw) (proj1 Th) G') as (I1 & I2 & I3).
  assert (Ix : hash_index r tx ty = tx + ty * ((rf_w r + 31) / 32)).
  { unfold hash_index. rewrite tiles_up_small by lia. apply Z.mod_small.
    assert ((rf_w r + 31) / 32 <= 1024) by (apply Z.div_le_upper_bound; lia).
    assert ((rf_h r + 31) / 32 <= 1024) by (apply Z.div_le_upper_bound; lia).
    change (2 ^ 32) with 4294967296. nia. }
  rewrite Ix. set (ix := tx + ty * ((rf_w r + 31) / 32)) in *.
  assert (Gt : get (rf_hashes r) ix 1 = Ok [nth (Z.to_nat ix) (rf_hashes r) 0]).
  { unfold get. assert (Gd : (0 <=? ix) && (0 <=? 1) && (ix + 1 <=? Z.of_nat (length (rf_hashes r))) = true) by lia.
    rewrite Gd. f_equal. change (Z.to_nat 1) with 1%nat.
    assert (L : (Z.to_nat ix < length (rf_hashes r))%nat) by lia.
    clear -L. revert L. generalize (Z.to_nat ix) (rf_hashes r). intros n l. revert n.
    induction l; intros [|n] H; cbn in *; try lia; [reflexivity|apply IHl; lia]. }
  rewrite Gt. cbn [bind].
  destruct (put_nth (rf_hashes r) ix (xxh (tile_bytes p tx ty) mod 2 ^ 32)) as (hs & Ep & Lp & Np); [lia|].
  rewrite Ep. cbn [bind hd]. exists hs. split; [reflexivity|]. split.
  - unfold table_ok. cbn [rf_w rf_h rf_hashes]. rewrite Lp. lia.
  - intros tx' ty' Hg. unfold entry. cbn [rf_w rf_h rf_hashes]. rewrite Np.
    rewrite <- Ew, <- Eh in Hg. destruct (grid_index _ _ _ _ (proj1 Tw) (proj1 Th) Hg) as (J1 & J2 & J3).
    destruct ((tx' =? tx) && (ty' =? ty)) eqn:Q.
    + assert (tx' = tx /\ ty' = ty) as [-> ->] by lia. fold ix. rewrite Nat.eqb_refl. reflexivity.
    + destruct (Nat.eqb_spec (Z.to_nat (tx' + ty' * ((rf_w r + 31) / 32))) (Z.to_nat ix)) as [E|]; [|reflexivity].
      exfalso. assert (E2 : tx' + ty' * ((rf_w r + 31) / 32) = ix) by lia.
      apply (index_inj ((rf_w r + 31) / 32)) in E2; [|lia|lia]. lia.
Qed.

Lemma union_tile_in l tx ty x y : 0 <= tx -> 32 * tx + 32 <= 32767 -> 0 <= ty -> 32 * ty + 32 <= 32767 ->
  in_region (union_rect l (tx * 32) (ty * 32) 32 32) x y <-> in_region l x y \/ (x / 32 = tx /\ y / 32 = ty).
Proof.
  intros X0 X1 Y0 Y1. unfold union_rect. rewrite !int16_small by lia. cbn [Zrle_Model.x1 Zrle_Model.x2 Zrle_Model.y1 Zrle_Model.y2].
  assert (G : (tx * 32 <? tx * 32 + 32) && (ty * 32 <? ty * 32 + 32) = true) by lia. rewrite G.
  unfold in_region. split.
  - intros (b & Hb & R). apply in_app_iff in Hb. destruct Hb as [Hb|[<-|[]]].
    + left. eauto.
    + right. cbn in R. split; symmetry; [apply Z.div_unique with (r := x - 32 * tx)|apply Z.div_unique with (r := y - 32 * ty)]; lia.
  - intros [(b & Hb & R)|[E1 E2]].
    + exists b. split; [apply in_app_iff; auto|exact R].
    + eexists. split; [apply in_app_iff; right; left; reflexivity|]. cbn.
      pose proof (Z.div_mod x 32). pose proof (Z.div_mod y 32).
      pose proof (Z.mod_pos_bound x 32). pose proof (Z.mod_pos_bound y 32). lia.
Qed.

Lemma pair_dec (a b : Z * Z) : {a = b} + {a <> b}.
Proof. decide equality; apply Z.eq_dec. Qed.

Lemma refine_tiles_ok xxh p : sound p ->
  forall ts r refined, rf_w r = pic_w p -> rf_h r = pic_h p -> table_ok r ->
  Forall (fun t => in_grid (pic_w p) (pic_h p) (fst t) (snd t)) ts ->
  exists r' refined', refine_tiles xxh ts r refined (pic_mem p) (pic_stride p) (pic_bpp p) = Ok (r', refined') /\
    rf_w r' = pic_w p /\ rf_h r' = pic_h p /\ table_ok r' /\
    (forall tx ty, in_grid (pic_w p) (pic_h p) tx ty ->
       (In (tx, ty) ts -> entry r' tx ty = xxh (tile_bytes p tx ty) mod 2 ^ 32) /\
       (~ In (tx, ty) ts -> entry r' tx ty = entry r tx ty)) /\
    (forall x y, in_region refined' x y <->
       in_region refined x y \/
       (In (x / 32, y / 32) ts /\ xxh (tile_bytes p (x / 32) (y / 32)) mod 2 ^ 32 <> entry r (x / 32) (y / 32))).
Proof.
  intros Sd. induction ts as [|[tx ty] ts IH]; intros r refined Ew Eh T F.
  - exists r, refined. cbn. do 4 (split; [tauto|]). split; [intros; tauto|]. intros. tauto.
  - inversion F as [|t l G F']; subst. cbn [fst snd] in G. cbn [refine_tiles].
    destruct Sd as (W & H & Sd'). pose proof G as (G0 & G1 & G2 & G3).
    rewrite (Z.mod_small tx) by (change (2 ^ 32) with 4294967296; lia).
    rewrite (Z.mod_small ty) by (change (2 ^ 32) with 4294967296; lia).
    destruct (refine_tile_ok xxh r p tx ty (conj W (conj H Sd')) Ew Eh T G) as (hs & E & T' & En).
    rewrite E. cbn [bind].
    set (ch := negb (xxh (tile_bytes p tx ty) mod 2 ^ 32 =? entry r tx ty)) in *.
    destruct (IH (mk_rf (rf_w r) (rf_h r) hs) (if ch then union_rect refined (tx * 32) (ty * 32) 32 32 else refined)
                Ew Eh T' F') as (r' & rd' & E' & Ew' & Eh' & T'' & A & B).
    exists r', rd'. rewrite E'. split; [reflexivity|]. split; [exact Ew'|]. split; [exact Eh'|]. split; [exact T''|].
    split.
    + intros tx' ty' Hg. destruct (A tx' ty' Hg) as [A1 A2]. pose proof (En tx' ty' Hg) as En'.
      destruct (in_dec pair_dec (tx', ty') ts) as [I|I].
      * split; [intros _; apply A1, I|]. intros N. exfalso. apply N. right. exact I.
      * specialize (A2 I). rewrite A2, En'. destruct ((tx' =? tx) && (ty' =? ty)) eqn:Q.
        -- assert (tx' = tx /\ ty' = ty) as [-> ->] by lia. split; [reflexivity|]. intros N. exfalso. apply N. left. reflexivity.
        -- split; [|reflexivity]. intros [I'|I']; [injection I' as -> ->; lia|contradiction].
    + intros x y. rewrite B.
      assert (U : in_region (if ch then union_rect refined (tx * 32) (ty * 32) 32 32 else refined) x y <->
                  in_region refined x y \/ (ch = true /\ x / 32 = tx /\ y / 32 = ty)).
      { destruct ch; [rewrite union_tile_in by lia; intuition|intuition discriminate]. }
      rewrite U.
      assert (Hch : ch = true <-> xxh (tile_bytes p tx ty) mod 2 ^ 32 <> entry r tx ty).
      { unfold ch. rewrite negb_true_iff. apply Z.eqb_neq. }
      cbn [In]. split.
      * intros [[R|(C & <- & <-)]|[I N]].
        -- left. exact R.
        -- right. split; [left; reflexivity|apply Hch, C].
        -- assert (Hg : in_grid (pic_w p) (pic_h p) (x / 32) (y / 32)).
           { rewrite Forall_forall in F'. apply (F' (x / 32, y / 32) I). }
           rewrite (En _ _ Hg) in N. destruct ((x / 32 =? tx) && (y / 32 =? ty)) eqn:Q.
           ++ exfalso. apply N. assert (x / 32 = tx /\ y / 32 = ty) as [-> ->] by lia. reflexivity.
           ++ right. split; [right; exact I|exact N].
      * intros [R|[[I|I] N]].
        -- left. left. exact R.
        -- injection I as E1 E2. left. right. rewrite <- E1, <- E2 in N. split; [apply Hch, N|split; congruence].
        -- assert (Hg : in_grid (pic_w p) (pic_h p) (x / 32) (y / 32)).
           { rewrite Forall_forall in F'. apply (F' (x / 32, y / 32) I). }
           destruct ((x / 32 =? tx) && (y / 32 =? ty)) eqn:Q.
           ++ assert (Q2 : x / 32 = tx /\ y / 32 = ty) by lia. destruct Q2 as [Q2 Q3].
              left. right. rewrite Q2, Q3 in N. split; [apply Hch, N|split; assumption].
           ++ right. split; [exact I|]. rewrite (En _ _ Hg), Q. exact N.
Qed.

Lemma in_tiles_in rects tx ty :
  In (tx, ty) (tiles_in rects) <-> in_region rects tx ty.
Proof.
  unfold tiles_in, in_region. rewrite in_flat_map. split.
  - intros (b & Hb & H). apply in_flat_map in H. destruct H as (ty' & Hy & H). apply in_map_iff in H.
    destruct H as (tx' & E & Hx). injection E as -> ->. apply range_in in Hx. apply range_in in Hy. eauto.
  - intros (b & Hb & X & Y). exists b. split; [exact Hb|]. apply in_flat_map. exists ty.
    split; [apply range_in; lia|]. apply in_map_iff. exists tx. split; [reflexivity|]. apply range_in. lia.
Qed.

Lemma tile_region_in w h src : forall dst tx ty,
  0 <= w <= 32736 -> 0 <= h <= 32736 -> region_within src w h ->
  in_region (tile_region src dst) tx ty <-> in_region dst tx ty \/ touchesb src tx ty = true.
Proof.
  induction src as [|b src IH]; intros dst tx ty W H F.
  - cbn. intuition discriminate.
  - inversion F as [|b' l Hb F']; subst. cbn [tile_region].
    rewrite IH by assumption. clear IH.
    rewrite !Z.quot_div_nonneg by lia.
    set (a1 := x1 b / 32). set (a2 := (x2 b + 32 - 1) / 32). set (c1 := y1 b / 32). set (c2 := (y2 b + 32 - 1) / 32).
    assert (Da : 0 <= a1 < a2 /\ a2 <= 1024).
    { subst a1 a2. split; [split; [apply Z.div_pos; lia|]|apply Z.div_le_upper_bound; lia].
      apply Z.div_lt_upper_bound; [lia|]. pose proof (Z.div_mod (x2 b + 32 - 1) 32). pose proof (Z.mod_pos_bound (x2 b + 32 - 1) 32). lia. }
    assert (Dc : 0 <= c1 < c2 /\ c2 <= 1024).
    { subst c1 c2. split; [split; [apply Z.div_pos; lia|]|apply Z.div_le_upper_bound; lia].
      apply Z.div_lt_upper_bound; [lia|]. pose proof (Z.div_mod (y2 b + 32 - 1) 32). pose proof (Z.mod_pos_bound (y2 b + 32 - 1) 32). lia. }
    assert (Tx : a1 <= tx < a2 <-> x1 b < 32 * tx + 32 /\ 32 * tx < x2 b).
    { subst a1 a2. pose proof (Z.div_mod (x2 b + 32 - 1) 32). pose proof (Z.mod_pos_bound (x2 b + 32 - 1) 32).
      pose proof (Z.div_mod (x1 b) 32). pose proof (Z.mod_pos_bound (x1 b) 32). lia. }
    assert (Ty : c1 <= ty < c2 <-> y1 b < 32 * ty + 32 /\ 32 * ty < y2 b).
    { subst c1 c2. pose proof (Z.div_mod (y2 b + 32 - 1) 32). pose proof (Z.mod_pos_bound (y2 b + 32 - 1) 32).
      pose proof (Z.div_mod (y1 b) 32). pose proof (Z.mod_pos_bound (y1 b) 32). lia. }
    assert (U : in_region (union_rect dst a1 c1 (a2 - a1) (c2 - c1)) tx ty <->
                in_region dst tx ty \/ (a1 <= tx < a2 /\ c1 <= ty < c2)).
    { unfold union_rect. replace (a1 + (a2 - a1)) with a2 by lia. replace (c1 + (c2 - c1)) with c2 by lia.
      rewrite !int16_small by lia. cbn [Zrle_Model.x1 Zrle_Model.x2 Zrle_Model.y1 Zrle_Model.y2].
      assert (G : (a1 <? a2) && (c1 <? c2) = true) by lia. rewrite G. unfold in_region. split.
      - intros (q & Hq & R). apply in_app_iff in Hq. destruct Hq as [Hq|[<-|[]]]; [left; eauto|right; exact R].
      - intros [(q & Hq & R)|R].
        + exists q. split; [apply in_app_iff; auto|exact R].
        + eexists. split; [apply in_app_iff; right; left; reflexivity|exact R]. }
    rewrite U. unfold touchesb. cbn [existsb]. rewrite orb_true_iff.
    assert (Bx : (x1 b <? 32 * tx + 32) && (32 * tx <? x2 b) && (y1 b <? 32 * ty + 32) && (32 * ty <? y2 b)
                    && (x1 b <? x2 b) && (y1 b <? y2 b) = true <-> (a1 <= tx < a2 /\ c1 <= ty < c2)).
    { rewrite Tx, Ty. lia. }
    rewrite Bx. tauto.
Qed.

Lemma touchesb_touches damage tx ty : touchesb damage tx ty = true <-> touches damage tx ty.
Proof.
  unfold touchesb, touches, in_region. rewrite existsb_exists. split.
  - intros (b & Hb & E). exists (Z.max (x1 b) (32 * tx)), (Z.max (y1 b) (32 * ty)).
    split; [exists b; split; [exact Hb|lia]|].
    split; symmetry; [apply Z.div_unique with (r := Z.max (x1 b) (32 * tx) - 32 * tx)|apply Z.div_unique with (r := Z.max (y1 b) (32 * ty) - 32 * ty)]; lia.
  - intros (x & y & (b & Hb & R) & <- & <-). exists b. split; [exact Hb|].
    pose proof (Z.div_mod x 32). pose proof (Z.div_mod y 32).
    pose proof (Z.mod_pos_bound x 32). pose proof (Z.mod_pos_bound y 32). lia.
Qed.

Lemma clip_in w h l x y : 0 <= w < 32768 -> 0 <= h < 32768 ->
  in_region (clip w h l) x y <-> in_region l x y /\ 0 <= x < w /\ 0 <= y < h.
Proof.
  intros W H. unfold clip, in_region. rewrite !int16_small by lia. split.
  - intros (b & Hb & R). apply filter_In in Hb. destruct Hb as [Hb _]. apply in_map_iff in Hb.
    destruct Hb as (b' & <- & Hb). cbn in R. split; [exists b'; split; [exact Hb|lia]|lia].
  - intros ((b & Hb & R) & X & Y). exists (mk_box (Z.max 0 (x1 b)) (Z.max 0 (y1 b)) (Z.min w (x2 b)) (Z.min h (y2 b))).
    split; [|cbn; lia]. apply filter_In. split; [apply in_map_iff; exists b; auto|]. cbn. lia.
Qed.

Lemma damage_refine_ok xxh rects_of r p hint :
  keeps_points rects_of -> sound p -> region_within hint (pic_w p) (pic_h p) ->
  rf_w r = pic_w p -> rf_h r = pic_h p -> table_ok r ->
  exists r' out, damage_refine xxh rects_of r [] hint p = Ok (r', out) /\
    rf_w r' = pic_w p /\ rf_h r' = pic_h p /\ table_ok r' /\
    (forall tx ty, in_grid (pic_w p) (pic_h p) tx ty ->
       entry r' tx ty = if touchesb hint tx ty then xxh (tile_bytes p tx ty) mod 2 ^ 32 else entry r tx ty) /\
    (forall x y, in_region out x y <->
       0 <= x < pic_w p /\ 0 <= y < pic_h p /\ touchesb hint (x / 32) (y / 32) = true /\
       xxh (tile_bytes p (x / 32) (y / 32)) mod 2 ^ 32 <> entry r (x / 32) (y / 32)).
Proof.
  intros K Sd Hw Ew Eh T. unfold damage_refine.
  rewrite Ew, Eh, !Z.eqb_refl. cbn [andb negb].
  assert (W : 0 < pic_w p <= 32736) by apply Sd. assert (H : 0 < pic_h p <= 32736) by apply Sd.
  assert (Hin : forall tx ty, In (tx, ty) (tiles_in (rects_of (tile_region hint []))) <-> touchesb hint tx ty = true).
  { intros. rewrite in_tiles_in, (K _ _ _), (tile_region_in (pic_w p) (pic_h p)) by (try lia; assumption).
    split; [intros [(b & [] & _)|]; assumption|right; assumption]. }
  destruct (refine_tiles_ok xxh p Sd (tiles_in (rects_of (tile_region hint []))) r [] Ew Eh T)
    as (r' & rd & E & Ew' & Eh' & T' & A & B).
  { rewrite Forall_forall. intros [tx ty] I. apply Hin in I. cbn [fst snd].
    unfold touchesb in I. rewrite existsb_exists in I. destruct I as (b & Hb & I).
    unfold region_within in Hw. rewrite Forall_forall in Hw. specialize (Hw b Hb). unfold in_grid. lia. }
  rewrite E. cbn [bind]. rewrite Ew', Eh'. eexists _, _. split; [reflexivity|].
  do 3 (split; [assumption|]). split.
  - intros tx ty Hg. destruct (A tx ty Hg) as [A1 A2]. destruct (touchesb hint tx ty) eqn:Q.
    + apply A1, Hin, Q.
    + apply A2. rewrite Hin. congruence.
  - intros x y. rewrite clip_in by lia. rewrite B. rewrite Hin. split.
    + intros [[(b & [] & _)|[]] []]; auto.
    + tauto.
Qed.

Lemma table_init w h : 0 <= w <= 32736 -> 0 <= h <= 32736 ->
  table_ok (refinery_init w h) /\ rf_w (refinery_init w h) = w /\ rf_h (refinery_init w h) = h /\
  forall tx ty, entry (refinery_init w h) tx ty = 0.
Proof.
  intros W H. unfold refinery_init, table_ok, entry. cbn [rf_w rf_h rf_hashes].
  split; [|split; [reflexivity|split; [reflexivity|]]].
  - split; [exact W|]. split; [exact H|]. rewrite repeat_length, !tiles_up_small by lia.
    assert (0 <= (w + 31) / 32 <= 1024) by (split; [apply Z.div_pos|apply Z.div_le_upper_bound]; lia).
    assert (0 <= (h + 31) / 32 <= 1024) by (split; [apply Z.div_pos|apply Z.div_le_upper_bound]; lia).
    rewrite Z.mod_small by (change (2 ^ 32) with 4294967296; nia). rewrite Z2Nat.id by nia. reflexivity.
  - intros. generalize (Z.to_nat (tx + ty * ((w + 31) / 32))) (Z.to_nat ((tiles_up w * tiles_up h) mod 2 ^ 32)).
    intros n m. revert n. induction m; intros [|n]; cbn; auto.
Qed.

Lemma proper_sound f : proper f -> sound (f_pic f) /\ region_within (f_damage f) (pic_w (f_pic f)) (pic_h (f_pic f)).
Proof. intros H. exact H. Qed.

(** What holds of the refinery after any frames. *)
Lemma feeds_ok xxh rects_of : keeps_points rects_of ->
  forall frames, Forall proper frames ->
  exists r outs, feeds xxh rects_of frames = Ok (r, outs) /\ table_ok r /\ length outs = length frames /\
    (forall w h tx ty, 0 < w <= 32736 -> 0 < h <= 32736 -> in_grid w h tx ty ->
       entry (refinery_resize r w h) tx ty = remembered xxh frames w h tx ty).
Proof.
  intros K. induction frames as [|f frames IH]; intros F.
  - destruct (table_init 0 0) as (T & Ew & Eh & En); [lia|lia|].
    exists (refinery_init 0 0), []. split; [reflexivity|]. split; [exact T|]. split; [reflexivity|].
    intros w h tx ty W H G. unfold refinery_resize. rewrite Ew, Eh.
    assert (Q : (w =? 0) && (h =? 0) = false) by lia. rewrite Q. cbn [remembered]. apply table_init; lia.
  - inversion F as [|f' l P F']; subst. destruct (IH F') as (r & outs & E & T & L & R).
    destruct (proper_sound f P) as [Sd Hw]. cbn [feeds]. rewrite E. cbn [bind]. unfold feed_damage.
    destruct (f_clients f) eqn:C.
    + assert (W : 0 < pic_w (f_pic f) <= 32736) by apply Sd. assert (H : 0 < pic_h (f_pic f) <= 32736) by apply Sd.
      assert (Tz : table_ok (refinery_resize r (pic_w (f_pic f)) (pic_h (f_pic f))) /\
                   rf_w (refinery_resize r (pic_w (f_pic f)) (pic_h (f_pic f))) = pic_w (f_pic f) /\
                   rf_h (refinery_resize r (pic_w (f_pic f)) (pic_h (f_pic f))) = pic_h (f_pic f)).
      { unfold refinery_resize. destruct ((pic_w (f_pic f) =? rf_w r) && (pic_h (f_pic f) =? rf_h r)) eqn:Q.
        - split; [exact T|lia].
        - destruct (table_init (pic_w (f_pic f)) (pic_h (f_pic f))) as (A & B & D & _); [lia|lia|]. tauto. }
      destruct Tz as (Tz & Zw & Zh).
      destruct (damage_refine_ok xxh rects_of _ (f_pic f) (f_damage f) K Sd Hw Zw Zh Tz)
        as (r' & out & E' & Ew' & Eh' & T' & A & _).
      rewrite E'. cbn [bind]. exists r', (out :: outs). split; [reflexivity|]. split; [exact T'|].
      split; [cbn [length]; lia|]. intros w h tx ty W2 H2 G. cbn [remembered]. rewrite C. cbn [andb].
      unfold refinery_resize at 1. rewrite Ew', Eh'.
      destruct ((pic_w (f_pic f) =? w) && (pic_h (f_pic f) =? h)) eqn:Q.
      * assert (w = pic_w (f_pic f) /\ h = pic_h (f_pic f)) as [-> ->] by lia. rewrite !Z.eqb_refl. cbn [andb].
        rewrite A by exact G. destruct (touchesb (f_damage f) tx ty); [reflexivity|]. apply R; assumption.
      * assert (Q2 : (w =? pic_w (f_pic f)) && (h =? pic_h (f_pic f)) = false) by lia. rewrite Q2.
        apply table_init; lia.
    + cbn [bind]. exists (refinery_resize r 0 0), (f_damage f :: outs). split; [reflexivity|].
      assert (Tz : table_ok (refinery_resize r 0 0) /\ rf_w (refinery_resize r 0 0) = 0 /\ rf_h (refinery_resize r 0 0) = 0).
      { unfold refinery_resize. destruct ((0 =? rf_w r) && (0 =? rf_h r)) eqn:Q.
        - split; [exact T|lia].
        - destruct (table_init 0 0) as (A & B & D & _); [lia|lia|]. tauto. }
      destruct Tz as (Tz & Zw & Zh). split; [exact Tz|]. split; [cbn [length]; lia|].
      intros w h tx ty W2 H2 G. cbn [remembered]. rewrite C. cbn [andb].
      unfold refinery_resize at 1. rewrite Zw, Zh. assert (Q : (w =? 0) && (h =? 0) = false) by lia. rewrite Q.
      apply table_init; lia.
Qed.

Lemma feed_exact xxh rects_of before f : keeps_points rects_of -> Forall proper before -> proper f ->
  exists r out outs, feeds xxh rects_of (f :: before) = Ok (r, out :: outs) /\
    length outs = length before /\
    if f_clients f then
      forall x y, in_region out x y <->
        0 <= x < pic_w (f_pic f) /\ 0 <= y < pic_h (f_pic f) /\
        touches (f_damage f) (x / 32) (y / 32) /\
        xxh (tile_bytes (f_pic f) (x / 32) (y / 32)) mod 2 ^ 32
          <> remembered xxh before (pic_w (f_pic f)) (pic_h (f_pic f)) (x / 32) (y / 32)
    else out = f_damage f.
Proof.
  intros K F P. destruct (feeds_ok xxh rects_of K before F) as (r & outs & E & T & L & R).
  destruct (proper_sound f P) as [Sd Hw]. cbn [feeds]. rewrite E. cbn [bind]. unfold feed_damage.
  destruct (f_clients f) eqn:C.
  - assert (W : 0 < pic_w (f_pic f) <= 32736) by apply Sd. assert (H : 0 < pic_h (f_pic f) <= 32736) by apply Sd.
    assert (Tz : table_ok (refinery_resize r (pic_w (f_pic f)) (pic_h (f_pic f))) /\
                 rf_w (refinery_resize r (pic_w (f_pic f)) (pic_h (f_pic f))) = pic_w (f_pic f) /\
                 rf_h (refinery_resize r (pic_w (f_pic f)) (pic_h (f_pic f))) = pic_h (f_pic f)).
    { unfold refinery_resize. destruct ((pic_w (f_pic f) =? rf_w r) && (pic_h (f_pic f) =? rf_h r)) eqn:Q.
      - split; [exact T|lia].
      - destruct (table_init (pic_w (f_pic f)) (pic_h (f_pic f))) as (A & B & D & _); [lia|lia|]. tauto. }
    destruct Tz as (Tz & Zw & Zh).
    destruct (damage_refine_ok xxh rects_of _ (f_pic f) (f_damage f) K Sd Hw Zw Zh Tz)
      as (r' & out & E' & Ew' & Eh' & T' & _ & B).
    rewrite E'. cbn [bind]. exists r', out, outs. split; [reflexivity|]. split; [exact L|].
    intros x y. rewrite B, touchesb_touches.
    assert (G : 0 <= x < pic_w (f_pic f) -> 0 <= y < pic_h (f_pic f) -> in_grid (pic_w (f_pic f)) (pic_h (f_pic f)) (x / 32) (y / 32)).
    { intros X Y. unfold in_grid. pose proof (Z.div_mod x 32). pose proof (Z.div_mod y 32).
      pose proof (Z.mod_pos_bound x 32). pose proof (Z.mod_pos_bound y 32).
      assert (0 <= x / 32) by (apply Z.div_pos; lia). assert (0 <= y / 32) by (apply Z.div_pos; lia). lia. }
    split; intros (X & Y & Q & N); (split; [exact X|split; [exact Y|split; [exact Q|]]]);
      pose proof (R _ _ _ _ W H (G X Y)) as Re; [rewrite <- Re|rewrite Re]; exact N.
  - cbn [bind]. eexists _, _, _. split; [reflexivity|]. split; [exact L|reflexivity].
Qed.

Lemma repeated (l : list Z) : NoDup l \/ exists a l1 l2 l3, l = l1 ++ a :: l2 ++ a :: l3.
Proof.
  induction l as [|a l [N|(b & l1 & l2 & l3 & E)]].
  - left. constructor.
  - destruct (in_dec Z.eq_dec a l) as [I|I].
    + right. apply in_split in I. destruct I as (l2 & l3 & ->). exists a, [], l2, l3. reflexivity.
    + left. constructor; assumption.
  - right. exists b, (a :: l1), l2, l3. rewrite E. reflexivity.
Qed.

Lemma pigeonhole (n : nat) (f : nat -> Z) :
  (forall i, 0 <= f i < Z.of_nat n) -> exists i j, (i < j <= n)%nat /\ f i = f j.
Proof.
  intros H.
  destruct (repeated (map f (seq 0 (Datatypes.S n)))) as [N|(a & l1 & l2 & l3 & E)].
  - exfalso. assert (L := NoDup_incl_length N (l' := map Z.of_nat (seq 0 n))).
    rewrite !map_length, !seq_length in L. enough (Datatypes.S n <= n)%nat by lia. apply L.
    intros v Hv. apply in_map_iff in Hv. destruct Hv as (i & <- & _). apply in_map_iff.
    exists (Z.to_nat (f i)). specialize (H i). split; [lia|]. apply in_seq. lia.
  - exists (length l1), (length l1 + 1 + length l2)%nat.
    assert (Len := f_equal (@length Z) E).
    rewrite map_length, seq_length, app_length in Len. cbn [length] in Len. rewrite app_length in Len. cbn [length] in Len.
    split; [lia|].
    assert (A : forall k, (k < Datatypes.S n)%nat -> nth k (map f (seq 0 (Datatypes.S n))) 0 = f k).
    { intros k Hk. rewrite nth_indep with (d' := f 0%nat) by (rewrite map_length, seq_length; lia).
      rewrite map_nth, seq_nth by lia. reflexivity. }
    rewrite <- A by lia. rewrite <- (A (length l1 + 1 + length l2)%nat) by lia. rewrite E.
    rewrite app_nth2 by lia. rewrite Nat.sub_diag.
    rewrite app_nth2 by lia. replace (length l1 + 1 + length l2 - length l1)%nat with (Datatypes.S (length l2)) by lia.
    cbn [nth]. rewrite app_nth2 by lia. rewrite Nat.sub_diag. reflexivity.
Qed.

