From Verif Require Import Common CommonProofs Ws_Proofs WsStream_Proofs Pixels_Model Pixels_Spec.

Lemma popcount_ones : forall b, 0 <= b <= 16 -> popcount (2 ^ b - 1) = b.
Proof.
  intros b H.
  assert (E : forallb (fun b => popcount (2 ^ b - 1) =? b) (zrange 17) = true) by (vm_compute; reflexivity).
  rewrite forallb_forall in E. apply Z.eqb_eq. apply E. apply zrange_in. lia.
Qed.

Lemma popcount_bound : forall v, 0 <= popcount v <= 16.
Proof.
  assert (G : forall n v, 0 <= popcount_bits n v <= Z.of_nat n).
  { induction n; intros v; cbn [popcount_bits]; [lia|].
    specialize (IHn (v / 2)). pose proof (Z.mod_pos_bound v 2). lia. }
  intros v. apply (G 16%nat).
Qed.

Lemma pow2_pos : forall k, 0 <= k -> 0 < 2 ^ k.
Proof. intros. apply Z.pow_pos_nonneg; lia. Qed.

Lemma channel_bound : forall a v, 0 <= f_bits a -> 0 <= channel a v < 2 ^ f_bits a.
Proof. intros a v H. apply Z.mod_pos_bound. apply pow2_pos. exact H. Qed.

Lemma rescale_bound : forall s d x, 0 <= f_bits s -> 0 <= f_bits d -> 0 <= x < 2 ^ f_bits s ->
  0 <= rescale s d x < 2 ^ f_bits d.
Proof.
  intros s d x Hs Hd H. unfold rescale.
  pose proof (pow2_pos _ Hs). pose proof (pow2_pos _ Hd). split.
  - apply Z.div_pos; nia.
  - apply Z.div_lt_upper_bound; nia.
Qed.

Lemma land_ones_max : forall v b, 0 <= b -> Z.land v (2 ^ b - 1) = v mod 2 ^ b.
Proof. intros v b H. rewrite <- Z.land_ones by lia. rewrite Z.ones_equiv. reflexivity. Qed.

Lemma convert_channel_ok : forall px s d ss ds, 0 <= px < 2 ^ 32 -> inside 32 s -> inside 32 d ->
  ss = f_shift s -> 0 <= ds < 32 -> ds + f_bits d <= 32 ->
  convert_channel px ss (2 ^ f_bits s - 1) (f_bits s) (f_bits d) ds
  = Ok (rescale s d (channel s px) * 2 ^ ds).
Proof.
  intros px s d ss ds Hp Hs Hd -> H1 H2.
  destruct Hs as [B1 [S1 S2]]. destruct Hd as [B2 [S3 S4]].
  pose proof (channel_bound s px ltac:(lia)) as C.
  pose proof (rescale_bound s d _ ltac:(lia) ltac:(lia) C) as RB.
  unfold convert_channel, shr32, shl32.
  replace (f_shift s <? 32) with true by lia. cbn [bind].
  rewrite land_ones_max by lia. fold (channel s px).
  replace (f_bits d <? 32) with true by lia. cbn [bind].
  assert (M1 : 0 <= channel s px * 2 ^ f_bits d < 2 ^ 32).
  { pose proof (pow2_pos (f_bits d) ltac:(lia)). split; [nia|].
    apply Z.lt_le_trans with (2 ^ f_bits s * 2 ^ f_bits d); [nia|].
    rewrite <- Z.pow_add_r by lia. apply Z.pow_le_mono_r; lia. }
  rewrite (Z.mod_small _ _ M1).
  replace (f_bits s <? 32) with true by lia. cbn [bind].
  replace (ds <? 32) with true by lia. fold (rescale s d (channel s px)). f_equal.
  apply Z.mod_small. pose proof (pow2_pos ds ltac:(lia)). split; [nia|].
  apply Z.lt_le_trans with (2 ^ f_bits d * 2 ^ ds); [nia|].
  rewrite <- Z.pow_add_r by lia. apply Z.pow_le_mono_r; lia.
Qed.

(** Fields as bits. *)
Lemma field_testbit : forall a s n, 0 <= s -> 0 <= n ->
  Z.testbit (a * 2 ^ s) n = if n <? s then false else Z.testbit a (n - s).
Proof.
  intros a s n Hs Hn. rewrite <- Z.shiftl_mul_pow2 by lia.
  destruct (n <? s) eqn:E.
  - apply Z.shiftl_spec_low. lia.
  - apply Z.shiftl_spec. lia.
Qed.

Lemma field_testbit_out : forall a s b n, 0 <= s -> 0 <= b -> 0 <= n -> 0 <= a < 2 ^ b ->
  n < s \/ s + b <= n -> Z.testbit (a * 2 ^ s) n = false.
Proof.
  intros a s b n Hs Hb Hn Ha H. rewrite field_testbit by lia.
  destruct (n <? s) eqn:E; [reflexivity|]. apply (testbit_small a (n - s) b); lia.
Qed.

Lemma land_apart : forall a s b a' s' b', 0 <= s -> 0 <= b -> 0 <= s' -> 0 <= b' ->
  0 <= a < 2 ^ b -> 0 <= a' < 2 ^ b' -> s + b <= s' \/ s' + b' <= s ->
  Z.land (a * 2 ^ s) (a' * 2 ^ s') = 0.
Proof.
  intros. apply Z.bits_inj'. intros n Hn. rewrite Z.land_spec, Z.bits_0.
  destruct (Z_lt_le_dec n s).
  - rewrite (field_testbit_out a s b) by lia. reflexivity.
  - destruct (Z_lt_le_dec n (s + b)).
    + rewrite (field_testbit_out a' s' b') by lia. apply andb_false_r.
    + rewrite (field_testbit_out a s b) by lia. reflexivity.
Qed.

Lemma lor_sum : forall x y, Z.land x y = 0 -> Z.lor x y = x + y.
Proof. intros x y H. rewrite Z.add_nocarry_lxor, Z.lxor_lor; auto. Qed.

Section Three.
Variable r g b : field.
Variable x y z : Z.
Hypothesis inr_ : 0 <= f_bits r /\ 0 <= f_shift r.
Hypothesis ing : 0 <= f_bits g /\ 0 <= f_shift g.
Hypothesis inb : 0 <= f_bits b /\ 0 <= f_shift b.
Hypothesis rg : apart r g.
Hypothesis rb : apart r b.
Hypothesis gb : apart g b.
Hypothesis hx : 0 <= x < 2 ^ f_bits r.
Hypothesis hy : 0 <= y < 2 ^ f_bits g.
Hypothesis hz : 0 <= z < 2 ^ f_bits b.

Lemma lor_compose :
  Z.lor (Z.lor (x * 2 ^ f_shift r) (y * 2 ^ f_shift g)) (z * 2 ^ f_shift b) = compose r g b x y z.
Proof.
  unfold apart, compose in *.
  assert (L1 : Z.land (x * 2 ^ f_shift r) (y * 2 ^ f_shift g) = 0)
    by (apply (land_apart x _ (f_bits r) y _ (f_bits g)); lia).
  rewrite lor_sum; [rewrite lor_sum; [reflexivity|exact L1]|].
  rewrite Z.land_lor_distr_l.
  rewrite (land_apart x _ (f_bits r) z _ (f_bits b)) by lia.
  rewrite (land_apart y _ (f_bits g) z _ (f_bits b)) by lia. reflexivity.
Qed.

Lemma channel_testbit : forall a v n, 0 <= f_bits a -> 0 <= f_shift a -> 0 <= n ->
  Z.testbit (channel a v) n = if n <? f_bits a then Z.testbit v (n + f_shift a) else false.
Proof.
  intros a v n Hb Hs Hn. unfold channel. rewrite Z.testbit_mod_pow2 by lia.
  destruct (n <? f_bits a); [|reflexivity]. cbn [andb].
  rewrite Z.div_pow2_bits by lia. reflexivity.
Qed.

Lemma compose_channels :
  channel r (compose r g b x y z) = x /\
  channel g (compose r g b x y z) = y /\
  channel b (compose r g b x y z) = z.
Proof.
  rewrite <- lor_compose. unfold apart in *.
  repeat split; apply Z.bits_inj'; intros n Hn; rewrite channel_testbit by lia;
    rewrite !Z.lor_spec.
  - destruct (n <? f_bits r) eqn:E.
    + rewrite (field_testbit_out y (f_shift g) (f_bits g)) by lia.
      rewrite (field_testbit_out z (f_shift b) (f_bits b)) by lia.
      rewrite !orb_false_r, field_testbit by lia.
      replace (n + f_shift r <? f_shift r) with false by lia. f_equal. lia.
    + symmetry. apply (testbit_small x n (f_bits r)); lia.
  - destruct (n <? f_bits g) eqn:E.
    + rewrite (field_testbit_out x (f_shift r) (f_bits r)) by lia.
      rewrite (field_testbit_out z (f_shift b) (f_bits b)) by lia.
      rewrite orb_false_r, field_testbit by lia. cbn [orb].
      replace (n + f_shift g <? f_shift g) with false by lia. f_equal. lia.
    + symmetry. apply (testbit_small y n (f_bits g)); lia.
  - destruct (n <? f_bits b) eqn:E.
    + rewrite (field_testbit_out x (f_shift r) (f_bits r)) by lia.
      rewrite (field_testbit_out y (f_shift g) (f_bits g)) by lia.
      cbn [orb]. rewrite field_testbit by lia.
      replace (n + f_shift b <? f_shift b) with false by lia. f_equal. lia.
    + symmetry. apply (testbit_small z n (f_bits b)); lia.
Qed.

(** All bits lie in [lo, hi). *)
Lemma compose_bound : forall m, 0 <= m -> f_shift r + f_bits r <= m -> f_shift g + f_bits g <= m ->
  f_shift b + f_bits b <= m -> 0 <= compose r g b x y z < 2 ^ m.
Proof.
  intros m Hm H1 H2 H3. rewrite <- lor_compose.
  pose proof (pow2_pos (f_shift r) ltac:(lia)). pose proof (pow2_pos (f_shift g) ltac:(lia)).
  pose proof (pow2_pos (f_shift b) ltac:(lia)).
  set (v := Z.lor _ _).
  assert (0 <= v) by (unfold v; rewrite !Z.lor_nonneg; nia).
  split; [assumption|].
  destruct (Z.eq_dec v 0) as [->|N]; [apply pow2_pos; lia|].
  apply Z.log2_lt_pow2; [lia|].
  destruct (Z_lt_le_dec (Z.log2 v) m) as [L|L]; [exact L|exfalso].
  pose proof (Z.bit_log2 v ltac:(lia)) as T. unfold v in T at 1.
  rewrite !Z.lor_spec in T.
  rewrite (field_testbit_out x (f_shift r) (f_bits r)) in T by lia.
  rewrite (field_testbit_out y (f_shift g) (f_bits g)) in T by lia.
  rewrite (field_testbit_out z (f_shift b) (f_bits b)) in T by lia. discriminate.
Qed.
End Three.

(** The value a pixel is converted to. *)
Definition converted (sr sg sb dr dg db : field) (v : Z) : Z :=
  compose dr dg db (rescale sr dr (channel sr v)) (rescale sg dg (channel sg v))
    (rescale sb db (channel sb v)).

Definition moved (m : Z) (a : field) : field := mk_field (f_shift a - m) (f_bits a).

Lemma compose_moved : forall m r g b x y z, 0 <= m -> m <= f_shift r -> m <= f_shift g -> m <= f_shift b ->
  compose (moved m r) (moved m g) (moved m b) x y z * 2 ^ m = compose r g b x y z.
Proof.
  intros m r g b x y z Hm H1 H2 H3. unfold compose, moved. cbn [f_shift].
  rewrite <- (Z.sub_add m (f_shift r)) at 2. rewrite <- (Z.sub_add m (f_shift g)) at 2.
  rewrite <- (Z.sub_add m (f_shift b)) at 2. rewrite !Z.pow_add_r by lia. ring.
Qed.

Lemma convert_pixel_ok : forall dst src sr sg sb dr dg db m px,
  has_fields src sr sg sb -> has_fields dst dr dg db ->
  fields_ok 32 sr sg sb -> fields_ok 32 dr dg db -> 0 <= px < 2 ^ 32 ->
  0 <= m -> m <= f_shift dr -> m <= f_shift dg -> m <= f_shift db ->
  convert_pixel dst src (red_shift dst - m) (green_shift dst - m) (blue_shift dst - m) px
  = Ok (converted sr sg sb (moved m dr) (moved m dg) (moved m db) px).
Proof.
  intros dst src sr sg sb dr dg db m px Hs Hd Fs Fd Hp M0 M1 M2 M3.
  destruct Hs as [_ [S1 [S2 [S3 [S4 [S5 S6]]]]]]. destruct Hd as [_ [D1 [D2 [D3 [D4 [D5 D6]]]]]].
  destruct Fs as [I1 [I2 [I3 _]]]. destruct Fd as [J1 [J2 [J3 [A1 [A2 A3]]]]].
  unfold convert_pixel. rewrite S1, S2, S3, S4, S5, S6, D1, D2, D3, D4, D5, D6.
  rewrite !popcount_ones by (unfold inside in *; lia).
  assert (K1 : inside 32 (moved m dr)) by (unfold inside, moved in *; cbn [f_shift f_bits]; lia).
  assert (K2 : inside 32 (moved m dg)) by (unfold inside, moved in *; cbn [f_shift f_bits]; lia).
  assert (K3 : inside 32 (moved m db)) by (unfold inside, moved in *; cbn [f_shift f_bits]; lia).
  rewrite (convert_channel_ok px sr (moved m dr)) by (auto; unfold inside, moved in *; cbn [f_shift f_bits]; lia).
  cbn [bind].
  rewrite (convert_channel_ok px sg (moved m dg)) by (auto; unfold inside, moved in *; cbn [f_shift f_bits]; lia).
  cbn [bind].
  rewrite (convert_channel_ok px sb (moved m db)) by (auto; unfold inside, moved in *; cbn [f_shift f_bits]; lia).
  cbn [bind]. f_equal. unfold converted.
  apply (lor_compose (moved m dr) (moved m dg) (moved m db));
    try (unfold inside, apart, moved in *; cbn [f_shift f_bits]; lia);
    apply rescale_bound; try (unfold inside in *; cbn [moved f_bits]; lia);
    apply channel_bound; unfold inside in *; lia.
Qed.

Lemma converted_bound : forall m sr sg sb dr dg db v, fields_ok 32 sr sg sb -> fields_ok m dr dg db ->
  0 <= converted sr sg sb dr dg db v < 2 ^ m.
Proof.
  intros m sr sg sb dr dg db v [I1 [I2 [I3 _]]] [J1 [J2 [J3 [A1 [A2 A3]]]]]. unfold converted.
  unfold inside in *.
  apply compose_bound; try (auto; lia); apply rescale_bound; try lia; apply channel_bound; lia.
Qed.

Lemma converted_channels : forall m sr sg sb dr dg db v, fields_ok 32 sr sg sb -> fields_ok m dr dg db ->
  channel dr (converted sr sg sb dr dg db v) = rescale sr dr (channel sr v) /\
  channel dg (converted sr sg sb dr dg db v) = rescale sg dg (channel sg v) /\
  channel db (converted sr sg sb dr dg db v) = rescale sb db (channel sb v).
Proof.
  intros m sr sg sb dr dg db v [I1 [I2 [I3 _]]] [J1 [J2 [J3 [A1 [A2 A3]]]]]. unfold converted.
  unfold inside in *.
  apply compose_channels; try (auto; lia); apply rescale_bound; try lia; apply channel_bound; lia.
Qed.

(** Bytes. *)
Lemma byte_at_be : forall v k, 0 <= k -> byte_at v k = (v / 2 ^ k) mod 256.
Proof. intros. unfold byte_at. change 255 with (Z.ones 8). rewrite Z.land_ones by lia. reflexivity. Qed.

Lemma be4 : forall v, be 4 v = [byte_at v 24; byte_at v 16; byte_at v 8; byte_at v 0].
Proof.
  intros. rewrite !byte_at_be by lia. cbn [be app]. rewrite Z.pow_0_r, Z.div_1_r.
  rewrite !Z.div_div by lia. reflexivity.
Qed.
Lemma be3 : forall v, be 3 v = [byte_at v 16; byte_at v 8; byte_at v 0].
Proof.
  intros. rewrite !byte_at_be by lia. cbn [be app]. rewrite Z.pow_0_r, Z.div_1_r.
  rewrite !Z.div_div by lia. reflexivity.
Qed.
Lemma be2 : forall v, be 2 v = [byte_at v 8; byte_at v 0].
Proof.
  intros. rewrite !byte_at_be by lia. cbn [be app]. rewrite Z.pow_0_r, Z.div_1_r. reflexivity.
Qed.
Lemma be1 : forall v, be 1 v = [byte_at v 0].
Proof. intros. rewrite !byte_at_be by lia. cbn [be app]. rewrite Z.pow_0_r, Z.div_1_r. reflexivity. Qed.

(** What one pixel becomes, for any number of bytes; [m] bits dropped at the
    bottom. *)
Lemma emit_pixel_ok : forall n dst src sr sg sb dr dg db px m,
  has_fields src sr sg sb -> has_fields dst dr dg db ->
  fields_ok 32 sr sg sb -> fields_ok 32 dr dg db -> 0 <= px < 2 ^ 32 -> 1 <= n <= 4 ->
  m = (if n =? 3 then min_shift dst else 0) ->
  0 <= m -> m <= f_shift dr -> m <= f_shift dg -> m <= f_shift db ->
  emit_pixel n dst src px
  = Ok (pixel_bytes dst (Z.to_nat n) (converted sr sg sb (moved m dr) (moved m dg) (moved m db) px)).
Proof.
  intros n dst src sr sg sb dr dg db px m Hs Hd Fs Fd Hp Hn Em M0 M1 M2 M3.
  pose proof (convert_pixel_ok dst src sr sg sb dr dg db m px Hs Hd Fs Fd Hp M0 M1 M2 M3) as C.
  assert (n = 1 \/ n = 2 \/ n = 3 \/ n = 4) as [->|[->|[->| ->]]] by lia;
    cbn [Z.eqb Pos.eqb] in Em; unfold emit_pixel, pixel_bytes, le; cbv zeta.
  1, 2, 4: rewrite Em, !Z.sub_0_r in C; rewrite C; cbn [bind]; rewrite Em.
  - rewrite be1. destruct (big_endian_flag dst =? 0); reflexivity.
  - change (Z.to_nat 2) with 2%nat. rewrite be2. destruct (big_endian_flag dst =? 0); reflexivity.
  - change (Z.to_nat 4) with 4%nat. rewrite be4. destruct (big_endian_flag dst =? 0); reflexivity.
  - rewrite <- Em, C. cbn [bind]. change (Z.to_nat 3) with 3%nat. rewrite be3.
    destruct (big_endian_flag dst =? 0); reflexivity.
Qed.

Lemma unle_le : forall n v, 0 <= v < 256 ^ Z.of_nat n -> unle (le n v) = v.
Proof. intros n v H. unfold unle, le. rewrite rev_involutive. apply unbe_be. exact H. Qed.

Lemma le_length : forall n v, length (le n v) = n.
Proof. intros. unfold le. rewrite rev_length. apply be_length. Qed.

(** The loop is a map. *)
Lemma emit_pixels_map : forall px n step dst src (f : Z -> list Z) pre post,
  0 <= step -> Forall (fun v => 0 <= v < 256 ^ step /\ emit_pixel n dst src v = Ok (f v)) px ->
  emit_pixels (length px) n step dst src
    (pre ++ concat (map (le (Z.to_nat step)) px) ++ post) (zlen pre)
  = Ok (concat (map f px)).
Proof.
  induction px as [|v px IH]; intros n step dst src f pre post Hst H; [reflexivity|].
  inversion H as [|? ? [Hv He] Hr]; subst. cbn [length emit_pixels map concat].
  rewrite <- (app_assoc (le _ _)).
  assert (Ls : zlen (le (Z.to_nat step) v) = step) by (unfold zlen; rewrite le_length; lia).
  assert (G : get (pre ++ le (Z.to_nat step) v ++ concat (map (le (Z.to_nat step)) px) ++ post)
                (zlen pre) step = Ok (le (Z.to_nat step) v)).
  { rewrite <- Ls at 3. apply get_mid. }
  rewrite G. cbn [bind]. rewrite unle_le by (rewrite Z2Nat.id by lia; exact Hv). rewrite He. cbn [bind].
  replace (zlen pre + step) with (zlen (pre ++ le (Z.to_nat step) v)) by (rewrite zlen_app; lia).
  rewrite app_assoc. rewrite (IH n step dst src f) by auto. reflexivity.
Qed.

Lemma asserts_ok : forall n dst src, true_colour_flag src <> 0 -> depth src <= 32 ->
  true_colour_flag dst <> 0 -> bits_per_pixel dst <= 32 -> depth dst <= 32 -> 1 <= n <= 4 ->
  asserts n dst src = true.
Proof. intros. unfold asserts. lia. Qed.

Definition src_bytes (src : pixfmt) : Z := if bits_per_pixel src =? 32 then 4 else bits_per_pixel src / 8.

Lemma pixel_to_cpixel_loop : forall n dst src mem off len, asserts n dst src = true ->
  pixel_to_cpixel n dst src mem off len = emit_pixels len n (src_bytes src) dst src mem off.
Proof.
  intros n dst src mem off len A. unfold pixel_to_cpixel, pixel32_to_cpixel, src_bytes.
  rewrite A. destruct (bits_per_pixel src =? 32); reflexivity.
Qed.

(** No fault for any format with shifts below 32, whatever the maxima. *)
Definition shifts_ok (f : pixfmt) : Prop :=
  0 <= red_shift f < 32 /\ 0 <= green_shift f < 32 /\ 0 <= blue_shift f < 32.

Lemma convert_channel_total : forall px ss sm sb db ds, ss < 32 -> sb < 32 -> db < 32 -> ds < 32 ->
  exists v, convert_channel px ss sm sb db ds = Ok v.
Proof.
  intros. unfold convert_channel, shr32, shl32.
  replace (ss <? 32) with true by lia. replace (sb <? 32) with true by lia.
  replace (db <? 32) with true by lia. replace (ds <? 32) with true by lia.
  cbn [bind]. eauto.
Qed.

Lemma convert_pixel_total : forall dst src rs gs bs px, shifts_ok src -> rs < 32 -> gs < 32 -> bs < 32 ->
  exists v, convert_pixel dst src rs gs bs px = Ok v.
Proof.
  intros dst src rs gs bs px [H1 [H2 H3]] R G B. unfold convert_pixel.
  pose proof (popcount_bound (red_max src)). pose proof (popcount_bound (red_max dst)).
  pose proof (popcount_bound (green_max src)). pose proof (popcount_bound (green_max dst)).
  pose proof (popcount_bound (blue_max src)). pose proof (popcount_bound (blue_max dst)).
  edestruct (convert_channel_total px (red_shift src)) as [a E1];
    [| | | |rewrite E1; cbn [bind]]; try lia.
  edestruct (convert_channel_total px (green_shift src)) as [b E2];
    [| | | |rewrite E2; cbn [bind]]; try lia.
  edestruct (convert_channel_total px (blue_shift src)) as [c E3];
    [| | | |rewrite E3; cbn [bind]]; try lia.
  eauto.
Qed.

Lemma min_shift_le : forall f, shifts_ok f ->
  0 <= min_shift f /\ min_shift f <= red_shift f /\ min_shift f <= green_shift f /\
  min_shift f <= blue_shift f.
Proof.
  intros f [H1 [H2 H3]]. unfold min_shift.
  destruct ((bits_per_pixel f =? 32) && (depth f <=? 24)); [|lia].
  cbv zeta. destruct (red_shift f >? green_shift f) eqn:E1;
    match goal with |- context [if ?c then _ else _] => destruct c eqn:E2 end; lia.
Qed.

Lemma emit_pixel_total : forall n dst src px, shifts_ok src -> shifts_ok dst -> 1 <= n <= 4 ->
  exists l, emit_pixel n dst src px = Ok l /\ zlen l = n.
Proof.
  intros n dst src px Hs Hd Hn. pose proof (min_shift_le dst Hd). destruct Hd as [D1 [D2 D3]].
  assert (n = 1 \/ n = 2 \/ n = 3 \/ n = 4) as [->|[->|[->| ->]]] by lia; unfold emit_pixel; cbv zeta.
  1, 2, 4: destruct (convert_pixel_total dst src (red_shift dst) (green_shift dst) (blue_shift dst) px)
    as [v E]; try assumption; try lia; rewrite E; cbn [bind]; eexists; split; [reflexivity|];
    try destruct (negb _); reflexivity.
  destruct (convert_pixel_total dst src (red_shift dst - min_shift dst) (green_shift dst - min_shift dst)
     (blue_shift dst - min_shift dst) px) as [v E]; try assumption; try lia.
  rewrite E. cbn [bind]. eexists. split; reflexivity.
Qed.

Lemma emit_pixels_total : forall len n step dst src mem off, shifts_ok src -> shifts_ok dst ->
  1 <= n <= 4 -> 0 <= step -> 0 <= off -> off + Z.of_nat len * step <= zlen mem ->
  exists l, emit_pixels len n step dst src mem off = Ok l /\ zlen l = Z.of_nat len * n.
Proof.
  induction len; intros n step dst src mem off Hs Hd Hn Hst Ho Hm; cbn [emit_pixels].
  - eexists. split; reflexivity.
  - destruct (get_ok mem off step) as [l1 E1]; [lia|lia|nia|]. rewrite E1. cbn [bind].
    destruct (emit_pixel_total n dst src (unle l1) Hs Hd Hn) as [l2 [E2 L2]]. rewrite E2. cbn [bind].
    destruct (IHlen n step dst src mem (off + step)) as [l3 [E3 L3]]; try assumption; try nia.
    rewrite E3. cbn [bind]. eexists. split; [reflexivity|]. rewrite zlen_app. lia.
Qed.

(** The alpha mask. *)
Lemma put1 : forall l k v, 0 <= k < zlen l ->
  put l k [v] = Ok (firstn (Z.to_nat k) l ++ [v] ++ skipn (Z.to_nat k + 1) l).
Proof.
  intros l k v H. unfold put, zlen in *. cbn [length].
  replace (_ && _) with true by lia. reflexivity.
Qed.

Lemma nth_update : forall (l : list Z) k v n, (k < length l)%nat ->
  nth n (firstn k l ++ [v] ++ skipn (k + 1) l) 0 = if (n =? k)%nat then v else nth n l 0.
Proof.
  induction l as [|a l IH]; intros k v n H; [cbn in H; lia|].
  destruct k; cbn [firstn app Nat.add skipn].
  - destruct n; reflexivity.
  - destruct n; [reflexivity|]. cbn [nth]. cbn [length] in H.
    change (firstn k l ++ v :: skipn (k + 1) l) with (firstn k l ++ [v] ++ skipn (k + 1) l).
    rewrite IH by lia. destruct (Nat.eqb_spec n k), (Nat.eqb_spec (S n) (S k)); try lia; reflexivity.
Qed.

Definition opaque_px (shift max p : Z) : bool := (p / 2 ^ shift) mod (max + 1) >? max / 2.

Lemma alpha_bits_ok : forall px shift b i dst, 0 <= b <= 8 -> 0 <= shift ->
  Forall (fun p => 0 <= p) px ->
  Z.of_nat i + zlen px <= 8 * zlen dst ->
  exists dst', alpha_bits px shift (2 ^ b - 1) i dst = Ok dst' /\ length dst' = length dst /\
    (forall j, 0 <= j -> bitmap dst' j = bitmap dst j ||
       ((Z.of_nat i <=? j) && (j <? Z.of_nat i + zlen px) &&
        opaque_px shift (2 ^ b - 1) (nth (Z.to_nat j - i) px 0))) /\
    (all_bytes dst -> all_bytes dst').
Proof.
  induction px as [|p px IH]; intros shift b i dst Hb Hs Hp Hl; cbn [alpha_bits].
  { exists dst. repeat split; auto. intros j Hj. unfold zlen. cbn [length].
    replace ((Z.of_nat i <=? j) && _) with false by lia. rewrite orb_false_r. reflexivity. }
  inversion Hp as [|? ? Hp0 Hp1]; subst.
  assert (Lp : zlen (p :: px) = 1 + zlen px) by (unfold zlen; cbn [length]; lia).
  pose proof (zlen_nonneg px).
  assert (K : 0 <= Z.of_nat i / 8 < zlen dst).
  { split; [apply Z.div_pos; lia|]. apply Z.div_lt_upper_bound; lia. }
  set (k := Z.of_nat i / 8) in *.
  destruct (get_ok dst k 1) as [old Eo]; [lia|lia|lia|]. rewrite Eo. cbn [bind].
  assert (Ho : hd 0 old = nth (Z.to_nat k) dst 0).
  { unfold get in Eo. destruct (_ && _ && _); [|discriminate]. injection Eo as <-.
    change (Z.to_nat 1) with 1%nat.
    assert (Lk : (Z.to_nat k < length dst)%nat) by (unfold zlen in K; lia).
    clear - Lk. revert Lk. generalize (Z.to_nat k). intros n. revert n.
    induction dst; intros n L; cbn [length] in L; [lia|]. destruct n; [reflexivity|].
    cbn [skipn nth]. apply IHdst. lia. }
  rewrite Ho.
  set (alpha := Z.land (p / 2 ^ shift) (2 ^ b - 1) mod 256).
  assert (Ea : (alpha >? (2 ^ b - 1) / 2) = opaque_px shift (2 ^ b - 1) p).
  { unfold opaque_px, alpha. rewrite land_ones_max by lia.
    replace (2 ^ b - 1 + 1) with (2 ^ b) by lia. rewrite (Z.mod_small (_ mod _)); [reflexivity|].
    pose proof (Z.mod_pos_bound (p / 2 ^ shift) (2 ^ b) (pow2_pos b ltac:(lia))).
    assert (2 ^ b <= 2 ^ 8) by (apply Z.pow_le_mono_r; lia). change (2 ^ 8) with 256 in *. lia. }
  rewrite Ea. set (o := opaque_px shift (2 ^ b - 1) p).
  set (w := ((if o then 1 else 0) * 2 ^ (7 - Z.of_nat i mod 8)) mod 256).
  pose proof (Z.mod_pos_bound (Z.of_nat i) 8 ltac:(lia)) as M8.
  assert (Ew : forall n, 0 <= n -> Z.testbit w n = o && (n =? 7 - Z.of_nat i mod 8)).
  { intros n Hn. unfold w. destruct o.
    - rewrite Z.mul_1_l. assert (0 < 2 ^ (7 - Z.of_nat i mod 8) < 256).
      { split; [apply pow2_pos; lia|]. change 256 with (2 ^ 8). apply Z.pow_lt_mono_r; lia. }
      rewrite Z.mod_small by lia. rewrite Z.pow2_bits_eqb by lia. cbn [andb].
      apply Z.eqb_sym.
    - rewrite Z.mul_0_l, Z.mod_0_l by lia. rewrite Z.bits_0. reflexivity. }
  assert (Bw : 0 <= w < 256) by (apply Z.mod_pos_bound; lia).
  rewrite put1 by lia. cbn [bind].
  set (d1 := firstn (Z.to_nat k) dst ++ [Z.lor (nth (Z.to_nat k) dst 0) w] ++ skipn (Z.to_nat k + 1) dst).
  assert (Ld : length d1 = length dst).
  { unfold d1, zlen in *. rewrite !app_length, firstn_length, skipn_length. cbn [length]. lia. }
  destruct (IH shift b (S i) d1) as [d2 [E2 [L2 [T2 B2]]]]; try assumption.
  { unfold zlen in *. rewrite Ld. cbn [length] in Hl. lia. }
  exists d2. split; [exact E2|]. split; [congruence|]. split.
  - intros j Hj. rewrite T2 by assumption. unfold bitmap at 1. unfold d1.
    rewrite nth_update by (unfold zlen in K; lia).
    rewrite Lp.
    destruct (Nat.eqb_spec (Z.to_nat (j / 8)) (Z.to_nat k)) as [Q|Q].
    + rewrite Z.lor_spec, Ew by (pose proof (Z.mod_pos_bound j 8); lia).
      rewrite <- Q. fold (bitmap dst j). rewrite <- orb_assoc. f_equal.
      assert (Q' : j / 8 = Z.of_nat i / 8).
      { pose proof (Z.div_pos j 8). unfold k in *. lia. }
      pose proof (Z.div_mod j 8 ltac:(lia)). pose proof (Z.div_mod (Z.of_nat i) 8 ltac:(lia)).
      pose proof (Z.mod_pos_bound j 8 ltac:(lia)).
      destruct (Z.eq_dec j (Z.of_nat i)) as [->|N].
      * replace (7 - Z.of_nat i mod 8 =? 7 - Z.of_nat i mod 8) with true by lia. rewrite andb_true_r.
        replace (Z.of_nat (S i) <=? Z.of_nat i) with false by lia. cbn [andb]. rewrite orb_false_r.
        replace (Z.of_nat i <=? Z.of_nat i) with true by lia.
        replace (Z.of_nat i <? Z.of_nat i + (1 + zlen px)) with true by lia. cbn [andb].
        rewrite Nat2Z.id, Nat.sub_diag. reflexivity.
      * replace (7 - j mod 8 =? 7 - Z.of_nat i mod 8) with false by lia. rewrite andb_false_r.
        cbn [orb]. destruct (Z_lt_le_dec j (Z.of_nat i)).
        -- replace (Z.of_nat (S i) <=? j) with false by lia.
           replace (Z.of_nat i <=? j) with false by lia. reflexivity.
        -- replace (Z.of_nat (S i) <=? j) with true by lia.
           replace (Z.of_nat i <=? j) with true by lia.
           replace (Z.to_nat j - i)%nat with (S (Z.to_nat j - S i)) by lia. cbn [nth].
           f_equal. lia.
    + fold (bitmap dst j). f_equal.
      assert (N : j <> Z.of_nat i) by (intros ->; apply Q; reflexivity).
      destruct (Z_lt_le_dec j (Z.of_nat i)).
      * replace (Z.of_nat (S i) <=? j) with false by lia.
        replace (Z.of_nat i <=? j) with false by lia. reflexivity.
      * replace (Z.of_nat (S i) <=? j) with true by lia.
        replace (Z.of_nat i <=? j) with true by lia.
        replace (Z.to_nat j - i)%nat with (S (Z.to_nat j - S i)) by lia. cbn [nth].
        f_equal. lia.
  - intros A. apply B2. unfold d1. apply Forall_app. split; [apply Forall_firstn; exact A|].
    apply Forall_app. split; [|apply Forall_skipn; exact A]. constructor; [|constructor].
    unfold all_bytes in A. rewrite Forall_forall in A.
    assert (N : is_byte (nth (Z.to_nat k) dst 0)) by (apply A, nth_In; unfold zlen in K; lia).
    unfold is_byte in *. split; [apply Z.lor_nonneg; lia|].
    destruct (Z.eq_dec (Z.lor (nth (Z.to_nat k) dst 0) w) 0) as [->|NZ]; [lia|].
    change 256 with (2 ^ 8). apply Z.log2_lt_pow2; [pose proof (Z.lor_nonneg (nth (Z.to_nat k) dst 0) w); lia|].
    rewrite Z.log2_lor by lia. apply Z.max_lub_lt.
    + destruct (Z.eq_dec (nth (Z.to_nat k) dst 0) 0) as [->|]; [reflexivity|].
      apply Z.log2_lt_pow2; [lia|]. change (2 ^ 8) with 256. lia.
    + destruct (Z.eq_dec w 0) as [->|]; [reflexivity|].
      apply Z.log2_lt_pow2; [lia|]. change (2 ^ 8) with 256. lia.
Qed.
