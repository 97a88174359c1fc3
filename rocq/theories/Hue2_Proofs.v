(** Proofs for Hue_Props.v: the bytes of a pixel and its colour. *)
From Verif Require Import Common CommonProofs Pixels_Model Pixels_Spec Pixels_Proofs Pixels_Props Tight_Spec Hue_Spec Hue_Proofs.

Lemma tint_channels p r g b v : has_fields p r g b -> 0 <= f_bits r -> 0 <= f_bits g -> 0 <= f_bits b ->
  tint p v = [channel r v; channel g v; channel b v].
Proof.
  intros (_ & R1 & R2 & G1 & G2 & B1 & B2) HR HG HB. unfold tint, channel.
  rewrite R1, R2, G1, G2, B1, B2, !land_ones_max by assumption. reflexivity.
Qed.

Lemma number_bytes p n w : 0 <= w < 2 ^ (8 * Z.of_nat n) -> number p (pixel_bytes p n w) = w.
Proof.
  intros H. assert (P : 256 ^ Z.of_nat n = 2 ^ (8 * Z.of_nat n)) by (rewrite Z.pow_mul_r by lia; reflexivity).
  unfold number, pixel_bytes. destruct (_ =? 0); [apply unle_le; lia|apply unbe_be; lia].
Qed.
Lemma bytes_len p n w : length (pixel_bytes p n w) = n.
Proof. unfold pixel_bytes. destruct (_ =? 0); [apply le_length|apply be_length]. Qed.

Lemma one_stored src v : stored src [v] = le (Z.to_nat (bits_per_pixel src / 8)) v.
Proof. unfold stored. cbn [map concat]. apply app_nil_r. Qed.

Lemma cpixels dst dr dg db : clear_format dst dr dg db -> calc_bytes_per_cpixel dst = cpixel_size (bits_per_pixel dst) (depth dst) true.
Proof.
  intros (HD & FD & BD & DD & _ & _ & _ & CL). apply C25_cpixel_size_partial; [exact BD| |auto].
  intros B. destruct (CL B). lia.
Qed.

Section C.
Variables dst src : pixfmt.
Variables dr dg db sr sg sb : Pixels_Spec.field.
Hypothesis CD : clear_format dst dr dg db.
Hypothesis CS : source_format src sr sg sb.
Variable v : Z.
Hypothesis V : 0 <= v < 2 ^ bits_per_pixel src.
Notation q := (le (Z.to_nat (bits_per_pixel src / 8)) v).
Definition goal : list Z :=
  [rescale sr dr (channel sr v); rescale sg dg (channel sg v); rescale sb db (channel sb v)].

Lemma whole_pixel c : pixel_to_cpixel (bits_per_pixel dst / 8) dst src q 0 1 = Ok c ->
  tint dst (number dst c) = goal /\ zlen c = bits_per_pixel dst / 8.
Proof.
  destruct CD as (HD & FD & BD & DD & B1 & B2 & B3 & _). destruct CS as (HS & FS & BS & DS). intros H.
  set (n := bits_per_pixel dst / 8) in *.
  assert (BN : bits_per_pixel dst = 8 * n /\ 1 <= n <= 4) by (unfold n; destruct BD as [<-|[<-|[<-|[]]]]; vm_compute; split; [reflexivity|split; congruence|reflexivity|split; congruence|reflexivity|split; congruence]).
  destruct BN as [BN N14].
  destruct (C23_pixel_conversion dst src sr sg sb dr dg db n [v] [] [] HS FS BS DS HD FD BN N14 DD) as (out & O1 & O2).
  { constructor; [exact V|constructor]. }
  rewrite app_nil_l, app_nil_r, one_stored in O1. cbn [length map concat] in O1. change (zlen []) with 0 in O1.
  rewrite H, app_nil_r in O1. injection O1 as ->. destruct (O2 v) as (RG & C1 & C2 & C3 & _).
  split; [|unfold zlen; rewrite bytes_len; lia].
  rewrite number_bytes by (rewrite Z2Nat.id by lia; rewrite <- BN; exact RG).
  rewrite (tint_channels dst dr dg db) by (assumption || lia). rewrite C1, C2, C3. reflexivity.
Qed.

Lemma fields32 : bits_per_pixel dst = 32 -> fields_ok 32 dr dg db.
Proof. intros B. destruct CD as (_ & FD & _). rewrite B in FD. exact FD. Qed.

Lemma three_bytes c : bits_per_pixel dst = 32 -> depth dst <= 24 -> pixel_to_cpixel 3 dst src q 0 1 = Ok c ->
  tint dst (if low dst then number dst c else 256 * number dst c) = goal /\ zlen c = 3.
Proof.
  intros B D H. pose proof (fields32 B) as F32. pose proof CD as (HD & FD & BD & DD & B1 & B2 & B3 & CL).
  destruct CS as (HS & FS & BS & DS). destruct (CL B) as [_ CL']. specialize (CL' D). clear CL.
  assert (DR : exists drop, (drop = 0 /\ fits_low dr dg db \/ drop = 8 /\ fits_high dr dg db) /\
    (f_shift dr = drop \/ f_shift dg = drop \/ f_shift db = drop) /\ (if low dst then drop = 0 else drop = 8)).
  { assert (TOP : forall a, 1 <= f_bits a -> 0 <= f_shift a -> (((2 ^ f_bits a - 1) * 2 ^ f_shift a <? 2 ^ 24) = (f_shift a + f_bits a <=? 24))).
    { intros a A S0. pose proof (pow2_pos (f_shift a) S0). 
      destruct (Z.leb_spec (f_shift a + f_bits a) 24) as [X|X]; [apply Z.ltb_lt|apply Z.ltb_ge].
      - apply Z.lt_le_trans with (2 ^ f_bits a * 2 ^ f_shift a); [nia|]. rewrite <- Z.pow_add_r by lia. apply Z.pow_le_mono_r; lia.
      - apply Z.le_trans with (2 ^ (f_bits a - 1) * 2 ^ f_shift a).
        + rewrite <- Z.pow_add_r by lia. apply Z.pow_le_mono_r; lia.
        + apply Z.mul_le_mono_nonneg_r; [lia|]. replace (2 ^ f_bits a) with (2 * 2 ^ (f_bits a - 1)).
          * pose proof (pow2_pos (f_bits a - 1)). lia.
          * rewrite <- Z.pow_succ_r by lia. f_equal. lia. }
    pose proof F32 as ([? [? ?]] & [? [? ?]] & [? [? ?]] & _).
    assert (LW : low dst = ((f_shift dr + f_bits dr <=? 24) && (f_shift dg + f_bits dg <=? 24) && (f_shift db + f_bits db <=? 24))%bool).
    { destruct HD as (_ & R1 & R2 & G1 & G2 & E1 & E2). unfold low. rewrite R1, R2, G1, G2, E1, E2, !TOP by lia. reflexivity. }
    destruct CL' as [(FL & M)|(NL & FH & M)].
    - exists 0. split; [left; auto|]. split; [exact M|]. destruct FL as ([? [? ?]] & [? [? ?]] & [? [? ?]]).
      rewrite LW, !(proj2 (Z.leb_le _ _)) by lia. reflexivity.
    - exists 8. split; [right; auto|]. split; [exact M|]. destruct (low dst); [|reflexivity]. exfalso. apply NL.
      symmetry in LW. apply andb_prop in LW as [LW L3]. apply andb_prop in LW as [L1 L2].
      unfold fits_low, inside. lia. }
  destruct DR as (drop & D1 & D2 & D3).
  destruct (C63_cpixel_bytes_partial dst src sr sg sb dr dg db [v] [] [] HS FS BS DS HD F32 B D ltac:(constructor; [exact V|constructor]) drop D1 D2) as (out & O1 & O2).
  rewrite app_nil_l, app_nil_r, one_stored in O1. cbn [length map concat] in O1. change (zlen []) with 0 in O1.
  rewrite H, app_nil_r in O1. injection O1 as ->. destruct (O2 v) as (RG & MD & C1 & C2 & C3).
  split; [|unfold zlen; rewrite bytes_len; reflexivity].
  rewrite number_bytes by exact RG.
  assert (OV : (if low dst then out v / 2 ^ drop else 256 * (out v / 2 ^ drop)) = out v).
  { destruct (low dst); subst drop; [apply Z.div_1_r|]. change (2 ^ 8) with 256 in *. pose proof (Z.div_mod (out v) 256). lia. }
  rewrite OV, (tint_channels dst dr dg db) by (assumption || lia). rewrite C1, C2, C3. reflexivity.
Qed.

Lemma shade_colour c : shade dst src q c -> c = goal.
Proof.
  intros (k & b & F & ->). unfold tint_of. destruct F as [[-> F]|[[-> F]|[-> F]]].
  - cbn [Z.eqb andb]. apply whole_pixel. exact F.
  - change (16 =? 7) with false. change (16 =? 16) with true. cbn [andb]. rewrite (cpixels dst dr dg db CD) in F. unfold cpixel_size in F.
    rewrite andb_true_r in F.
    destruct (bits_per_pixel dst =? 32) eqn:B; cbn [andb] in *; [|apply whole_pixel; exact F].
    apply Z.eqb_eq in B. destruct (depth dst <=? 24) eqn:D; cbn [andb] in F.
    + apply Z.leb_le in D. destruct (three_bytes b B D F) as [T ->]. exact T.
    + destruct (whole_pixel b F) as [T ->]. rewrite B. exact T.
  - change (7 =? 7) with true. change (7 =? 16) with false. cbn [andb]. unfold tpixel, tpixel_size in F.
    destruct (is_tpixel3 dst) eqn:T3; [|apply whole_pixel; exact F].
    destruct CD as (HD & FD & BD & DD & B1 & B2 & B3 & _). destruct CS as (HS & FS & BS & DS).
    set (r8 := mk_field 0 8). set (g8 := mk_field 8 8). set (b8 := mk_field 16 8).
    assert (HR : has_fields rgb_bytes r8 g8 b8) by (unfold has_fields; cbn; repeat split; congruence).
    assert (FR : fields_ok 32 r8 g8 b8) by (unfold fields_ok, inside, apart; cbn; lia).
    assert (FL : fits_low r8 g8 b8) by (unfold fits_low, inside; cbn; lia).
    destruct (C63_cpixel_bytes_partial rgb_bytes src sr sg sb r8 g8 b8 [v] [] [] HS FS BS DS HR FR eq_refl ltac:(cbn; lia)
      ltac:(constructor; [exact V|constructor]) 0 (or_introl (conj eq_refl FL)) (or_introl eq_refl)) as (out & O1 & O2).
    rewrite app_nil_l, app_nil_r, one_stored in O1. cbn [length map concat] in O1. change (zlen []) with 0 in O1.
    rewrite F, app_nil_r in O1. injection O1 as ->. destruct (O2 v) as (RG & _ & C1 & C2 & C3).
    change (2 ^ 0) with 1. rewrite Z.div_1_r.
    assert (E3 : pixel_bytes rgb_bytes 3 (out v) = [channel r8 (out v); channel g8 (out v); channel b8 (out v)]).
    { unfold pixel_bytes. cbn [big_endian_flag rgb_bytes Z.eqb]. unfold le. rewrite be3. cbn [rev app]. rewrite !byte_at_be by lia. reflexivity. }
    rewrite E3, C1, C2, C3. unfold goal.
    unfold is_tpixel3 in T3. repeat (apply andb_prop in T3 as [T3 ?]).
    destruct HD as (_ & R1 & _ & G1 & _ & E1 & _).
    assert (EQ8 : forall a, 1 <= f_bits a -> 2 ^ f_bits a - 1 = 255 -> f_bits a = 8).
    { intros a A X. apply (Z.pow_inj_r 2); lia. }
    assert (f_bits dr = 8 /\ f_bits dg = 8 /\ f_bits db = 8) as (E1' & E2' & E3') by (repeat split; apply EQ8; lia).
    unfold rescale. rewrite E1', E2', E3'. reflexivity.
Qed.
End C.

Lemma drm_source code bits r g b : drm_colours code bits r g b ->
  exists f, pixfmt_from_fourcc code = Some f /\ source_format f r g b /\ bits_per_pixel f = bits.
Proof.
  intros (name & layout & IN & -> & <- & N & ER & EG & EB). unfold drm_formats in IN. cbv zeta in IN. cbn [In] in IN.
  repeat match type of IN with
  | _ \/ _ => destruct IN as [IN|IN]
  | False => destruct IN
  end;
  (pose proof (f_equal fst IN) as E1; pose proof (f_equal snd IN) as E2; cbn [fst snd] in E1, E2; subst name layout; clear IN);
  (vm_compute in N; try (exfalso; apply N; reflexivity));
  (vm_compute in ER, EG, EB; injection ER as <-; injection EG as <-; injection EB as <-);
  (eexists; split; [vm_compute; reflexivity|]; split; [|vm_compute; reflexivity]);
  (unfold source_format, has_fields, fields_ok, inside, apart; cbn; repeat split; try lia; try tauto; try reflexivity).
Qed.
