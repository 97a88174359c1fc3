From Verif Require Import Common CommonProofs Base64_Model Base64_Spec.

Lemma chunks_fuel : forall A k (l : list A) f,
  (0 < k)%nat -> (length l <= f)%nat -> chunks f k l = chunks (length l) k l.
Proof.
  intros A k l f Hk. revert l. induction f as [f IH] using lt_wf_ind.
  intros l Hf. destruct l as [|x l].
  - destruct f; reflexivity.
  - destruct f as [|f]; [cbn in Hf; lia|]. cbn [chunks length].
    f_equal. cbn [length] in Hf.
    assert (length (skipn k (x :: l)) <= length l)%nat.
    { rewrite skipn_length. cbn [length]. lia. }
    rewrite (IH f) by lia.
    destruct (Nat.eq_dec (length l) f) as [->|].
    + rewrite (IH f) by lia. reflexivity.
    + rewrite (IH (length l)) by lia. reflexivity.
Qed.

Lemma chunks_cons : forall A k (a l : list A),
  (0 < k)%nat -> length a = k ->
  chunks (length (a ++ l)) k (a ++ l) = a :: chunks (length l) k l.
Proof.
  intros A k a l Hk Ha. destruct a as [|x a]; [cbn in Ha; lia|].
  subst k. rewrite app_length. cbn [app]. 
  replace (length (x :: a) + length l)%nat with (S (length a + length l)) by (cbn [length]; lia).
  cbn [chunks].
  change (x :: a ++ l) with ((x :: a) ++ l).
  rewrite firstn_app_exact, skipn_app_exact.
  f_equal. apply chunks_fuel; lia.
Qed.

Lemma to_bits_length : forall n v, length (to_bits n v) = n.
Proof.
  intros n v. unfold to_bits. rewrite map_length, rev_length, seq_length. reflexivity.
Qed.

Lemma of_to_bits6 : forall v, 0 <= v < 64 -> of_bits (to_bits 6 v) = v.
Proof.
  intros v Hv. apply Z.eqb_eq.
  revert v Hv. apply (sweep (fun v => of_bits (to_bits 6 v) =? v)).
  vm_compute. reflexivity.
Qed.

Lemma of_to_bits8 : forall v, 0 <= v < 256 -> of_bits (to_bits 8 v) = v.
Proof.
  intros v Hv. apply Z.eqb_eq.
  revert v Hv. apply (sweep (fun v => of_bits (to_bits 8 v) =? v)).
  vm_compute. reflexivity.
Qed.

Lemma enc_at_alphabet : forall v, 0 <= v < 64 -> enc_at v = alphabet v.
Proof.
  intros v Hv. apply Z.eqb_eq.
  revert v Hv. apply (sweep (fun v => enc_at v =? alphabet v)).
  vm_compute. reflexivity.
Qed.

Lemma dec_lut_value : forall c, 0 <= c < 256 -> dec_lut c = value c.
Proof.
  intros v Hv. apply Z.eqb_eq.
  revert v Hv. apply (sweep (fun v => dec_lut v =? value v)).
  vm_compute. reflexivity.
Qed.

Lemma value_range : forall c, 0 <= value c < 64.
Proof.
  intros c. unfold value, digit.
  repeat match goal with |- context [if ?b then _ else _] => destruct b eqn:? end; lia.
Qed.

Lemma validation_lut_spec : forall c, 0 <= c < 256 ->
  validation_lut c =
  (match digit c with Some _ => true | None => false end || (c =? pad_char)).
Proof.
  intros v Hv. apply Bool.eqb_prop.
  revert v Hv. apply (sweep (fun v => Bool.eqb (validation_lut v)
    (match digit v with Some _ => true | None => false end || (v =? pad_char)))).
  vm_compute. reflexivity.
Qed.

Lemma alphabet_value : forall v, 0 <= v < 64 -> value (alphabet v) = v.
Proof.
  intros v Hv. apply Z.eqb_eq.
  revert v Hv. apply (sweep (fun v => value (alphabet v) =? v)).
  vm_compute. reflexivity.
Qed.

Lemma alphabet_ok : forall v, 0 <= v < 64 ->
  0 < alphabet v < 256 /\ alphabet v <> pad_char /\ digit (alphabet v) <> None.
Proof.
  intros v Hv.
  assert (H : (0 <? alphabet v) && (alphabet v <? 256) && negb (alphabet v =? pad_char)
     && match digit (alphabet v) with Some _ => true | None => false end = true).
  { revert v Hv. apply (sweep (fun v => (0 <? alphabet v) && (alphabet v <? 256) &&
       negb (alphabet v =? pad_char)
       && match digit (alphabet v) with Some _ => true | None => false end)).
    vm_compute. reflexivity. }
  destruct (digit (alphabet v)); [|lia].
  repeat split; try lia. discriminate.
Qed.


Lemma byte_hi : forall b n, 0 <= b < 256 -> 8 <= n -> Z.testbit b n = false.
Proof. intros b n Hb Hn. apply (testbit_small b n 8); lia. Qed.

Lemma sext_hi : forall b n, 0 <= b < 64 -> 6 <= n -> Z.testbit b n = false.
Proof. intros b n Hb Hn. apply (testbit_small b n 6); lia. Qed.

Lemma bits6_eq : forall v, to_bits 6 v =
  [Z.testbit v 5; Z.testbit v 4; Z.testbit v 3; Z.testbit v 2; Z.testbit v 1; Z.testbit v 0].
Proof. reflexivity. Qed.

Lemma bits8_eq : forall v, to_bits 8 v =
  [Z.testbit v 7; Z.testbit v 6; Z.testbit v 5; Z.testbit v 4;
   Z.testbit v 3; Z.testbit v 2; Z.testbit v 1; Z.testbit v 0].
Proof. reflexivity. Qed.

Lemma land63_range : forall v, 0 <= Z.land v 63 < 64.
Proof.
  intros v. change 63 with (Z.ones 6). rewrite Z.land_ones by lia.
  apply Z.mod_pos_bound. lia.
Qed.

Lemma land255_range : forall v, 0 <= Z.land v 255 < 256.
Proof.
  intros v. change 255 with (Z.ones 8). rewrite Z.land_ones by lia.
  apply Z.mod_pos_bound. lia.
Qed.

Ltac hi Ha :=
  repeat match goal with
  | |- context [Z.testbit ?b ?n] =>
      first [ rewrite (byte_hi b n) by (assumption || lia)
            | rewrite (sext_hi b n) by (assumption || lia)
            | rewrite (Z.testbit_neg_r b n) by lia
            | fail 1 ]
  end.

Lemma testbit63 : forall n, 0 <= n < 6 -> Z.testbit 63 n = true.
Proof. intros n Hn. change 63 with (Z.ones 6). apply Z.ones_spec_low; lia. Qed.
Lemma testbit255 : forall n, 0 <= n < 8 -> Z.testbit 255 n = true.
Proof. intros n Hn. change 255 with (Z.ones 8). apply Z.ones_spec_low; lia. Qed.

(** Closes goals equating testbits of concrete positions. *)
Ltac bit_goal :=
  repeat first
    [ rewrite Z.land_spec | rewrite Z.lor_spec | rewrite Z.testbit_0_l
    | rewrite Z.shiftr_spec by lia | rewrite Z.shiftl_spec by lia
    | rewrite testbit63 by lia | rewrite testbit255 by lia ];
  repeat match goal with
  | |- context [Z.testbit ?b ?e] =>
      let e' := eval vm_compute in e in progress change e with e'
  end;
  repeat match goal with
  | Hb : 0 <= ?b < 256 |- context [Z.testbit ?b ?n] => rewrite (byte_hi b n) by (assumption || lia)
  | Hb : 0 <= ?b < 64 |- context [Z.testbit ?b ?n] => rewrite (sext_hi b n) by (assumption || lia)
  | |- context [Z.testbit ?b (Zneg ?p)] => rewrite (Z.testbit_neg_r b (Zneg p)) by lia
  end;
  rewrite ?orb_false_r, ?orb_false_l, ?andb_true_r; try reflexivity.

Ltac list_bits :=
  repeat match goal with |- cons _ _ = cons _ _ => apply (f_equal2 cons) end; bit_goal.

Lemma shiftr18_range : forall a b c, 0 <= a < 256 -> 0 <= b < 256 -> 0 <= c < 256 ->
  Z.shiftr (Z.lor (Z.lor (Z.lor 0 (Z.shiftl a 16)) (Z.shiftl b 8)) c) 18
  = Z.land (Z.shiftr (Z.lor (Z.lor (Z.lor 0 (Z.shiftl a 16)) (Z.shiftl b 8)) c) 18) 63.
Proof.
  intros a b c Ha Hb Hc. apply Z.bits_inj'. intros n Hn.
  rewrite Z.land_spec. change 63 with (Z.ones 6).
  destruct (Z_lt_ge_dec n 6) as [Hlt|Hge].
  - rewrite Z.ones_spec_low by lia. rewrite andb_true_r. reflexivity.
  - rewrite Z.ones_spec_high by lia. rewrite andb_false_r.
    repeat first [ rewrite Z.lor_spec | rewrite Z.testbit_0_l
      | rewrite Z.shiftr_spec by lia | rewrite Z.shiftl_spec by lia ].
    rewrite !byte_hi by lia. reflexivity.
Qed.

Lemma enc_group_spec : forall a b c, is_byte a -> is_byte b -> is_byte c ->
  exists g1 g2 g3 g4,
    to_bits 8 a ++ to_bits 8 b ++ to_bits 8 c = g1 ++ g2 ++ g3 ++ g4 /\
    length g1 = 6%nat /\ length g2 = 6%nat /\ length g3 = 6%nat /\ length g4 = 6%nat /\
    enc_group a b c = map (fun g => alphabet (of_bits g)) [g1; g2; g3; g4].
Proof.
  unfold is_byte. intros a b c Ha Hb Hc. unfold enc_group.
  rewrite shiftr18_range by assumption.
  set (tmp := Z.lor (Z.lor (Z.lor 0 (Z.shiftl a 16)) (Z.shiftl b 8)) c).
  exists (to_bits 6 (Z.land (Z.shiftr tmp 18) 63)), (to_bits 6 (Z.land (Z.shiftr tmp 12) 63)),
         (to_bits 6 (Z.land (Z.shiftr tmp 6) 63)), (to_bits 6 (Z.land tmp 63)).
  repeat split; try apply to_bits_length.
  - rewrite !bits6_eq, !bits8_eq. subst tmp. cbn [app].
    list_bits.
  - cbn [map]. rewrite !of_to_bits6 by apply land63_range.
    rewrite !enc_at_alphabet by apply land63_range. reflexivity.
Qed.

Lemma enc_tail1_spec : forall a, is_byte a ->
  enc_tail [a] = rfc4648 [a] ++ [0].
Proof.
  unfold is_byte. intros a Ha.
  assert (H : forallb (fun a => if list_eq_dec Z.eq_dec (enc_tail [a]) (rfc4648 [a] ++ [0]) then true else false) (zrange 256) = true)
    by (vm_compute; reflexivity).
  pose proof (sweep _ _ H a Ha) as Hs. cbn beta in Hs.
  destruct (list_eq_dec Z.eq_dec _ _); [assumption|discriminate].
Qed.

Lemma enc_tail2_spec : forall a b, is_byte a -> is_byte b ->
  exists g1 g2 g3,
    to_bits 8 a ++ to_bits 8 b = g1 ++ g2 ++ g3 /\
    length g1 = 6%nat /\ length g2 = 6%nat /\ length g3 = 4%nat /\
    enc_tail [a; b] =
      map (fun g => alphabet (of_bits (fill 6 g))) [g1; g2; g3] ++ [61; 0].
Proof.
  unfold is_byte. intros a b Ha Hb. unfold enc_tail.
  cbn [enc_rem_tmp length Nat.add enc_rem_out app repeat Nat.sub].
  set (tmp := Z.lor (Z.lor 0 (Z.shiftl a ((2 - 0) * 8))) (Z.shiftl b ((2 - (0 + 1)) * 8))).
  exists (to_bits 6 (Z.land (Z.shiftr tmp ((3 - 0) * 6)) 63)),
         (to_bits 6 (Z.land (Z.shiftr tmp ((3 - (0 + 1)) * 6)) 63)),
         (firstn 4 (to_bits 6 (Z.land (Z.shiftr tmp ((3 - (0 + 1 + 1)) * 6)) 63))).
  split; [|split; [|split; [|split]]].
  - rewrite !bits6_eq, !bits8_eq. subst tmp. cbn [app firstn].
    list_bits.
  - apply to_bits_length.
  - apply to_bits_length.
  - rewrite firstn_length, to_bits_length. reflexivity.
  - cbn [map app].
    assert (H3 : fill 6 (firstn 4 (to_bits 6 (Z.land (Z.shiftr tmp ((3 - (0 + 1 + 1)) * 6)) 63)))
                 = to_bits 6 (Z.land (Z.shiftr tmp ((3 - (0 + 1 + 1)) * 6)) 63)).
    { unfold fill. rewrite firstn_length, to_bits_length. rewrite bits6_eq.
      cbn [Nat.min Nat.sub repeat firstn app].
      subst tmp. list_bits. }
    rewrite H3. unfold fill. rewrite !to_bits_length. cbn [Nat.sub repeat].
    rewrite !app_nil_r.
    rewrite !of_to_bits6 by apply land63_range.
    rewrite !enc_at_alphabet by apply land63_range. reflexivity.
Qed.

Lemma fill_full : forall k l, length l = k -> fill k l = l.
Proof. intros k l H. unfold fill. rewrite H, Nat.sub_diag. apply app_nil_r. Qed.

Lemma rfc4648_group : forall a b c rest g1 g2 g3 g4,
  to_bits 8 a ++ to_bits 8 b ++ to_bits 8 c = g1 ++ g2 ++ g3 ++ g4 ->
  length g1 = 6%nat -> length g2 = 6%nat -> length g3 = 6%nat -> length g4 = 6%nat ->
  rfc4648 (a :: b :: c :: rest) =
  map (fun g => alphabet (of_bits g)) [g1; g2; g3; g4] ++ rfc4648 rest.
Proof.
  intros a b c rest g1 g2 g3 g4 Heq H1 H2 H3 H4. unfold rfc4648.
  cbn [flat_map]. rewrite app_assoc, app_assoc, <- (app_assoc (to_bits 8 a)), Heq.
  rewrite <- !app_assoc.
  rewrite !chunks_cons by (assumption || lia).
  cbn [map]. rewrite !fill_full by assumption. cbn [app length].
  do 4 f_equal.
  set (ds := map _ _).
  replace (S (S (S (S (length ds)))) mod 4)%nat with (length ds mod 4)%nat; [reflexivity|].
  replace (S (S (S (S (length ds))))) with (length ds + 1 * 4)%nat by lia.
  rewrite Nat.mod_add by lia. reflexivity.
Qed.

Lemma encode_rfc : forall bs, all_bytes bs -> base64_encode bs = rfc4648 bs ++ [0].
Proof.
  intros bs. remember (length bs) as n eqn:Hn. revert bs Hn.
  induction n as [n IH] using lt_wf_ind. intros bs Hn Hb.
  destruct bs as [|a [|b [|c rest]]].
  - reflexivity.
  - cbn [base64_encode]. inversion Hb; subst. apply enc_tail1_spec; assumption.
  - cbn [base64_encode]. inversion Hb as [|? ? Ha Hb']; subst.
    inversion Hb' as [|? ? Hbb _]; subst.
    destruct (enc_tail2_spec a b) as (g1 & g2 & g3 & Heq & H1 & H2 & H3 & He);
      [assumption..|].
    rewrite He. unfold rfc4648. cbn [flat_map]. rewrite app_nil_r, Heq.
    rewrite chunks_cons by (assumption || lia). rewrite chunks_cons by (assumption || lia).
    assert (Hc : chunks (length g3) 6 g3 = [g3]).
    { rewrite H3. destruct g3 as [|? g3]; [discriminate|]. cbn [chunks].
      rewrite firstn_all2 by lia. rewrite skipn_all2 by lia. reflexivity. }
    rewrite Hc. reflexivity.
  - cbn [base64_encode]. inversion Hb as [|? ? Ha Hb']; subst.
    inversion Hb' as [|? ? Hbb Hc']; subst. inversion Hc' as [|? ? Hc Hr]; subst.
    destruct (enc_group_spec a b c) as (g1 & g2 & g3 & g4 & Heq & H1 & H2 & H3 & H4 & He);
      [assumption..|].
    rewrite (rfc4648_group a b c rest g1 g2 g3 g4) by assumption.
    rewrite He, <- app_assoc. f_equal.
    apply (IH (length rest)); [cbn; lia|reflexivity|assumption].
Qed.

Lemma encode_length : forall bs,
  Z.of_nat (length (base64_encode bs)) = BASE64_ENCODED_SIZE (Z.of_nat (length bs)).
Proof.
  intros bs. remember (length bs) as n eqn:Hn. revert bs Hn.
  induction n as [n IH] using lt_wf_ind. intros bs Hn.
  destruct bs as [|a [|b [|c rest]]]; try (subst; reflexivity).
  cbn [base64_encode]. rewrite app_length. cbn [length] in *.
  change (length (enc_group a b c)) with 4%nat.
  rewrite Nat2Z.inj_add.
  rewrite (IH (length rest)) by (reflexivity || lia).
  unfold BASE64_ENCODED_SIZE. subst n.
  replace (Z.of_nat (S (S (S (length rest)))) + 2) with (Z.of_nat (length rest) + 2 + 1 * 3) by lia.
  rewrite Z.div_add by lia. lia.
Qed.

(** Decoder. *)

Lemma dec_group_spec : forall a b c d,
  0 <= a < 256 -> 0 <= b < 256 -> 0 <= c < 256 -> 0 <= d < 256 ->
  exists o1 o2 o3,
    to_bits 6 (value a) ++ to_bits 6 (value b) ++ to_bits 6 (value c) ++ to_bits 6 (value d)
      = o1 ++ o2 ++ o3 /\
    length o1 = 8%nat /\ length o2 = 8%nat /\ length o3 = 8%nat /\
    dec_group a b c d = map of_bits [o1; o2; o3].
Proof.
  intros a b c d Ha Hb Hc Hd. unfold dec_group. rewrite !dec_lut_value by assumption.
  pose proof (value_range a) as Va. pose proof (value_range b) as Vb.
  pose proof (value_range c) as Vc. pose proof (value_range d) as Vd.
  set (va := value a) in *. set (vb := value b) in *.
  set (vc := value c) in *. set (vd := value d) in *.
  clearbody va vb vc vd.
  replace (Z.shiftr (Z.lor (Z.lor (Z.lor (Z.lor 0 (Z.shiftl va 18)) (Z.shiftl vb 12))
             (Z.shiftl vc 6)) vd) 16 mod 256)
     with (Z.land (Z.shiftr (Z.lor (Z.lor (Z.lor (Z.lor 0 (Z.shiftl va 18)) (Z.shiftl vb 12))
             (Z.shiftl vc 6)) vd) 16) 255)
     by (change 255 with (Z.ones 8); rewrite Z.land_ones by lia; reflexivity).
  set (tmp := Z.lor (Z.lor (Z.lor (Z.lor 0 (Z.shiftl va 18)) (Z.shiftl vb 12))
             (Z.shiftl vc 6)) vd).
  exists (to_bits 8 (Z.land (Z.shiftr tmp 16) 255)), (to_bits 8 (Z.land (Z.shiftr tmp 8) 255)),
         (to_bits 8 (Z.land tmp 255)).
  repeat split; try apply to_bits_length.
  - rewrite !bits6_eq, !bits8_eq. subst tmp. cbn [app].
    list_bits.
  - cbn [map]. rewrite !of_to_bits8 by apply land255_range. reflexivity.
Qed.

Definition octets_of_bits (bits : list bool) : list Z :=
  let whole := firstn (8 * (length bits / 8)) bits in
  map of_bits (chunks (length whole) 8 whole).

Lemma octets_app8 : forall o bits, length o = 8%nat ->
  octets_of_bits (o ++ bits) = of_bits o :: octets_of_bits bits.
Proof.
  intros o bits Ho. unfold octets_of_bits.
  rewrite app_length, Ho.
  replace ((8 + length bits) / 8)%nat with (S (length bits / 8)).
  2:{ replace (8 + length bits)%nat with (length bits + 1 * 8)%nat by lia.
      rewrite Nat.div_add by lia. lia. }
  replace (8 * S (length bits / 8))%nat with (length o + 8 * (length bits / 8))%nat by lia.
  rewrite firstn_app_2, chunks_cons by lia. reflexivity.
Qed.

Lemma octets_short : forall bits, (length bits < 8)%nat -> octets_of_bits bits = [].
Proof.
  intros bits H. unfold octets_of_bits. rewrite Nat.div_small by assumption. reflexivity.
Qed.

Lemma dec_tail2_spec : forall a b, 0 <= a < 256 -> 0 <= b < 256 ->
  exists o1 r,
    to_bits 6 (value a) ++ to_bits 6 (value b) = o1 ++ r /\
    length o1 = 8%nat /\ length r = 4%nat /\ dec_tail [a; b] = [of_bits o1].
Proof.
  intros a b Ha Hb. unfold dec_tail.
  change (length [a; b] * 3 / 4)%nat with 1%nat.
  cbn [dec_rem_out dec_rem_tmp].
  rewrite !dec_lut_value by assumption.
  pose proof (value_range a) as Va. pose proof (value_range b) as Vb.
  set (va := value a) in *. set (vb := value b) in *. clearbody va vb.
  set (tmp := Z.lor _ _).
  exists (to_bits 8 (Z.land (Z.shiftr tmp ((2 - 0) * 8)) 255)),
         (skipn 2 (to_bits 6 vb)).
  repeat split.
  - rewrite !bits6_eq, !bits8_eq. subst tmp. cbn [app skipn].
    list_bits.
  - rewrite of_to_bits8 by apply land255_range. reflexivity.
Qed.

Lemma dec_tail3_spec : forall a b c, 0 <= a < 256 -> 0 <= b < 256 -> 0 <= c < 256 ->
  exists o1 o2 r,
    to_bits 6 (value a) ++ to_bits 6 (value b) ++ to_bits 6 (value c) = o1 ++ o2 ++ r /\
    length o1 = 8%nat /\ length o2 = 8%nat /\ length r = 2%nat /\
    dec_tail [a; b; c] = [of_bits o1; of_bits o2].
Proof.
  intros a b c Ha Hb Hc. unfold dec_tail.
  change (length [a; b; c] * 3 / 4)%nat with 2%nat.
  cbn [dec_rem_out dec_rem_tmp].
  rewrite !dec_lut_value by assumption.
  pose proof (value_range a) as Va. pose proof (value_range b) as Vb.
  pose proof (value_range c) as Vc.
  set (va := value a) in *. set (vb := value b) in *. set (vc := value c) in *.
  clearbody va vb vc.
  set (tmp := Z.lor _ _).
  exists (to_bits 8 (Z.land (Z.shiftr tmp ((2 - 0) * 8)) 255)),
         (to_bits 8 (Z.land (Z.shiftr tmp ((2 - (0 + 1)) * 8)) 255)),
         (skipn 4 (to_bits 6 vc)).
  repeat split.
  - rewrite !bits6_eq, !bits8_eq. subst tmp. cbn [app skipn].
    list_bits.
  - rewrite !of_to_bits8 by apply land255_range. reflexivity.
Qed.

Lemma dec_body_spec : forall s, all_bytes s ->
  dec_body s = octets_of_bits (flat_map (to_bits 6) (map value s)).
Proof.
  intros s. remember (length s) as n eqn:Hn. revert s Hn.
  induction n as [n IH] using lt_wf_ind. intros s Hn Hs.
  destruct s as [|a s]; [reflexivity|]. inversion Hs as [|? ? Ha Hs1]; subst.
  destruct s as [|b s].
  { cbn [dec_body map flat_map]. rewrite octets_short; [reflexivity|].
    rewrite app_nil_r, to_bits_length. lia. }
  inversion Hs1 as [|? ? Hb Hs2]; subst.
  destruct s as [|c s].
  { cbn [dec_body map flat_map]. rewrite app_nil_r.
    destruct (dec_tail2_spec a b) as (o1 & r & Heq & H1 & Hr & Hd); [assumption..|].
    rewrite Heq, Hd, octets_app8, octets_short by lia. reflexivity. }
  inversion Hs2 as [|? ? Hc Hs3]; subst.
  destruct s as [|d s].
  { cbn [dec_body map flat_map]. rewrite app_nil_r.
    destruct (dec_tail3_spec a b c) as (o1 & o2 & r & Heq & H1 & H2 & Hr & Hd); [assumption..|].
    rewrite Heq, Hd, !octets_app8, octets_short by lia. reflexivity. }
  inversion Hs3 as [|? ? Hd Hs4]; subst.
  cbn [dec_body map flat_map].
  destruct (dec_group_spec a b c d) as (o1 & o2 & o3 & Heq & H1 & H2 & H3 & Hg); [assumption..|].
  rewrite Hg.
  assert (Hx : forall t, to_bits 6 (value a) ++ to_bits 6 (value b) ++ to_bits 6 (value c) ++
     to_bits 6 (value d) ++ t = o1 ++ o2 ++ o3 ++ t).
  { intros t. transitivity ((to_bits 6 (value a) ++ to_bits 6 (value b) ++ to_bits 6 (value c) ++
     to_bits 6 (value d)) ++ t); [rewrite <- !app_assoc; reflexivity|].
    rewrite Heq, <- !app_assoc. reflexivity. }
  rewrite Hx.
  rewrite (octets_app8 o1), (octets_app8 o2), (octets_app8 o3) by assumption.
  cbn [map app]. do 3 f_equal.
  apply (IH (length s)); [cbn; lia|reflexivity|assumption].
Qed.

Lemma before_pad_cstr : forall s rest, c_string s ->
  before_pad (s ++ 0 :: rest) = upto_pad s.
Proof.
  intros s rest H. induction H as [|c s Hc Hs IH].
  - reflexivity.
  - cbn [app before_pad upto_pad]. change pad_char with 61.
    destruct (c =? 61) eqn:E; [reflexivity|].
    replace (c =? 0) with false by lia. cbn [orb]. f_equal. exact IH.
Qed.

Lemma is_valid_cstr : forall s rest, c_string s ->
  (acceptable s /\ base64_is_valid (s ++ 0 :: rest) = Ok true) \/
  (~ acceptable s /\ base64_is_valid (s ++ 0 :: rest) = Ok false).
Proof.
  intros s rest H. induction H as [|c s Hc Hs IH].
  - left. split; [constructor|reflexivity].
  - cbn [app base64_is_valid]. replace (c =? 0) with false by lia.
    rewrite validation_lut_spec by lia.
    destruct (digit c) as [v|] eqn:Ed; cbn [orb].
    + destruct IH as [[Ha Hv]|[Ha Hv]]; [left|right]; rewrite Hv; split; try reflexivity.
      * constructor; [left; congruence|exact Ha].
      * intros Hacc. inversion Hacc; subst. contradiction.
    + destruct (c =? pad_char) eqn:Ep.
      * destruct IH as [[Ha Hv]|[Ha Hv]]; [left|right]; rewrite Hv; split; try reflexivity.
        -- constructor; [right; lia|exact Ha].
        -- intros Hacc. inversion Hacc; subst. contradiction.
      * right. split; [|reflexivity]. intros Hacc. inversion Hacc as [|? ? [Hx|Hx] _]; subst.
        -- contradiction.
        -- lia.
Qed.

Lemma upto_pad_bytes : forall s, c_string s -> all_bytes (upto_pad s).
Proof.
  intros s H. induction H as [|c s Hc Hs IH]; cbn [upto_pad]; [constructor|].
  destruct (c =? pad_char); constructor; [unfold is_byte; lia|exact IH].
Qed.

Lemma upto_pad_length : forall s, (length (upto_pad s) <= length s)%nat.
Proof.
  induction s as [|c s IH]; cbn [upto_pad length]; [lia|].
  destruct (c =? pad_char); cbn [length]; lia.
Qed.

Lemma dec_body_length : forall s,
  (length (dec_body s) <= 3 * ((length s + 3) / 4))%nat.
Proof.
  intros s. remember (length s) as n eqn:Hn. revert s Hn.
  induction n as [n IH] using lt_wf_ind. intros s Hn.
  destruct s as [|a [|b [|c [|d s]]]]; try (subst; cbn; lia).
  cbn [dec_body length] in *. rewrite app_length.
  specialize (IH (length s) ltac:(lia) s eq_refl).
  replace (n + 3)%nat with (length s + 3 + 1 * 4)%nat by lia.
  rewrite Nat.div_add by lia. cbn [dec_group length]. lia.
Qed.

Lemma decode_exact : forall s rest, c_string s ->
  (acceptable s /\
   base64_decode (s ++ 0 :: rest) = Ok (Some (octets_of_digits (map value (upto_pad s))))) \/
  (~ acceptable s /\ base64_decode (s ++ 0 :: rest) = Ok None).
Proof.
  intros s rest H. unfold base64_decode. rename H into Hs.
  destruct (is_valid_cstr s rest Hs) as [[Ha Hv]|[Ha Hv]]; rewrite Hv; cbn [bind].
  - left. split; [exact Ha|]. rewrite before_pad_cstr by exact Hs.
    rewrite dec_body_spec by (apply upto_pad_bytes; exact Hs). reflexivity.
  - right. split; [exact Ha|reflexivity].
Qed.

Lemma decode_length : forall s rest out, c_string s ->
  base64_decode (s ++ 0 :: rest) = Ok (Some out) ->
  Z.of_nat (length out) <= BASE64_DECODED_MAX_SIZE (Z.of_nat (length s)).
Proof.
  intros s rest out Hs H. unfold base64_decode in H.
  destruct (base64_is_valid (s ++ 0 :: rest)) as [[|]|]; try discriminate.
  cbn [bind] in H. inversion H; subst; clear H.
  rewrite before_pad_cstr by exact Hs.
  pose proof (dec_body_length (upto_pad s)) as Hd.
  pose proof (upto_pad_length s) as Hu.
  unfold BASE64_DECODED_MAX_SIZE.
  assert (Hm : ((length (upto_pad s) + 3) / 4 <= (length s + 3) / 4)%nat)
    by (apply Nat.div_le_mono; lia).
  rewrite <- (Nat2Z.inj_add _ 3), <- (Nat2Z.inj_div _ 4). nia.
Qed.

(** Round trip. *)

Lemma c_string_app : forall a b, c_string a -> c_string b -> c_string (a ++ b).
Proof. intros a b Ha Hb. apply Forall_app. split; assumption. Qed.

Lemma of_bits6_range : forall g, (length g <= 6)%nat -> 0 <= of_bits (fill 6 g) < 64.
Proof.
  intros g Hg. unfold fill, of_bits.
  destruct g as [|g0 [|g1 [|g2 [|g3 [|g4 [|g5 [|]]]]]]]; try (cbn in Hg; lia);
  cbn [app length Nat.sub repeat fold_left];
  repeat match goal with |- context [if ?b then _ else _] => destruct b end; cbn; lia.
Qed.

Lemma to_of_bits6 : forall g, (length g <= 6)%nat ->
  to_bits 6 (of_bits (fill 6 g)) = fill 6 g.
Proof.
  intros g Hg.
  destruct g as [|g0 [|g1 [|g2 [|g3 [|g4 [|g5 [|]]]]]]]; try (cbn in Hg; lia);
  repeat match goal with b : bool |- _ => destruct b end; reflexivity.
Qed.

Lemma chunks_le : forall A k (l : list A) f, (0 < k)%nat ->
  Forall (fun g => (length g <= k)%nat) (chunks f k l).
Proof.
  intros A k l f Hk. revert l. induction f as [|f IH]; intros l; [constructor|].
  destruct l as [|x l]; [constructor|]. cbn [chunks]. constructor; [|apply IH].
  rewrite firstn_length. lia.
Qed.

Lemma upto_pad_digits : forall ds tail, Forall (fun v => 0 <= v < 64) ds ->
  upto_pad (map alphabet ds ++ repeat pad_char tail) = map alphabet ds.
Proof.
  intros ds tail H. induction H as [|v ds Hv Hds IH].
  - destruct tail; reflexivity.
  - cbn [map app upto_pad]. destruct (alphabet_ok v Hv) as (_ & Hne & _).
    replace (alphabet v =? pad_char) with false by lia. f_equal. exact IH.
Qed.

Lemma chunks_flat : forall A k (l : list A) f, (0 < k)%nat -> (length l <= f)%nat ->
  concat (chunks f k l) = l.
Proof.
  intros A k l f Hk. revert l. induction f as [|f IH]; intros l Hf.
  - destruct l; [reflexivity|cbn in Hf; lia].
  - destruct l as [|x l]; [reflexivity|]. cbn [chunks concat].
    rewrite IH; [apply firstn_skipn|]. rewrite skipn_length. cbn [length] in *. lia.
Qed.

(* Filling the last group adds fewer than six bits. *)
Lemma fill_concat : forall (l : list bool) f, (length l <= f)%nat ->
  exists r, (r < 6)%nat /\
    flat_map (fill 6) (chunks f 6 l) = l ++ repeat false r.
Proof.
  intros l f. revert l. induction f as [|f IH]; intros l Hf.
  - destruct l; [|cbn in Hf; lia]. exists 0%nat. split; [lia|reflexivity].
  - destruct l as [|x l]; [exists 0%nat; split; [lia|reflexivity]|].
    cbn [chunks flat_map].
    destruct (le_lt_dec 6 (length (x :: l))) as [Hge|Hlt].
    + destruct (IH (skipn 6 (x :: l))) as (r & Hr & Heq).
      { rewrite skipn_length. cbn [length] in *. lia. }
      exists r. split; [exact Hr|]. rewrite Heq.
      rewrite fill_full by (rewrite firstn_length; lia).
      rewrite app_assoc, firstn_skipn. reflexivity.
    + rewrite firstn_all2 by lia. rewrite skipn_all2 by lia.
      exists (6 - length (x :: l))%nat. split; [cbn [length]; lia|].
      unfold fill. destruct f; cbn [chunks flat_map]; rewrite app_nil_r; reflexivity.
Qed.

Lemma octets_of_bytes : forall bs r, all_bytes bs -> (r < 8)%nat ->
  octets_of_bits (flat_map (to_bits 8) bs ++ repeat false r) = bs.
Proof.
  intros bs r H Hr. induction H as [|b bs Hb Hbs IH].
  - cbn [flat_map app]. apply octets_short. rewrite repeat_length. exact Hr.
  - cbn [flat_map]. rewrite <- app_assoc, octets_app8 by apply to_bits_length.
    rewrite of_to_bits8 by exact Hb. f_equal. exact IH.
Qed.

Lemma rfc_round_trip : forall bs rest, all_bytes bs ->
  base64_decode (rfc4648 bs ++ 0 :: rest) = Ok (Some bs).
Proof.
  intros bs rest Hb.
  set (bits := flat_map (to_bits 8) bs).
  set (ds := map (fun g => of_bits (fill 6 g)) (chunks (length bits) 6 bits)).
  assert (Hds : Forall (fun v => 0 <= v < 64) ds).
  { subst ds. apply Forall_map. eapply Forall_impl; [|apply chunks_le; lia].
    intros g Hg. apply of_bits6_range. exact Hg. }
  assert (Hr : exists p, rfc4648 bs = map alphabet ds ++ repeat pad_char p).
  { unfold rfc4648. fold bits.
    replace (map (fun g => alphabet (of_bits (fill 6 g))) (chunks (length bits) 6 bits))
      with (map alphabet ds) by (subst ds; rewrite map_map; reflexivity).
    eexists. reflexivity. }
  destruct Hr as [p Hp]. rewrite Hp.
  assert (Hc : c_string (map alphabet ds ++ repeat pad_char p)).
  { apply c_string_app.
    - apply Forall_map. eapply Forall_impl; [|exact Hds].
      intros v Hv. apply alphabet_ok. exact Hv.
    - apply Forall_forall. intros x Hx. apply repeat_spec in Hx. subst. unfold pad_char. lia. }
  destruct (decode_exact _ rest Hc) as [[_ Hd]|[Hna _]].
  - rewrite Hd. do 2 f_equal. rewrite upto_pad_digits by exact Hds.
    rewrite map_map. rewrite (map_ext_in _ (fun v => v)).
    2:{ intros v Hv. apply alphabet_value. rewrite Forall_forall in Hds. auto. }
    rewrite map_id. change (octets_of_digits ds) with (octets_of_bits (flat_map (to_bits 6) ds)).
    replace (flat_map (to_bits 6) ds) with (flat_map (fill 6) (chunks (length bits) 6 bits)).
    2:{ subst ds. rewrite flat_map_concat_map, flat_map_concat_map, map_map. f_equal.
        apply map_ext_in. intros g Hg. symmetry. apply to_of_bits6.
        pose proof (chunks_le bool 6 bits (length bits) ltac:(lia)) as Hle.
        rewrite Forall_forall in Hle. auto. }
    destruct (fill_concat bits (length bits) (le_n _)) as (r & Hr & Heq).
    rewrite Heq. apply octets_of_bytes; [assumption|lia].
  - exfalso. apply Hna. apply Forall_app. split.
    + apply Forall_map. eapply Forall_impl; [|exact Hds].
      intros v Hv. left. apply alphabet_ok. exact Hv.
    + apply Forall_forall. intros x Hx. apply repeat_spec in Hx. right. exact Hx.
Qed.
