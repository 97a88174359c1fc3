(** The names of pixel orders given to turbojpeg. *)
From Verif Require Import Common CommonProofs Pixels_Model Zrle_Model Zrle_Spec Tight_Model Tight_Spec Tight_Proofs Tight2_Proofs.

Lemma land_byte v k : 0 <= k -> Z.land (Z.shiftr v k) 255 = (v / 2 ^ k) mod 256.
Proof.
  intros K. rewrite Z.shiftr_div_pow2 by assumption. change 255 with (Z.ones 8). rewrite Z.land_ones by lia. reflexivity.
Qed.

Lemma unle_cons a l : unle (a :: l) = a + 256 * unle l.
Proof. unfold unle. cbn [rev]. rewrite unbe_app1. lia. Qed.

Lemma unle_nth l : all_bytes l -> forall n b, nth_error l n = Some b -> b = (unle l / 2 ^ (8 * Z.of_nat n)) mod 256.
Proof.
  unfold all_bytes, is_byte. induction l as [|a l IH]; intros A n b H; [destruct n; discriminate|].
  apply Forall_cons_iff in A as [A1 A]. rewrite unle_cons. destruct n as [|n].
  - injection H as <-. change (2 ^ (8 * Z.of_nat 0)) with 1. rewrite Z.div_1_r.
    rewrite Z.mul_comm, Z.mod_add by lia. symmetry. apply Z.mod_small. lia.
  - cbn [nth_error] in H. rewrite (IH A n b H). replace (8 * Z.of_nat (S n)) with (8 + 8 * Z.of_nat n) by lia.
    rewrite Z.pow_add_r by lia. rewrite <- Z.div_div by (lia || (apply Z.pow_pos_nonneg; lia)).
    change (2 ^ 8) with 256. f_equal. f_equal. rewrite Z.mul_comm, Z.div_add by lia. rewrite Z.div_small by lia. lia.
Qed.

Lemma names_at (name : string) src :
  bits_per_pixel src = 8 * Z.of_nat (String.length name) ->
  red_max src = 255 -> green_max src = 255 -> blue_max src = 255 ->
  (exists i j k, (i < String.length name)%nat /\ (j < String.length name)%nat /\ (k < String.length name)%nat /\
    red_shift src = 8 * Z.of_nat i /\ green_shift src = 8 * Z.of_nat j /\ blue_shift src = 8 * Z.of_nat k /\
    String.get i name = Some "R"%char /\ String.get j name = Some "G"%char /\ String.get k name = Some "B"%char) ->
  names_colours name src.
Proof.
  intros B M1 M2 M3 (i & j & k & Li & Lj & Lk & Si & Sj & Sk & Ri & Gj & Bk). split; [exact B|].
  intros px A N letter shift max H. rewrite M1, M2, M3, Si, Sj, Sk in H.
  assert (K : forall n, (n < String.length name)%nat -> nth_error px n = Some (Z.land (Z.shiftr (unle px) (8 * Z.of_nat n)) 255)).
  { intros n L. rewrite land_byte by lia. destruct (nth_error px n) as [b|] eqn:E.
    - rewrite <- (unle_nth px A n b E). reflexivity.
    - apply nth_error_None in E. lia. }
  destruct H as [H|[H|[H|[]]]]; injection H as <- <- <-; eexists; (split; [eassumption|]); apply K; assumption.
Qed.

Lemma plain_code f : Z.testbit f 31 = false -> Z.land f (Z.lnot BIG_ENDIAN) = f.
Proof.
  intros T. apply Z.bits_inj'. intros n N. rewrite Z.land_spec, Z.lnot_spec by lia. unfold BIG_ENDIAN.
  destruct (Z.eq_dec n 31) as [->|D]; [rewrite T; reflexivity|].
  rewrite Z.pow2_bits_false by lia. apply andb_true_r.
Qed.

(** The model's table of names. *)
Lemma jpeg_names f src : pixfmt_from_fourcc f = Some src ->
  match jpeg_pixfmt f with
  | Some name => names_colours name src
  | None => ~ bytes_of_colour src
  end.
Proof.
  intros P. destruct (jpeg_pixfmt f) as [name|] eqn:E.
  - unfold jpeg_pixfmt in E. cbn [existsb] in E. rewrite !orb_false_r in E.
    repeat match type of E with (if ?b then _ else _) = _ => destruct b eqn:?D end; try discriminate E; injection E as <-;
      repeat match goal with H : _ || _ = true |- _ => apply orb_true_iff in H as [H|H] end;
      match goal with H : (f =? _) = true |- _ => apply Z.eqb_eq in H; subst f end;
      vm_compute in P; injection P as <-; apply names_at; try reflexivity;
      match goal with |- exists _ _ _, (_ < String.length ?s)%nat /\ _ =>
        let r := eval vm_compute in (String.index 0 "R"%string s) in
        let g := eval vm_compute in (String.index 0 "G"%string s) in
        let b := eval vm_compute in (String.index 0 "B"%string s) in
        match r with Some ?i => match g with Some ?j => match b with Some ?k => exists i, j, k end end end
      end; cbn; repeat split; lia.
  - intros (M1 & M2 & M3 & BE). unfold pixfmt_from_fourcc in P.
    destruct (layout_of_fourcc f) as [[[[rs gs] bs] [[bpp dep] max]]|] eqn:Ly; [|discriminate].
    assert (P2 := f_equal (fun o => match o with Some g => g | None => src end) P). cbv beta iota in P2. clear P. subst src.
    cbn [red_max green_max blue_max big_endian_flag] in *.
    destruct (Z.testbit f 31) eqn:T; [discriminate BE|].
    unfold layout_of_fourcc in Ly. cbv zeta in Ly. rewrite (plain_code f T) in Ly.
    unfold jpeg_pixfmt in E. cbn [existsb] in E. rewrite !orb_false_r in E.
    repeat match type of Ly with (if ?b then _ else _) = _ => destruct b eqn:?D end;
      assert (X := f_equal (fun o => match o with Some (_, (_, _, m)) => m | None => 0 end) Ly); cbv beta iota in X;
      rewrite M1 in X; try discriminate X; clear X Ly M1 M2 M3 BE T;
      repeat match goal with H : _ || _ = true |- _ => apply orb_true_iff in H as [H|H] end;
      match goal with H : (f =? _) = true |- _ => apply Z.eqb_eq in H; subst f end; vm_compute in E; discriminate E.
Qed.

Lemma source_bits f src : pixfmt_from_fourcc f = Some src -> 0 <= bits_per_pixel src.
Proof.
  unfold pixfmt_from_fourcc. destruct (layout_of_fourcc f) as [[[[rs gs] bs] [[bpp dep] max]]|] eqn:Ly; [|discriminate].
  intros P. assert (P2 := f_equal (fun o => match o with Some g => g | None => src end) P). cbv beta iota in P2. clear P. subst src.
  cbn [bits_per_pixel]. unfold layout_of_fourcc in Ly. cbv zeta in Ly.
  repeat match type of Ly with (if ?b then _ else _) = _ => destruct b eqn:?D end;
    assert (X := f_equal (fun o => match o with Some (_, (b, _, _)) => b | None => bpp end) Ly); cbv beta iota in X;
    rewrite <- ?X; try discriminate; discriminate Ly.
Qed.

Lemma made_shows tj f xp yp r : pixfmt_from_fourcc (tf_fourcc f) = Some (tf_src f) ->
  jpeg_made tj f xp yp r -> jpeg_shows tj f xp yp r.
Proof.
  intros Fc (image & T & J). exists image. split; [exact T|]. pose proof (jpeg_names _ _ Fc) as N.
  destruct (jpeg_pixfmt (tf_fourcc f)) as [name|].
  - right. destruct J as (img & P & M). exists name, img. auto.
  - left. auto.
Qed.
