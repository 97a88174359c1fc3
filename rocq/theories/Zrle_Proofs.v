From Verif Require Import Common CommonProofs Ws_Proofs WsStream_Proofs RsaAes_Proofs.
From Verif Require Import Pixels_Model Pixels_Proofs Zrle_Model Zrle_Spec.

Lemma px_eqb_true : forall a b, px_eqb a b = true <-> a = b.
Proof. intros a b. unfold px_eqb. destruct (list_eq_dec Z.eq_dec a b); split; congruence. Qed.

(** The palette. *)
Lemma find_colour_from_ok : forall palette i c, In c palette ->
  exists k, (k < length palette)%nat /\ find_colour_from i palette c = i + Z.of_nat k /\
    nth_error palette k = Some c.
Proof.
  induction palette as [|d palette IH]; intros i c H; [contradiction|].
  cbn [find_colour_from length]. destruct (px_eqb d c) eqn:E.
  - apply px_eqb_true in E. subst. exists O. repeat split; [lia|lia].
  - destruct H as [->|H].
    + assert (px_eqb c c = true) by (apply px_eqb_true; reflexivity). congruence.
    + destruct (IH (i + 1) c H) as [k [L [F N]]]. exists (S k). repeat split; [lia|lia|exact N].
Qed.

Lemma find_colour_ok : forall palette c, In c palette ->
  exists k, (k < length palette)%nat /\ find_colour palette c = Z.of_nat k /\
    nth_error palette k = Some c.
Proof. intros palette c H. destruct (find_colour_from_ok palette 0 c H) as [k [? [? ?]]]. exists k. auto. Qed.

Lemma find_colour_from_not : forall palette i c, 0 <= i -> find_colour_from i palette c >= 0 -> In c palette.
Proof.
  induction palette as [|d palette IH]; intros i c Hi H; cbn [find_colour_from] in H; [lia|].
  destruct (px_eqb d c) eqn:E.
  - apply px_eqb_true in E. left. exact E.
  - right. apply (IH (i + 1)); [lia|exact H].
Qed.

Lemma palette_loop_ok : forall px bpp palette palette',
  palette_loop bpp palette px = Ok (Some palette') ->
  (length palette <= 16)%nat ->
  exists ext, palette' = palette ++ ext /\ (length palette' <= 16)%nat /\
    (forall p, In p px -> In p palette') /\ (forall p, In p ext -> In p px).
Proof.
  induction px as [|c px IH]; intros bpp palette palette' H L; cbn [palette_loop] in H.
  - injection H as <-. exists []. rewrite app_nil_r. repeat split; [exact L|contradiction|contradiction].
  - destruct (find_colour palette c <? 0) eqn:F.
    + destruct (Z.of_nat (length palette) >=? 16) eqn:G; [discriminate|].
      destruct (_ <=? 16 * 4) eqn:K; [|discriminate].
      destruct (IH _ _ _ H) as [ext [E [L' [A B]]]]; [rewrite app_length; cbn [length]; lia|].
      exists (c :: ext). rewrite <- app_assoc in E. repeat split; [exact E|exact L'| |].
      * intros p [->|P]; [rewrite E; apply in_or_app; right; left; reflexivity|auto].
      * intros p [->|P]; [left; reflexivity|right; auto].
    + destruct (IH _ _ _ H L) as [ext [E [L' [A B]]]]. exists ext. repeat split; [exact E|exact L'| |].
      * intros p [<-|P]; [|auto]. rewrite E. apply in_or_app. left.
        apply (find_colour_from_not _ 0); [lia|]. fold (find_colour palette c). lia.
      * intros p P. right. auto.
Qed.

Lemma palette_loop_total : forall px bpp palette, 0 <= bpp <= 4 ->
  exists r, palette_loop bpp palette px = Ok r.
Proof.
  induction px as [|c px IH]; intros bpp palette B; cbn [palette_loop]; [eauto|].
  destruct (find_colour palette c <? 0); [|apply IH; exact B].
  destruct (Z.of_nat (length palette) >=? 16) eqn:G; [eauto|].
  replace (_ <=? 16 * 4) with true by nia. apply IH; exact B.
Qed.

Lemma get_tile_palette_ok : forall bpp px palette, get_tile_palette bpp px = Ok (Some palette) ->
  palette <> [] /\ (length palette <= 16)%nat /\ (forall p, In p px <-> In p palette).
Proof.
  intros bpp [|c px] palette H; cbn [get_tile_palette] in H; [discriminate|].
  destruct (palette_loop_ok _ _ _ _ H) as [ext [E [L [A B]]]]; [cbn; lia|].
  split; [rewrite E; discriminate|]. split; [exact L|]. intros p. split; [apply A|].
  rewrite E. cbn [app]. intros [<-|P]; [left; reflexivity|auto].
Qed.

(** Runs. *)
Lemma append_8_ok : forall v b v', append_8 v b = Ok v' ->
  tdata v' = tdata v ++ [b mod 256] /\ tcap v' = tcap v.
Proof. intros v b v' H. unfold append_8 in H. destruct (_ <? _); [|discriminate]. injection H as <-. auto. Qed.

Lemma append_8_total : forall v b, zlen (tdata v) < tcap v ->
  append_8 v b = Ok (mk_tv (tdata v ++ [b mod 256]) (tcap v)).
Proof. intros v b H. unfold append_8. replace (_ <? _) with true by lia. reflexivity. Qed.

Lemma run_escapes_ok : forall fuel dst R dst' R', run_escapes fuel dst R = Ok (dst', R') -> 0 < R ->
  exists k, tdata dst' = tdata dst ++ repeat 255 k /\ R = 255 * Z.of_nat k + R' /\ 0 < R' <= 255 /\
    tcap dst' = tcap dst.
Proof.
  induction fuel as [|fuel IH]; intros dst R dst' R' H P; cbn [run_escapes] in H;
    destruct (R >? 255) eqn:E; try discriminate.
  1, 3: injection H as <- <-; exists O; cbn [repeat]; rewrite app_nil_r; repeat split; lia.
  destruct (append_8 dst 255) as [d|] eqn:A; cbn [bind] in H; [|discriminate].
  apply append_8_ok in A as [A1 A2]. destruct (IH _ _ _ _ H) as [k [T [Q [B C]]]]; [lia|].
  exists (S k). repeat split; [|lia|lia|lia|congruence].
  rewrite T, A1, <- app_assoc. reflexivity.
Qed.

Lemma run_escapes_total : forall fuel dst R, 0 < R -> R <= Z.of_nat fuel ->
  zlen (tdata dst) + R - 1 <= tcap dst ->
  exists x, run_escapes fuel dst R = Ok x.
Proof.
  induction fuel as [|fuel IH]; intros dst R P F C; cbn [run_escapes]; destruct (R >? 255) eqn:E;
    try lia; eauto.
  rewrite append_8_total by lia. cbn [bind]. apply IH; cbn [tdata tcap]; try lia.
  rewrite zlen_app. change (zlen [255 mod 256]) with 1. lia.
Qed.

(** The bytes of a run. *)
Definition run_bytes (index R : Z) (bytes : list Z) : Prop :=
  (R = 1 /\ bytes = [index]) \/
  (1 < R /\ exists k r, bytes = [index + 128] ++ repeat 255 k ++ [r - 1] /\
     R = 255 * Z.of_nat k + r /\ 0 < r <= 255).

Lemma lor_128 : forall i, 0 <= i < 128 -> Z.lor i 128 = i + 128.
Proof.
  intros i H. apply lor_sum. apply Z.bits_inj'. intros n Hn.
  rewrite Z.land_spec, Z.bits_0. destruct (Z.eq_dec n 7) as [->|N].
  - rewrite (testbit_small i 7 7); [reflexivity|lia|lia].
  - change 128 with (2 ^ 7). rewrite Z.pow2_bits_false by lia. apply andb_false_r.
Qed.

Lemma encode_run_length_ok : forall dst index R dst', encode_run_length dst index R = Ok dst' ->
  0 <= index < 128 -> 0 < R ->
  exists bytes, tdata dst' = tdata dst ++ bytes /\ tcap dst' = tcap dst /\ run_bytes index R bytes.
Proof.
  intros dst index R dst' H I P. unfold encode_run_length in H. cbv zeta in H.
  rewrite (Z.mod_small index 256) in H by lia. destruct (R =? 1) eqn:E.
  - apply append_8_ok in H as [H1 H2]. exists [index]. rewrite Z.mod_small in H1 by lia.
    repeat split; [exact H1|exact H2|]. left. split; [lia|reflexivity].
  - destruct (append_8 dst (Z.lor index 128)) as [d|] eqn:A; cbn [bind] in H; [|discriminate].
    destruct (run_escapes _ d R) as [[d2 r]|] eqn:B; cbn [bind fst snd] in H; [|discriminate].
    apply append_8_ok in A as [A1 A2]. apply append_8_ok in H as [H1 H2].
    destruct (run_escapes_ok _ _ _ _ _ B P) as [k [T [Q [Br C]]]].
    rewrite lor_128 in A1 by exact I. rewrite (Z.mod_small (index + 128)) in A1 by lia.
    rewrite Z.mod_small in H1 by lia.
    exists ([index + 128] ++ repeat 255 k ++ [r - 1]). repeat split.
    + rewrite H1, T, A1, <- !app_assoc. reflexivity.
    + congruence.
    + right. split; [lia|]. exists k, r. auto.
Qed.

Lemma run_bytes_size : forall index R bytes, run_bytes index R bytes -> 1 <= zlen bytes <= R.
Proof.
  intros index R bytes [[-> ->]|[P [k [r [-> [Q B]]]]]]; [cbn; lia|].
  unfold zlen. rewrite !app_length, repeat_length. cbn [length]. lia.
Qed.

Lemma encode_run_length_total : forall dst index R, 0 < R ->
  zlen (tdata dst) + R <= tcap dst -> exists dst', encode_run_length dst index R = Ok dst'.
Proof.
  intros dst index R P C. unfold encode_run_length. cbv zeta. destruct (R =? 1) eqn:E.
  - rewrite append_8_total by lia. eauto.
  - rewrite append_8_total by lia. cbn [bind].
    set (d := mk_tv _ _).
    assert (Ld : zlen (tdata d) = zlen (tdata dst) + 1) by (unfold d; cbn [tdata]; rewrite zlen_app; reflexivity).
    assert (Cd : tcap d = tcap dst) by reflexivity.
    destruct (run_escapes_total (Z.to_nat R) d R) as [[d2 r] E2]; [lia|lia|lia|].
    rewrite E2. cbn [bind fst snd].
    destruct (run_escapes_ok _ _ _ _ _ E2 P) as [k [T [Q [Br Ck]]]].
    rewrite append_8_total; [eauto|]. rewrite Ck, Cd, T, zlen_app, Ld.
    unfold zlen at 2. rewrite repeat_length. lia.
Qed.

Lemma read_run_escapes : forall k r rest, 0 < r <= 255 ->
  read_run (repeat 255 k ++ [r - 1] ++ rest) = Some (255 * Z.of_nat k + r, rest).
Proof.
  induction k as [|k IH]; intros r rest H; cbn [repeat app read_run].
  - replace (r - 1 =? 255) with false by lia. f_equal. f_equal. lia.
  - change (255 =? 255) with true. cbv iota. cbn [app] in IH. rewrite IH by exact H.
    f_equal. f_equal. lia.
Qed.

Lemma read_runs_step : forall fuel palette index R bytes todo rest c, run_bytes index R bytes ->
  0 <= index < 128 -> nth_error palette (Z.to_nat index) = Some c -> 0 < R <= todo ->
  read_runs (S fuel) palette todo (bytes ++ rest) =
  match read_runs fuel palette (todo - R) rest with
  | Some (ps, l) => Some (repeat c (Z.to_nat R) ++ ps, l)
  | None => None
  end.
Proof.
  intros fuel palette index R bytes todo rest c B I N T.
  destruct B as [[-> ->]|[P [k [r [-> [Q Br]]]]]]; cbn [app read_runs].
  - replace (todo =? 0) with false by lia. replace (index <? 128) with true by lia. cbv iota.
    replace (1 >? todo) with false by lia. rewrite N. reflexivity.
  - replace (todo =? 0) with false by lia. replace (index + 128 <? 128) with false by lia.
    rewrite <- app_assoc, read_run_escapes by exact Br. cbv iota.
    rewrite <- Q. replace (R >? todo) with false by lia.
    replace (index + 128 - 128) with index by lia. rewrite N. reflexivity.
Qed.

Lemma repeat_snoc : forall A (c : A) n, repeat c n ++ [c] = repeat c (S n).
Proof. induction n; cbn [repeat app]; [reflexivity|]. rewrite IHn. reflexivity. Qed.

Lemma packed_loop_ok : forall px dst palette prev R dst' (f : list Z -> list Z),
  packed_loop dst palette prev R px = Ok dst' -> 0 < R -> (length palette <= 16)%nat ->
  In prev palette -> (forall p, In p px -> In p palette) ->
  exists bytes, tdata dst' = tdata dst ++ bytes /\ tcap dst' = tcap dst /\
    zlen bytes <= R + Z.of_nat (length px) /\
    forall fuel rest, (length px < fuel)%nat ->
      read_runs fuel (map f palette) (R + Z.of_nat (length px)) (bytes ++ rest)
        = Some (repeat (f prev) (Z.to_nat R) ++ map f px, rest).
Proof.
  induction px as [|c px IH]; intros dst palette prev R dst' f H P L Ip Ia; cbn [packed_loop] in H.
  - replace (R >? 0) with true in H by lia.
    destruct (find_colour_ok palette prev Ip) as [k [Lk [F N]]]. rewrite F in H.
    destruct (encode_run_length_ok _ _ _ _ H) as [bytes [T [C B]]]; [lia|exact P|].
    exists bytes. pose proof (run_bytes_size _ _ _ B).
    split; [exact T|]. split; [exact C|]. split; [cbn [length]; lia|].
    intros fuel rest Hf. destruct fuel; [cbn [length] in Hf; lia|]. cbn [length].
    rewrite (read_runs_step fuel _ (Z.of_nat k) R bytes _ rest (f prev)); [|exact B|lia| |lia].
    + replace (R + Z.of_nat 0 - R) with 0 by lia.
      destruct fuel; cbn [read_runs]; change (0 =? 0) with true; cbv iota; reflexivity.
    + rewrite Nat2Z.id. apply map_nth_error. exact N.
  - destruct (px_eqb c prev) eqn:E.
    + apply px_eqb_true in E. subst c.
      destruct (IH _ _ _ _ _ f H) as [bytes [T [C [Z D]]]]; [lia|exact L|exact Ip|intros; apply Ia; right; auto|].
      exists bytes. split; [exact T|]. split; [exact C|]. split; [cbn [length]; lia|].
      intros fuel rest Hf. cbn [length] in *.
      replace (R + Z.of_nat (S (length px))) with (R + 1 + Z.of_nat (length px)) by lia.
      rewrite D by lia. replace (Z.to_nat (R + 1)) with (S (Z.to_nat R)) by lia.
      rewrite <- repeat_snoc, <- app_assoc. reflexivity.
    + destruct (find_colour_ok palette prev Ip) as [k [Lk [F N]]]. rewrite F in H.
      destruct (encode_run_length dst (Z.of_nat k) R) as [d|] eqn:G; cbn [bind] in H; [|discriminate].
      destruct (encode_run_length_ok _ _ _ _ G) as [b1 [T1 [C1 B1]]]; [lia|exact P|].
      pose proof (run_bytes_size _ _ _ B1).
      destruct (IH _ _ _ _ _ f H) as [b2 [T2 [C2 [Z2 D2]]]]; [lia|exact L|apply Ia; left; reflexivity|
        intros; apply Ia; right; auto|].
      exists (b1 ++ b2). split; [rewrite T2, T1, app_assoc; reflexivity|].
      split; [congruence|]. split; [rewrite zlen_app; cbn [length]; lia|].
      intros fuel rest Hf. cbn [length] in *. destruct fuel; [lia|].
      rewrite <- app_assoc.
      rewrite (read_runs_step fuel _ (Z.of_nat k) R b1 _ _ (f prev)); [|exact B1|lia| |lia].
      * replace (R + Z.of_nat (S (length px)) - R) with (1 + Z.of_nat (length px)) by lia.
        rewrite D2 by lia. reflexivity.
      * rewrite Nat2Z.id. apply map_nth_error. exact N.
Qed.

Lemma packed_loop_total : forall px dst palette prev R, 0 < R -> (length palette <= 16)%nat ->
  In prev palette -> (forall p, In p px -> In p palette) ->
  zlen (tdata dst) + R + Z.of_nat (length px) <= tcap dst ->
  exists dst', packed_loop dst palette prev R px = Ok dst'.
Proof.
  induction px as [|c px IH]; intros dst palette prev R P L Ip Ia C; cbn [packed_loop length] in *.
  - replace (R >? 0) with true by lia. apply encode_run_length_total; lia.
  - destruct (px_eqb c prev) eqn:E.
    + apply IH; try lia; [exact Ip|intros; apply Ia; right; auto].
    + destruct (find_colour_ok palette prev Ip) as [k [Lk [F N]]].
      destruct (encode_run_length_total dst (find_colour palette prev) R P) as [d G]; [lia|].
      rewrite G. cbn [bind]. rewrite F in G.
      destruct (encode_run_length_ok _ _ _ _ G) as [b1 [T1 [C1 B1]]]; [lia|exact P|].
      pose proof (run_bytes_size _ _ _ B1). apply IH; try lia; [apply Ia; left; reflexivity|intros; apply Ia; right; auto|].
      rewrite T1, C1, zlen_app. lia.
Qed.

(** Pixels out of a block. *)
Lemma emit_pixels_px : forall len n step dst src mem off out,
  emit_pixels len n step dst src mem off = Ok out ->
  exists px cps, pixels_of len step mem off = Ok px /\
    Forall2 (fun p c => emit_pixel n dst src (unle p) = Ok c) px cps /\ out = concat cps.
Proof.
  induction len as [|len IH]; intros n step dst src mem off out H; cbn [emit_pixels pixels_of] in *.
  - injection H as <-. exists [], []. repeat split. constructor.
  - destruct (get mem off step) as [p|] eqn:G; cbn [bind] in *; [|discriminate].
    destruct (emit_pixel n dst src (unle p)) as [c|] eqn:E; cbn [bind] in *; [|discriminate].
    destruct (emit_pixels len n step dst src mem (off + step)) as [rest|] eqn:R; cbn [bind] in H; [|discriminate].
    injection H as <-. destruct (IH _ _ _ _ _ _ _ R) as [px [cps [P [F ->]]]].
    rewrite P. cbn [bind]. exists (p :: px), (c :: cps). repeat split. constructor; auto.
Qed.

Lemma pixels_of_length : forall n bpp mem off px, pixels_of n bpp mem off = Ok px ->
  length px = n /\ Forall (fun p => zlen p = bpp) px.
Proof.
  induction n as [|n IH]; intros bpp mem off px H; cbn [pixels_of] in H.
  - injection H as <-. split; [reflexivity|constructor].
  - destruct (get mem off bpp) as [p|] eqn:G; cbn [bind] in H; [|discriminate].
    destruct (pixels_of n bpp mem (off + bpp)) as [rest|] eqn:R; cbn [bind] in H; [|discriminate].
    injection H as <-. destruct (IH _ _ _ _ R) as [L F]. split; [cbn [length]; lia|].
    constructor; [|exact F]. unfold get in G. destruct (_ && _) eqn:E; [|discriminate].
    injection G as <-. unfold zlen. rewrite firstn_length, skipn_length. lia.
Qed.

Lemma pixels_of_nth : forall n bpp mem off px k, pixels_of n bpp mem off = Ok px -> (k < n)%nat ->
  exists p, nth_error px k = Some p /\ get mem (off + Z.of_nat k * bpp) bpp = Ok p.
Proof.
  induction n as [|n IH]; intros bpp mem off px k H K; [lia|]. cbn [pixels_of] in H.
  destruct (get mem off bpp) as [p|] eqn:G; cbn [bind] in H; [|discriminate].
  destruct (pixels_of n bpp mem (off + bpp)) as [rest|] eqn:R; cbn [bind] in H; [|discriminate].
  injection H as <-. destruct k.
  - exists p. cbn [nth_error]. rewrite Z.mul_0_l, Z.add_0_r. auto.
  - destruct (IH _ _ _ _ k R) as [q [N Q]]; [lia|]. exists q. split; [exact N|].
    rewrite <- Q. f_equal. lia.
Qed.

Lemma pixels_of_total : forall n bpp mem off, 0 <= bpp -> 0 <= off ->
  off + Z.of_nat n * bpp <= zlen mem -> exists px, pixels_of n bpp mem off = Ok px.
Proof.
  induction n as [|n IH]; intros bpp mem off B O L; cbn [pixels_of]; [eauto|].
  destruct (get_ok mem off bpp) as [p G]; [lia|lia|nia|]. rewrite G. cbn [bind].
  destruct (IH bpp mem (off + bpp)) as [px R]; [lia|lia|nia|]. rewrite R. cbn [bind]. eauto.
Qed.

Lemma pixels_of_concat : forall px bpp pre, Forall (fun p => zlen p = bpp) px ->
  pixels_of (length px) bpp (pre ++ concat px) (zlen pre) = Ok px.
Proof.
  induction px as [|p px IH]; intros bpp pre H; [reflexivity|]. inversion H as [|? ? Hp Hr]; subst.
  cbn [length pixels_of concat]. rewrite get_mid. cbn [bind].
  rewrite <- zlen_app, app_assoc, IH by exact Hr. reflexivity.
Qed.

Lemma emit_pixel_length : forall n dst src v l, emit_pixel n dst src v = Ok l -> zlen l = n.
Proof.
  intros n dst src v l H. unfold emit_pixel in H. cbv zeta in H.
  destruct n as [|p|p]; try discriminate.
  destruct p as [p|p|]; [destruct p; try discriminate|destruct p as [p|p|]; try discriminate|].
  - destruct (convert_pixel _ _ _ _ _ _); cbn [bind] in H; [|discriminate]. injection H as <-. reflexivity.
  - destruct p; try discriminate.
    destruct (convert_pixel _ _ _ _ _ _); cbn [bind] in H; [|discriminate]. injection H as <-.
    destruct (negb _); reflexivity.
  - destruct (convert_pixel _ _ _ _ _ _); cbn [bind] in H; [|discriminate]. injection H as <-. reflexivity.
  - destruct (convert_pixel _ _ _ _ _ _); cbn [bind] in H; [|discriminate]. injection H as <-. reflexivity.
Qed.

Lemma src_bytes_eq : forall src, src_bytes src = bits_per_pixel src / 8.
Proof.
  intros src. unfold src_bytes. destruct (bits_per_pixel src =? 32) eqn:E; [|reflexivity].
  replace (bits_per_pixel src) with 32 by lia. reflexivity.
Qed.

Definition conv (dst src : pixfmt) (p c : list Z) : Prop :=
  pixel_to_cpixel (calc_bytes_per_cpixel dst) dst src p 0 1 = Ok c.

Lemma to_cpixel_asserts : forall n dst src mem off len out,
  pixel_to_cpixel n dst src mem off len = Ok out -> asserts n dst src = true.
Proof.
  intros n dst src mem off len out H. unfold pixel_to_cpixel, pixel32_to_cpixel in H.
  destruct (asserts n dst src); [reflexivity|]. destruct (bits_per_pixel src =? 32); discriminate.
Qed.

Lemma emit_conv : forall dst src p c, asserts (calc_bytes_per_cpixel dst) dst src = true ->
  zlen p = bits_per_pixel src / 8 ->
  emit_pixel (calc_bytes_per_cpixel dst) dst src (unle p) = Ok c -> conv dst src p c.
Proof.
  intros dst src p c A L E. unfold conv. rewrite pixel_to_cpixel_loop by exact A.
  cbn [emit_pixels]. rewrite src_bytes_eq, <- L.
  pose proof (get_prefix p []) as G. rewrite app_nil_r in G. rewrite G. cbn [bind]. rewrite E. cbn [bind].
  rewrite app_nil_r. reflexivity.
Qed.

(** Converting a whole block. *)
Lemma to_cpixel_px : forall dst src mem off len out,
  pixel_to_cpixel (calc_bytes_per_cpixel dst) dst src mem off len = Ok out ->
  exists px cps, pixels_of len (bits_per_pixel src / 8) mem off = Ok px /\
    Forall2 (conv dst src) px cps /\ Forall (fun c => zlen c = calc_bytes_per_cpixel dst) cps /\
    out = concat cps.
Proof.
  intros dst src mem off len out H. pose proof (to_cpixel_asserts _ _ _ _ _ _ _ H) as A.
  rewrite pixel_to_cpixel_loop in H by exact A.
  destruct (emit_pixels_px _ _ _ _ _ _ _ _ H) as [px [cps [P [F E]]]].
  rewrite src_bytes_eq in P. exists px, cps. split; [exact P|].
  destruct (pixels_of_length _ _ _ _ _ P) as [_ Q]. clear - A F Q E. revert Q E. revert out.
  induction F as [|p c px cps X F IH]; intros out Q E; [repeat split; auto|].
  inversion Q; subst. destruct (IH _ H2 eq_refl) as [F1 [F2 _]]. repeat split.
  - constructor; [apply emit_conv; assumption|exact F1].
  - constructor; [exact (emit_pixel_length _ _ _ _ _ X)|exact F2].
Qed.

Lemma read_cpixels_concat : forall cps size rest, Forall (fun c => zlen c = Z.of_nat size) cps ->
  read_cpixels size (length cps) (concat cps ++ rest) = Some (cps, rest).
Proof.
  induction cps as [|c cps IH]; intros size rest H; [reflexivity|].
  inversion H as [|? ? Hc Hr]; subst. cbn [length read_cpixels concat].
  rewrite <- app_assoc. unfold take. unfold zlen in Hc.
  replace (size <=? _)%nat with true by (rewrite !app_length; lia).
  rewrite firstn_app_eq, skipn_app_eq by lia. rewrite IH by exact Hr. reflexivity.
Qed.

Lemma get_whole_prefix : forall colours rest, get (colours ++ rest) 0 (zlen colours) = Ok colours.
Proof. exact get_prefix. Qed.

Lemma zlen_concat : forall n cps, Forall (fun c => zlen c = n) cps ->
  zlen (concat cps) = Z.of_nat (length cps) * n.
Proof.
  induction cps as [|c cps IH]; intros H; [reflexivity|]. inversion H; subst.
  cbn [concat length]. rewrite zlen_app, IH by assumption. lia.
Qed.

Lemma put_start : forall block new block', put block 0 new = Ok block' ->
  exists rest, block' = new ++ rest.
Proof. intros block new block' H. unfold put in H. destruct (_ && _); [|discriminate]. injection H as <-. eauto. Qed.

Lemma append_tdata : forall v l, tdata (append v l) = tdata v ++ l.
Proof. reflexivity. Qed.

Lemma append_tcap : forall v l, tcap v <= tcap (append v l).
Proof. intros v l. unfold append. cbv zeta. cbn [tcap]. destruct (_ <? _); lia. Qed.

(** A function that converts the colours of the palette. *)
Definition look (palette cps : list (list Z)) (p : list Z) : list Z :=
  match nth_error cps (Z.to_nat (find_colour palette p)) with Some c => c | None => [] end.

Lemma nth_same : forall (palette cps : list (list Z)) dst src, Forall2 (conv dst src) palette cps ->
  forall k p, nth_error palette k = Some p -> exists c, nth_error cps k = Some c /\ conv dst src p c.
Proof.
  intros palette cps dst src F. induction F as [|p c px cps X F IH]; intros k q N;
    destruct k; cbn [nth_error] in *; try discriminate.
  - injection N as <-. eauto.
  - apply IH; exact N.
Qed.

Lemma conv_fun : forall dst src p c d, conv dst src p c -> conv dst src p d -> c = d.
Proof. intros. unfold conv in *. congruence. Qed.

Lemma look_conv : forall palette cps dst src p, Forall2 (conv dst src) palette cps ->
  In p palette -> conv dst src p (look palette cps p).
Proof.
  intros palette cps dst src p F I. destruct (find_colour_ok palette p I) as [k [L [E N]]].
  unfold look. rewrite E, Nat2Z.id. destruct (nth_same _ _ _ _ F k p N) as [c [N' C]].
  rewrite N'. exact C.
Qed.

Lemma look_map : forall palette cps dst src, Forall2 (conv dst src) palette cps ->
  map (look palette cps) palette = cps.
Proof.
  intros palette cps dst src F.
  assert (forall l l', Forall2 (conv dst src) l l' -> (forall p, In p l -> In p palette) ->
          map (look palette cps) l = l') as G.
  { intros l l' FF. induction FF as [|p c l l' X FF IH]; intros S; [reflexivity|].
    cbn [map]. rewrite IH by (intros; apply S; right; auto). f_equal.
    apply (conv_fun dst src p); [|exact X]. apply look_conv; [exact F|]. apply S. left. reflexivity. }
  apply G; auto.
Qed.

Lemma Forall2_map : forall dst src (f : list Z -> list Z) px, (forall p, In p px -> conv dst src p (f p)) ->
  Forall2 (conv dst src) px (map f px).
Proof. induction px as [|p px IH]; intros H; constructor; [apply H; left; reflexivity|apply IH; intros; apply H; right; auto]. Qed.

Lemma Forall2_len : forall A B (R : A -> B -> Prop) l l', Forall2 R l l' -> length l = length l'.
Proof. intros A B R l l' H. induction H; cbn [length]; congruence. Qed.

Lemma packed_tile_ok : forall dst dst_fmt src_fmt px palette dst',
  encode_packed_tile dst dst_fmt src_fmt px palette = Ok dst' -> tdata dst = [] ->
  (1 < length palette <= 16)%nat -> (forall p, In p px <-> In p palette) ->
  Forall (fun p => zlen p = bits_per_pixel src_fmt / 8) px ->
  exists cps, Forall2 (conv dst_fmt src_fmt) px cps /\
    forall rest, read_tile (Z.to_nat (calc_bytes_per_cpixel dst_fmt)) (length px) (tdata dst' ++ rest)
      = Some (cps, rest).
Proof.
  intros dst dst_fmt src_fmt px palette dst' H D L I W. unfold encode_packed_tile in H. cbv zeta in H.
  destruct (pixel_to_cpixel _ _ _ _ _ _) as [colours|] eqn:E1; cbn [bind] in H; [|discriminate].
  destruct (put _ 0 colours) as [cp|] eqn:E2; cbn [bind] in H; [|discriminate].
  destruct (append_8 dst _) as [d1|] eqn:E3; cbn [bind] in H; [|discriminate].
  pose proof (to_cpixel_asserts _ _ _ _ _ _ _ E1) as A.
  assert (Pos : 1 <= calc_bytes_per_cpixel dst_fmt <= 4) by (unfold asserts in A; lia).
  destruct (to_cpixel_px _ _ _ _ _ _ E1) as [pp [pc [P1 [P2 [P3 P4]]]]].
  assert (Wp : Forall (fun p => zlen p = bits_per_pixel src_fmt / 8) palette).
  { rewrite Forall_forall in W |- *. intros p Hp. apply W, I, Hp. }
  pose proof (pixels_of_concat palette _ [] Wp) as P1'. cbn [app] in P1'.
  change (zlen []) with 0 in P1'. rewrite P1 in P1'. injection P1' as ->.
  destruct (put_start _ _ _ E2) as [rest2 ->].
  assert (Lc : zlen colours = Z.of_nat (length palette) * calc_bytes_per_cpixel dst_fmt).
  { rewrite P4, (zlen_concat _ _ P3), (Forall2_len _ _ _ _ _ P2). reflexivity. }
  rewrite <- Lc, get_prefix in H. cbn [bind] in H.
  apply append_8_ok in E3 as [E3 _]. rewrite D in E3. cbn [app] in E3.
  rewrite Z.lor_comm in E3.
  rewrite lor_128 in E3 by lia. rewrite Z.mod_small in E3 by lia.
  destruct px as [|c px]; [discriminate|].
  destruct (packed_loop_ok _ _ _ _ _ _ (look palette pc) H) as [bytes [T [_ [_ R]]]].
  { lia. } { lia. } { apply I. left. reflexivity. } { intros p Hp. apply I. right. exact Hp. }
  exists (map (look palette pc) (c :: px)). split.
  { apply Forall2_map. intros p Hp. apply look_conv; [exact P2|]. apply I, Hp. }
  intros rest. rewrite T, append_tdata, E3. cbn [app read_tile].
  replace (Z.of_nat (length palette) + 128 =? 0) with false by lia.
  replace (Z.of_nat (length palette) + 128 =? 1) with false by lia.
  replace (Z.of_nat (length palette) + 128 >=? 130) with true by lia. cbv iota.
  replace (Z.to_nat (Z.of_nat (length palette) + 128 - 128)) with (length pc)
    by (rewrite <- (Forall2_len _ _ _ _ _ P2); lia).
  rewrite P4, <- app_assoc, read_cpixels_concat.
  - rewrite (look_map _ _ _ _ P2) in R. cbn [length].
    replace (Z.of_nat (S (length px))) with (1 + Z.of_nat (length px)) by lia.
    rewrite R by lia. reflexivity.
  - rewrite Z2Nat.id by lia. exact P3.
Qed.

Lemma raw_tile_ok : forall cap dst_fmt src_fmt tile len v out px,
  append_8 (mk_tv [] cap) 0 = Ok v ->
  pixel_to_cpixel (calc_bytes_per_cpixel dst_fmt) dst_fmt src_fmt tile 0 len = Ok out ->
  pixels_of len (bits_per_pixel src_fmt / 8) tile 0 = Ok px ->
  forall v', write_at_1 v out = Ok v' ->
  exists cps, Forall2 (conv dst_fmt src_fmt) px cps /\
    forall rest, read_tile (Z.to_nat (calc_bytes_per_cpixel dst_fmt)) len (tdata v' ++ rest) = Some (cps, rest).
Proof.
  intros cap dst_fmt src_fmt tile len v out px A E P v' W.
  pose proof (to_cpixel_asserts _ _ _ _ _ _ _ E) as As.
  assert (Pos : 1 <= calc_bytes_per_cpixel dst_fmt <= 4) by (unfold asserts in As; lia).
  destruct (to_cpixel_px _ _ _ _ _ _ E) as [px' [cps [P' [F [L ->]]]]]. rewrite P in P'. injection P' as <-.
  exists cps. split; [exact F|]. intros rest.
  apply append_8_ok in A as [A _]. unfold write_at_1 in W. destruct (_ <=? _); [|discriminate].
  injection W as <-. cbn [tdata]. rewrite A. cbn [app firstn].
  change (0 mod 256) with 0. cbn [read_tile]. change (0 =? 0) with true. cbv iota.
  destruct (pixels_of_length _ _ _ _ _ P) as [Lp _].
  rewrite <- Lp, (Forall2_len _ _ _ _ _ F). apply read_cpixels_concat.
  rewrite Z2Nat.id by lia. exact L.
Qed.

Lemma encode_tile_ok : forall dst dst_fmt src_fmt tile len v,
  encode_tile dst dst_fmt src_fmt tile len = Ok v ->
  exists px cps, pixels_of len (bits_per_pixel src_fmt / 8) tile 0 = Ok px /\
    Forall2 (conv dst_fmt src_fmt) px cps /\
    forall rest, read_tile (Z.to_nat (calc_bytes_per_cpixel dst_fmt)) len (tdata v ++ rest) = Some (cps, rest).
Proof.
  intros dst dst_fmt src_fmt tile len v H. unfold encode_tile in H. cbv zeta in H.
  destruct (pixels_of len _ tile 0) as [px|] eqn:P; cbn [bind] in H; [|discriminate].
  destruct (pixels_of_length _ _ _ _ _ P) as [Lp W].
  destruct (get_tile_palette _ px) as [pal|] eqn:G; cbn [bind] in H; [|discriminate].
  exists px.
  assert (RAW : forall cap v0, bind (append_8 (mk_tv [] cap) 0) (fun dst =>
      bind (pixel_to_cpixel (calc_bytes_per_cpixel dst_fmt) dst_fmt src_fmt tile 0 len) (fun out =>
      write_at_1 dst out)) = Ok v0 ->
    exists cps, Forall2 (conv dst_fmt src_fmt) px cps /\
    forall rest, read_tile (Z.to_nat (calc_bytes_per_cpixel dst_fmt)) len (tdata v0 ++ rest) = Some (cps, rest)).
  { intros cap v0 R. destruct (append_8 (mk_tv [] cap) 0) as [v1|] eqn:A; cbn [bind] in R; [|discriminate].
    destruct (pixel_to_cpixel _ _ _ _ _ _) as [out|] eqn:C; cbn [bind] in R; [|discriminate].
    exact (raw_tile_ok _ _ _ _ _ _ _ _ A C P _ R). }
  destruct pal as [pal|].
  - destruct (get_tile_palette_ok _ _ _ G) as [Ne [L16 I]].
    destruct pal as [|c [|c2 pal]]; [congruence| |].
    + (* one colour *)
      unfold encode_unichrome_tile in H.
      destruct (append_8 _ 1) as [v1|] eqn:A; cbn [bind] in H; [|discriminate].
      destruct (pixel_to_cpixel _ _ _ _ _ _) as [out|] eqn:C; cbn [bind] in H; [|discriminate].
      pose proof (to_cpixel_asserts _ _ _ _ _ _ _ C) as As.
      assert (Pos : 1 <= calc_bytes_per_cpixel dst_fmt <= 4) by (unfold asserts in As; lia).
      apply append_8_ok in A as [A _]. unfold write_at_1 in H. destruct (_ <=? _); [|discriminate].
      injection H as <-. cbn [tdata]. rewrite A. cbn [app firstn tdata]. change (1 mod 256) with 1.
      assert (All : forall p, In p px -> p = c).
      { intros p Hp. apply I in Hp. destruct Hp as [->|[]]. reflexivity. }
      exists (repeat out len). split; [reflexivity|]. split.
      * rewrite <- Lp. clear - All C. induction px as [|p px IH]; [constructor|].
        cbn [length repeat]. constructor; [|apply IH; intros; apply All; right; auto].
        rewrite (All p) by (left; reflexivity). exact C.
      * intros rest. cbn [read_tile]. change (1 =? 0) with false. change (1 =? 1) with true. cbv iota.
        destruct (to_cpixel_px _ _ _ _ _ _ C) as [q [cps [Q [F [L E]]]]].
        destruct (pixels_of_length _ _ _ _ _ Q) as [LQ _].
        assert (Lo : zlen out = calc_bytes_per_cpixel dst_fmt).
        { rewrite E, (zlen_concat _ _ L), <- (Forall2_len _ _ _ _ _ F), LQ. lia. }
        unfold take. unfold zlen in Lo. replace (_ <=? _)%nat with true by (rewrite app_length; lia).
        rewrite firstn_app_eq, skipn_app_eq by lia. reflexivity.
    + destruct (encode_packed_tile _ _ _ _ _) as [pk|] eqn:K; cbn [bind] in H; [|discriminate].
      destruct (_ <=? _) in H.
      * injection H as <-.
        destruct (packed_tile_ok _ _ _ _ _ _ K) as [cps [F R]]; [reflexivity|cbn [length] in *; lia|exact I|exact W|].
        exists cps. split; [reflexivity|]. split; [exact F|]. rewrite <- Lp. exact R.
      * destruct (RAW _ _ H) as [cps [F R]]. exists cps. auto.
  - destruct (RAW _ _ H) as [cps [F R]]. exists cps. auto.
Qed.
