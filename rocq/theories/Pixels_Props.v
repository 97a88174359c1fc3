From Verif Require Import Common CommonProofs WsStream_Proofs Ws_Proofs Pixels_Model Pixels_Spec Pixels_Proofs.

(** Pixels of a framebuffer row as the source of a conversion: little-endian
    values of the source size, with anything before and after. *)
Definition stored (src : pixfmt) (px : list Z) : list Z :=
  concat (map (le (Z.to_nat (bits_per_pixel src / 8))) px).

(** C23: converting any number of pixels.  Each becomes [n] bytes, in the byte
    order of the destination, of a pixel value whose channels are the source's
    channels brought to the destination width and whose other bits are clear. *)
Theorem C23_pixel_conversion : forall dst src sr sg sb dr dg db n px pre post,
  has_fields src sr sg sb -> fields_ok (bits_per_pixel src) sr sg sb ->
  In (bits_per_pixel src) [8; 16; 24; 32] -> depth src <= 32 ->
  has_fields dst dr dg db -> fields_ok (bits_per_pixel dst) dr dg db ->
  bits_per_pixel dst = 8 * n -> 1 <= n <= 4 -> depth dst <= 32 ->
  Forall (fun v => 0 <= v < 2 ^ bits_per_pixel src) px ->
  exists out : Z -> Z,
    pixel_to_cpixel n dst src (pre ++ stored src px ++ post) (zlen pre) (length px)
      = Ok (concat (map (fun v => pixel_bytes dst (Z.to_nat n) (out v)) px)) /\
    forall v,
      0 <= out v < 2 ^ bits_per_pixel dst /\
      channel dr (out v) = rescale sr dr (channel sr v) /\
      channel dg (out v) = rescale sg dg (channel sg v) /\
      channel db (out v) = rescale sb db (channel sb v) /\
      out v = compose dr dg db (channel dr (out v)) (channel dg (out v)) (channel db (out v)).
Proof.
  intros dst src sr sg sb dr dg db n px pre post Hs Fs Bs Ds Hd Fd Bd Hn Dd Hpx.
  assert (Bs' : bits_per_pixel src = 8 \/ bits_per_pixel src = 16 \/ bits_per_pixel src = 24 \/
    bits_per_pixel src = 32) by (destruct Bs as [<-|[<-|[<-|[<-|[]]]]]; auto).
  assert (Fs32 : fields_ok 32 sr sg sb).
  { destruct Fs as [I1 [I2 [I3 A]]]. unfold fields_ok, inside in *. repeat split; try tauto; lia. }
  assert (Fd32 : fields_ok 32 dr dg db).
  { destruct Fd as [I1 [I2 [I3 A]]]. unfold fields_ok, inside in *. repeat split; try tauto; lia. }
  assert (Step : src_bytes src = bits_per_pixel src / 8).
  { unfold src_bytes. destruct Bs' as [->|[->|[->| ->]]]; reflexivity. }
  assert (Pow : 256 ^ (bits_per_pixel src / 8) = 2 ^ bits_per_pixel src).
  { destruct Bs' as [->|[->|[->| ->]]]; reflexivity. }
  exists (converted sr sg sb (moved 0 dr) (moved 0 dg) (moved 0 db)).
  assert (M0 : forall a, moved 0 a = a) by (intros [s b]; unfold moved; cbn; f_equal; lia).
  split.
  - rewrite pixel_to_cpixel_loop
      by (apply asserts_ok; try lia; try (destruct Hs; assumption); destruct Hd; assumption).
    rewrite Step. unfold stored.
    apply emit_pixels_map; [destruct Bs' as [->|[->|[->| ->]]]; cbn; lia|].
    eapply Forall_impl; [|exact Hpx]. cbn beta. intros v Hv. rewrite Pow. split; [exact Hv|].
    assert (Hms : (if n =? 3 then min_shift dst else 0) = 0).
    { destruct (n =? 3) eqn:E; [|reflexivity]. unfold min_shift.
      replace (bits_per_pixel dst =? 32) with false by lia. reflexivity. }
    apply emit_pixel_ok; auto.
    + split; [lia|]. apply Z.lt_le_trans with (2 ^ bits_per_pixel src); [lia|].
      apply Z.pow_le_mono_r; lia.
    + lia.
    + destruct Fd32 as [[_ [? _]] _]. lia.
    + destruct Fd32 as [_ [[_ [? _]] _]]. lia.
    + destruct Fd32 as [_ [_ [[_ [? _]] _]]]. lia.
  - intros v. rewrite !M0.
    pose proof (converted_channels _ sr sg sb dr dg db v Fs32 Fd) as [C1 [C2 C3]].
    split; [apply converted_bound; assumption|]. rewrite C1, C2, C3. auto.
Qed.
Print Assumptions C23_pixel_conversion.

(** Same channel widths: the colour survives unchanged. *)
Theorem C23_same_width_exact : forall s d v, 0 <= f_bits s -> f_bits s = f_bits d ->
  rescale s d (channel s v) = channel s v.
Proof.
  intros s d v H E. unfold rescale. rewrite E. apply Z.div_mul.
  apply Z.pow_nonzero; lia.
Qed.
Print Assumptions C23_same_width_exact.

Definition xrgb8888 : pixfmt := mk_fmt 32 24 0 1 255 255 255 16 8 0.
Definition rgb565be : pixfmt := mk_fmt 16 16 1 1 31 63 31 11 5 0.

Example C23_ex :
  has_fields xrgb8888 (mk_field 16 8) (mk_field 8 8) (mk_field 0 8) /\
  fields_ok 32 (mk_field 16 8) (mk_field 8 8) (mk_field 0 8) /\
  has_fields rgb565be (mk_field 11 5) (mk_field 5 6) (mk_field 0 5) /\
  fields_ok 16 (mk_field 11 5) (mk_field 5 6) (mk_field 0 5) /\
  pixel_to_cpixel 2 rgb565be xrgb8888 ([9] ++ stored xrgb8888 [0xAAFF8001; 0x00123456] ++ []) 1 2
  = Ok [252; 0; 17; 170].
Proof.
  unfold has_fields, fields_ok, inside, apart. cbn.
  repeat split; try lia; try (vm_compute; congruence).
Qed.

(** C23, source byte order: the conversion takes every source as little-endian,
    although a big-endian framebuffer format is accepted and derived. *)
Theorem C23_big_endian_source_refuted : exists code src px,
  pixfmt_from_fourcc code = Some src /\ big_endian_flag src = 1 /\
  (* the bytes 00 FF 80 01 hold X R G B in big-endian order *)
  px = [0; 255; 128; 1] /\ unbe px / 2 ^ red_shift src mod 256 = 255 /\
  exists out, pixel_to_cpixel 4 xrgb8888 src px 0 1 = Ok out /\
    unle out / 2 ^ 16 mod 256 <> 255.
Proof.
  exists (fourcc "XR24" + 2 ^ 31), (mk_fmt 32 24 1 1 255 255 255 16 8 0), [0; 255; 128; 1].
  split; [vm_compute; reflexivity|]. split; [reflexivity|]. split; [reflexivity|].
  split; [vm_compute; reflexivity|]. eexists. split; [vm_compute; reflexivity|].
  vm_compute. congruence.
Qed.
Print Assumptions C23_big_endian_source_refuted.

Lemma some_inj : forall A (a b : A), Some a = Some b -> a = b.
Proof. intros A a b H. congruence. Qed.

(** C24: the derived format has the fields the DRM name says, apart from each
    other and inside the pixel, and the depth is the number of colour bits. *)
Definition is_format (code : Z) (layout : list (letter * Z)) : Prop :=
  exists f r g b, pixfmt_from_fourcc code = Some f /\
    drm_field R layout = Some r /\ drm_field G layout = Some g /\ drm_field B layout = Some b /\
    has_fields f r g b /\ fields_ok (bits_per_pixel f) r g b /\
    bits_per_pixel f = drm_bits layout /\ depth f = f_bits r + f_bits g + f_bits b /\
    pixel_size_from_fourcc code * 8 = drm_bits layout.

Theorem C24_formats_refuted : exists name layout f, In (name, layout) drm_formats /\
  pixfmt_from_fourcc (fourcc name) = Some f /\ ~ is_format (fourcc name) layout /\
  (* red and green overlap *)
  Z.land (red_max f * 2 ^ red_shift f) (green_max f * 2 ^ green_shift f) <> 0.
Proof.
  exists "XR12"%string, [(X, 4); (R, 4); (G, 4); (B, 4)]. eexists.
  split; [vm_compute; tauto|]. split; [vm_compute; reflexivity|]. split.
  - intros [f [r [g [b [E [Er [_ [_ [[_ [M _]] _]]]]]]]]].
    vm_compute in E, Er. injection E as <-. injection Er as <-. vm_compute in M. discriminate.
  - vm_compute. congruence.
Qed.
Print Assumptions C24_formats_refuted.

(** Missing from the full claim: the eight 4444 formats. *)
Theorem C24_formats_partial : forall code f,
  pixfmt_from_fourcc code = Some f -> bits_per_pixel f <> 16 ->
  exists name layout, In (name, layout) drm_formats /\
    Z.land code (Z.lnot (2 ^ 31)) = fourcc name /\ is_format code layout.
Proof.
  intros code f H N. unfold is_format. rewrite H.
  assert (PS : exists l, pixel_size_from_fourcc code = l) by eauto. destruct PS as [ps PS].
  pose proof PS as PS0. rewrite PS0.
  unfold pixfmt_from_fourcc in H. destruct (layout_of_fourcc code) as [l|] eqn:HL; [|discriminate].
  unfold layout_of_fourcc in HL. fold BIG_ENDIAN. unfold pixel_size_from_fourcc in PS.
  cbv zeta in HL.
  set (c := Z.land code (Z.lnot BIG_ENDIAN)) in *.
  Ltac pick nm := exists nm; eexists;
      split; [cbn [drm_formats In]; repeat (try (left; reflexivity); right)|].
  Ltac done_case E PS :=
    apply Z.eqb_eq in E; rewrite E in PS; vm_compute in PS;
    split; [exact E|]; eexists _, _, _, _; split; [reflexivity|];
    split; [vm_compute; reflexivity|]; split; [vm_compute; reflexivity|];
    split; [vm_compute; reflexivity|];
    rewrite <- PS; unfold has_fields, fields_ok, inside, apart; cbn [f_shift f_bits bits_per_pixel depth red_max
      green_max blue_max red_shift green_shift blue_shift true_colour_flag];
    repeat split; try (vm_compute; congruence); lia.
  Ltac two L H E PS a b :=
    match type of L with
    | (if ?x || ?y then _ else _) = _ => destruct (x || y) eqn:E;
        [apply orb_prop in E as [E|E]; apply some_inj in L; rewrite <- L in H;
         apply some_inj in H; rewrite <- H in *; [pick a; done_case E PS|pick b; done_case E PS]|clear E]
    end.
  Ltac one L H E PS a :=
    match type of L with
    | (if ?x then _ else _) = _ => destruct x eqn:E;
        [apply some_inj in L; rewrite <- L in H; apply some_inj in H; rewrite <- H in *;
         pick a; done_case E PS|clear E]
    end.
  two HL H E PS "RA30"%string "RX30"%string.
  two HL H E PS "BA30"%string "BX30"%string.
  two HL H E PS "AR30"%string "XR30"%string.
  two HL H E PS "AB30"%string "XB30"%string.
  two HL H E PS "RA24"%string "RX24"%string.
  two HL H E PS "BA24"%string "BX24"%string.
  two HL H E PS "AR24"%string "XR24"%string.
  two HL H E PS "AB24"%string "XB24"%string.
  one HL H E PS "BG24"%string.
  one HL H E PS "RG24"%string.
  repeat match type of HL with
  | (if ?x then _ else _) = _ => destruct x;
      [apply some_inj in HL; rewrite <- HL in H; apply some_inj in H; rewrite <- H in *;
       exfalso; apply N; reflexivity|]
  end.
  discriminate.
Qed.
Print Assumptions C24_formats_partial.

Example C24_formats_partial_ex : exists f, pixfmt_from_fourcc (fourcc "XB30") = Some f /\
  bits_per_pixel f = 32 /\ red_shift f = 0 /\ blue_shift f = 20 /\ depth f = 30.
Proof. eexists. split; [vm_compute; reflexivity|]. repeat split. Qed.

(** C25 is false: with 32 bits per pixel the size follows the depth below 24
    too; and colour bits in the middle bytes are sent as three bytes. *)
Theorem C25_cpixel_size_refuted : exists f,
  bits_per_pixel f = 32 /\ depth f = 16 /\ calc_bytes_per_cpixel f = 2 /\
  cpixel_size (bits_per_pixel f) (depth f) true = 3.
Proof. exists (mk_fmt 32 16 0 1 31 63 31 11 5 0). repeat split. Qed.
Print Assumptions C25_cpixel_size_refuted.

Theorem C25_cpixel_straddle_refuted : exists f r g b,
  has_fields f r g b /\ fields_ok 32 r g b /\ bits_per_pixel f = 32 /\ depth f = 24 /\
  ~ fits_low r g b /\ ~ fits_high r g b /\ calc_bytes_per_cpixel f = 3.
Proof.
  exists (mk_fmt 32 24 0 1 255 255 255 20 12 4), (mk_field 20 8), (mk_field 12 8), (mk_field 4 8).
  unfold has_fields, fields_ok, fits_low, fits_high, inside, apart. cbn.
  repeat split; lia.
Qed.
Print Assumptions C25_cpixel_straddle_refuted.

(** Missing: depth below 17 with 32 bits per pixel, sizes that are no multiple
    of 8, and colour bits that fit neither the low nor the high three bytes. *)
Theorem C25_cpixel_size_partial : forall f fits,
  In (bits_per_pixel f) [8; 16; 32] -> (bits_per_pixel f = 32 -> 17 <= depth f <= 32) ->
  (bits_per_pixel f = 32 -> depth f <= 24 -> fits = true) ->
  calc_bytes_per_cpixel f = cpixel_size (bits_per_pixel f) (depth f) fits.
Proof.
  intros f fits Hb Hd Hf. unfold calc_bytes_per_cpixel, cpixel_size.
  destruct Hb as [Hb|[Hb|[Hb|[]]]]; rewrite <- Hb; [reflexivity|reflexivity|].
  specialize (Hd (eq_sym Hb)). specialize (Hf (eq_sym Hb)). cbn [Z.eqb Pos.eqb andb].
  destruct (depth f <=? 24) eqn:E; cbn [andb].
  - rewrite Hf by lia. symmetry. apply (Z.div_unique (depth f + 8 - 1) 8 3 (depth f + 7 - 24)); lia.
  - symmetry. apply (Z.div_unique (depth f + 8 - 1) 8 4 (depth f + 7 - 32)); lia.
Qed.
Print Assumptions C25_cpixel_size_partial.

Example C25_cpixel_size_partial_ex :
  In 32 [8; 16; 32] /\ calc_bytes_per_cpixel xrgb8888 = 3 /\
  calc_bytes_per_cpixel (mk_fmt 32 30 0 1 1023 1023 1023 20 10 0) = 4 /\
  calc_bytes_per_cpixel rgb565be = 2.
Proof. repeat split. cbn. tauto. Qed.

(** C63: which three bytes are sent.  The client takes the low three bytes of
    the pixel if its colours fit there.  With a lowest shift that is not 0 the
    code sends something else. *)
Theorem C63_cpixel_low_bytes_refuted : exists dst r g b v w,
  has_fields dst r g b /\ fields_ok 32 r g b /\ fits_low r g b /\
  bits_per_pixel dst = 32 /\ depth dst = 20 /\ calc_bytes_per_cpixel dst = 3 /\
  (* w is the pixel with the colour of v *)
  pixel_to_cpixel 4 dst xrgb8888 (le 4 v) 0 1 = Ok (pixel_bytes dst 4 w) /\
  pixel_to_cpixel 3 dst xrgb8888 (le 4 v) 0 1 <> Ok (pixel_bytes dst 3 w).
Proof.
  exists (mk_fmt 32 20 0 1 63 127 127 18 11 4), (mk_field 18 6), (mk_field 11 7), (mk_field 4 7),
    0x00FF8040, 0xFE0200.
  unfold has_fields, fields_ok, fits_low, inside, apart. cbn [f_shift f_bits].
  repeat split; try lia; try (vm_compute; congruence).
Qed.
Print Assumptions C63_cpixel_low_bytes_refuted.

(** What holds: for the low three bytes with lowest shift 0 and for the high
    three bytes with lowest shift 8 the three bytes of the pixel are sent. *)
Theorem C63_cpixel_bytes_partial : forall dst src sr sg sb dr dg db px pre post,
  has_fields src sr sg sb -> fields_ok (bits_per_pixel src) sr sg sb ->
  In (bits_per_pixel src) [8; 16; 24; 32] -> depth src <= 32 ->
  has_fields dst dr dg db -> fields_ok 32 dr dg db ->
  bits_per_pixel dst = 32 -> depth dst <= 24 ->
  Forall (fun v => 0 <= v < 2 ^ bits_per_pixel src) px ->
  forall drop, (drop = 0 /\ fits_low dr dg db \/ drop = 8 /\ fits_high dr dg db) ->
  (f_shift dr = drop \/ f_shift dg = drop \/ f_shift db = drop) ->
  exists out : Z -> Z,
    pixel_to_cpixel 3 dst src (pre ++ stored src px ++ post) (zlen pre) (length px)
      = Ok (concat (map (fun v => pixel_bytes dst 3 (out v / 2 ^ drop)) px)) /\
    forall v,
      0 <= out v / 2 ^ drop < 2 ^ 24 /\ out v mod 2 ^ drop = 0 /\
      channel dr (out v) = rescale sr dr (channel sr v) /\
      channel dg (out v) = rescale sg dg (channel sg v) /\
      channel db (out v) = rescale sb db (channel sb v).
Proof.
  intros dst src sr sg sb dr dg db px pre post Hs Fs Bs Ds Hd Fd Bd Dd Hpx drop Hdrop Hmin.
  assert (Bs' : bits_per_pixel src = 8 \/ bits_per_pixel src = 16 \/ bits_per_pixel src = 24 \/
    bits_per_pixel src = 32) by (destruct Bs as [<-|[<-|[<-|[<-|[]]]]]; auto).
  assert (Fs32 : fields_ok 32 sr sg sb).
  { destruct Fs as [I1 [I2 [I3 A]]]. unfold fields_ok, inside in *. repeat split; try tauto; lia. }
  assert (Step : src_bytes src = bits_per_pixel src / 8).
  { unfold src_bytes. destruct Bs' as [->|[->|[->| ->]]]; reflexivity. }
  assert (Pow : 256 ^ (bits_per_pixel src / 8) = 2 ^ bits_per_pixel src).
  { destruct Bs' as [->|[->|[->| ->]]]; reflexivity. }
  assert (L : 0 <= drop /\ drop <= f_shift dr /\ drop <= f_shift dg /\ drop <= f_shift db).
  { destruct Hdrop as [[-> [A1 [A2 A3]]]|[-> A]]; unfold fits_high, inside in *; lia. }
  assert (Ms : min_shift dst = drop).
  { destruct Hd as [_ [_ [R1 [_ [R2 [_ R3]]]]]]. unfold min_shift.
    rewrite Bd. replace (depth dst <=? 24) with true by lia. cbn [Z.eqb Pos.eqb andb].
    rewrite R1, R2, R3. cbv zeta.
    destruct (f_shift dr >? f_shift dg) eqn:E1;
    match goal with |- context [if ?c then _ else _] => destruct c eqn:E2 end; lia. }
  exists (converted sr sg sb dr dg db).
  assert (P0 : 0 < 2 ^ drop) by (apply pow2_pos; lia).
  assert (Mv : forall v, converted sr sg sb dr dg db v =
                 converted sr sg sb (moved drop dr) (moved drop dg) (moved drop db) v * 2 ^ drop).
  { intros v. unfold converted. symmetry. apply compose_moved; lia. }
  assert (Fm : fields_ok 24 (moved drop dr) (moved drop dg) (moved drop db)).
  { destruct Fd as [I1 [I2 [I3 [A1 [A2 A3]]]]].
    destruct Hdrop as [[-> [F1 [F2 F3]]]|[-> A]];
    unfold fields_ok, inside, apart, moved in *; cbn [f_shift f_bits]; repeat split;
      try (unfold inside in *; lia). 
    all: unfold fits_high in A; try lia. }
  split.
  - rewrite pixel_to_cpixel_loop
      by (apply asserts_ok; try lia; try (destruct Hs; assumption); destruct Hd; assumption).
    rewrite Step. unfold stored.
    apply emit_pixels_map; [destruct Bs' as [->|[->|[->| ->]]]; cbn; lia|].
    eapply Forall_impl; [|exact Hpx]. cbn beta. intros v Hv. rewrite Pow. split; [exact Hv|].
    rewrite Mv, Z.div_mul by lia. change 3%nat with (Z.to_nat 3).
    apply emit_pixel_ok; auto; try lia.
    split; [lia|]. apply Z.lt_le_trans with (2 ^ bits_per_pixel src); [lia|].
    apply Z.pow_le_mono_r; lia.
  - intros v.
    pose proof (converted_channels _ sr sg sb dr dg db v Fs32 Fd) as [C1 [C2 C3]].
    split; [|split; [|auto]].
    + rewrite Mv, Z.div_mul by lia. apply converted_bound; assumption.
    + rewrite Mv. apply Z.mod_mul. lia.
Qed.
Print Assumptions C63_cpixel_bytes_partial.

Example C63_cpixel_bytes_partial_ex :
  let bgrx := mk_fmt 32 24 0 1 255 255 255 8 16 24 in
  has_fields bgrx (mk_field 8 8) (mk_field 16 8) (mk_field 24 8) /\
  fits_high (mk_field 8 8) (mk_field 16 8) (mk_field 24 8) /\
  pixel_to_cpixel 3 bgrx xrgb8888 (stored xrgb8888 [0x11223344; 0xFFFF0000]) 0 2
  = Ok [0x22; 0x33; 0x44; 255; 0; 0].
Proof.
  cbv zeta. unfold has_fields, fits_high. cbn.
  repeat split; try lia.
Qed.

(** C64: no pixel format a client asks for makes conversion fail.  False: 0 or
    more than 32 bits per pixel abort, shifts of 32 or more are undefined. *)
Definition pixel_format_message (l : list Z) : Prop := length l = 16%nat /\ all_bytes l.

Theorem C64_client_format_abort_refuted : exists m code src mem,
  pixel_format_message m /\ pixfmt_from_fourcc code = Some src /\
  pixel_to_cpixel (bits_per_pixel (client_pixfmt m) / 8) (client_pixfmt m) src mem 0 1 = Fault AssertFail /\
  length mem = 4%nat.
Proof.
  exists [0; 24; 0; 1; 0; 255; 0; 255; 0; 255; 16; 8; 0; 0; 0; 0], (fourcc "XR24").
  eexists. exists [1; 2; 3; 4].
  split; [split; [reflexivity|repeat (constructor; [unfold is_byte; lia|]); constructor]|].
  split; [vm_compute; reflexivity|]. split; vm_compute; reflexivity.
Qed.
Print Assumptions C64_client_format_abort_refuted.

Theorem C64_client_format_shift_refuted : exists m code src mem,
  pixel_format_message m /\ pixfmt_from_fourcc code = Some src /\
  pixel_to_cpixel (bits_per_pixel (client_pixfmt m) / 8) (client_pixfmt m) src mem 0 1 = Fault BadShift /\
  length mem = 4%nat.
Proof.
  exists [32; 24; 0; 1; 0; 255; 0; 255; 0; 255; 40; 8; 0; 0; 0; 0], (fourcc "XR24").
  eexists. exists [1; 2; 3; 4].
  split; [split; [reflexivity|repeat (constructor; [unfold is_byte; lia|]); constructor]|].
  split; [vm_compute; reflexivity|]. split; vm_compute; reflexivity.
Qed.
Print Assumptions C64_client_format_shift_refuted.

Lemma supported_shifts : forall code src, pixfmt_from_fourcc code = Some src ->
  shifts_ok src /\ true_colour_flag src <> 0 /\ depth src <= 32 /\
  (bits_per_pixel src = 16 \/ bits_per_pixel src = 24 \/ bits_per_pixel src = 32).
Proof.
  intros code src H. unfold pixfmt_from_fourcc in H.
  destruct (layout_of_fourcc code) as [l|] eqn:HL; [|discriminate].
  unfold layout_of_fourcc in HL. cbv zeta in HL.
  repeat match type of HL with
  | (if ?x then _ else _) = _ => destruct x;
      [apply some_inj in HL; rewrite <- HL in H; apply some_inj in H; rewrite <- H;
       unfold shifts_ok; cbn; repeat split; auto; lia|]
  end.
  discriminate.
Qed.

(** What holds: 8..32 bits per pixel, depth at most 32 and shifts below 32 are
    safe whatever the maxima, for every framebuffer format and every number of
    pixels that the source block holds. *)
Theorem C64_client_format_partial : forall m code src n mem off len,
  pixel_format_message m -> pixfmt_from_fourcc code = Some src ->
  (nth 3 m 0 <> 0 ->
     nth 0 m 0 <= 32 /\ nth 1 m 0 <= 32 /\ nth 10 m 0 < 32 /\ nth 11 m 0 < 32 /\ nth 12 m 0 < 32) ->
  1 <= n <= 4 -> 0 <= off -> off + Z.of_nat len * (bits_per_pixel src / 8) <= zlen mem ->
  exists out, pixel_to_cpixel n (client_pixfmt m) src mem off len = Ok out /\
    zlen out = Z.of_nat len * n.
Proof.
  intros m code src n mem off len [L B] H W Hn Ho Hm.
  destruct (supported_shifts code src H) as [S1 [S2 [S3 S4]]].
  assert (Bn : forall i, (i < 16)%nat -> 0 <= nth i m 0).
  { intros i Hi. unfold all_bytes in B. rewrite Forall_forall in B.
    destruct (B (nth i m 0)); [apply nth_In; lia|lia]. }
  assert (A : shifts_ok (client_pixfmt m) /\ true_colour_flag (client_pixfmt m) <> 0 /\
              bits_per_pixel (client_pixfmt m) <= 32 /\ depth (client_pixfmt m) <= 32).
  { unfold client_pixfmt. cbv zeta. cbn [true_colour_flag].
    destruct (nth 3 m 0 =? 0) eqn:E.
    - unfold shifts_ok, rgb332; cbn. repeat split; lia.
    - destruct W as [W1 [W2 [W3 [W4 W5]]]]; [lia|]. unfold shifts_ok. cbn.
      pose proof (Bn 10%nat). pose proof (Bn 11%nat). pose proof (Bn 12%nat).
      repeat split; lia. }
  destruct A as [A1 [A2 [A3 A4]]].
  rewrite pixel_to_cpixel_loop by (apply asserts_ok; auto).
  assert (Step : src_bytes src = bits_per_pixel src / 8).
  { unfold src_bytes. destruct S4 as [->|[->| ->]]; reflexivity. }
  rewrite Step. apply emit_pixels_total; auto.
  destruct S4 as [->|[->| ->]]; cbn; lia.
Qed.
Print Assumptions C64_client_format_partial.

Example C64_client_format_partial_ex :
  let m := [16; 16; 1; 1; 0; 31; 0; 63; 0; 31; 11; 5; 0; 0; 0; 0] in
  pixel_format_message m /\ client_pixfmt m = rgb565be /\
  client_pixfmt [8; 8; 0; 0; 0; 0; 0; 0; 0; 0; 99; 99; 99; 0; 0; 0] = rgb332.
Proof.
  cbv zeta. split; [split; [reflexivity|repeat (constructor; [unfold is_byte; lia|]); constructor]|].
  split; vm_compute; reflexivity.
Qed.

(** C65: the transparency mask made for cursors.  Bit j is set exactly when
    pixel j is more than half opaque, padding bits are clear, and nothing beyond
    the mask is touched. *)
Theorem C65_alpha_mask : forall name layout a dst px,
  In (name, layout) drm_formats -> drm_field A layout = Some a ->
  Forall (fun v => 0 <= v) px -> all_bytes dst ->
  let n := (zlen px + 7) / 8 in
  n <= zlen dst ->
  exists dst', extract_alpha_mask dst (fourcc name) px = Ok (dst', true) /\
    length dst' = length dst /\ all_bytes dst' /\
    (forall j, 0 <= j < zlen px ->
       bitmap dst' j = (2 * channel a (nth (Z.to_nat j) px 0) >? 2 ^ f_bits a - 1)) /\
    (forall j, zlen px <= j < 8 * n -> bitmap dst' j = false) /\
    (forall j, 8 * n <= j -> bitmap dst' j = bitmap dst j).
Proof.
  intros name layout a dst px Hin Ha Hpx Hb n Hn. unfold extract_alpha_mask.
  replace (zlen px + 8 - 1) with (zlen px + 7) by lia. fold n.
  assert (Hn0 : 0 <= n) by (apply Z.div_pos; [pose proof (zlen_nonneg px); lia|lia]).
  assert (Hn8 : zlen px <= 8 * n < zlen px + 8).
  { unfold n. pose proof (Z.div_mod (zlen px + 7) 8 ltac:(lia)).
    pose proof (Z.mod_pos_bound (zlen px + 7) 8 ltac:(lia)). lia. }
  set (z := repeat 0 (Z.to_nat n)).
  assert (Lz : length z = Z.to_nat n) by apply repeat_length.
  unfold put. rewrite Lz, Z2Nat.id by lia. unfold zlen in Hn.
  replace ((0 <=? 0) && (0 + n <=? Z.of_nat (length dst))) with true by lia.
  cbn [bind Z.to_nat firstn app Nat.add].
  set (d0 := z ++ skipn (Z.to_nat n) dst).
  assert (Ld : length d0 = length dst).
  { unfold d0. rewrite app_length, skipn_length, Lz. lia. }
  assert (B0 : all_bytes d0).
  { apply Forall_app. split; [|apply Forall_skipn; exact Hb].
    unfold z. clear. induction (Z.to_nat n); constructor; [unfold is_byte; lia|assumption]. }
  assert (Low : forall j, 0 <= j < 8 * n -> bitmap d0 j = false).
  { intros j Hj. unfold bitmap, d0.
    rewrite app_nth1 by (rewrite Lz; apply Z2Nat.inj_lt; [apply Z.div_pos; lia|lia|apply Z.div_lt_upper_bound; lia]).
    unfold z. rewrite nth_repeat. apply Z.bits_0. }
  assert (High : forall j, 8 * n <= j -> bitmap d0 j = bitmap dst j).
  { intros j Hj. unfold bitmap. f_equal. unfold d0.
    assert (Q : n <= j / 8) by (apply Z.div_le_lower_bound; lia).
    rewrite app_nth2 by (rewrite Lz; lia). rewrite Lz.
    rewrite <- (firstn_skipn (Z.to_nat n) dst) at 2.
    assert (LF : length (firstn (Z.to_nat n) dst) = Z.to_nat n) by (rewrite firstn_length; lia).
    rewrite app_nth2 by (rewrite LF; lia). rewrite LF. reflexivity. }
  assert (Lay : exists k, alpha_layout (fourcc name) = Some (k, f_shift a, 2 ^ f_bits a - 1) /\
                0 <= f_bits a <= 8 /\ 0 <= f_shift a).
  { cbn [drm_formats In] in Hin.
    repeat (destruct Hin as [Hin|Hin];
      [injection Hin as <- <-; cbn in Ha;
       first [discriminate Ha | injection Ha as <-; eexists; split; [vm_compute; reflexivity|cbn; lia]]|]).
    destruct Hin. }
  destruct Lay as [k [Lay [Ab As]]]. rewrite Lay.
  destruct (alpha_bits_ok px (f_shift a) (f_bits a) 0 d0) as [d1 [E [L1 [T B1]]]]; auto.
  { unfold zlen in *. rewrite Ld. lia. }
  rewrite E. cbn [bind]. exists d1. split; [reflexivity|]. split; [congruence|].
  split; [auto|]. repeat split.
  - intros j Hj. rewrite T, Low by lia.
    replace ((Z.of_nat 0 <=? j) && (j <? Z.of_nat 0 + zlen px)) with true by lia. cbn [orb andb].
    rewrite Nat.sub_0_r. unfold opaque_px, channel.
    replace (2 ^ f_bits a - 1 + 1) with (2 ^ f_bits a) by lia.
    set (v := _ mod _).
    pose proof (Z.div_mod (2 ^ f_bits a - 1) 2 ltac:(lia)).
    pose proof (Z.mod_pos_bound (2 ^ f_bits a - 1) 2 ltac:(lia)). lia.
  - intros j Hj. pose proof (zlen_nonneg px). rewrite T, Low by lia.
    replace (j <? Z.of_nat 0 + zlen px) with false by lia. rewrite andb_false_r. reflexivity.
  - intros j Hj. pose proof (zlen_nonneg px). rewrite T, High by lia.
    replace (j <? Z.of_nat 0 + zlen px) with false by lia. rewrite andb_false_r. cbn [andb].
    apply orb_false_r.
Qed.
Print Assumptions C65_alpha_mask.

Example C65_alpha_mask_ex :
  In ("AR24"%string, [(A, 8); (R, 8); (G, 8); (B, 8)]) drm_formats /\
  extract_alpha_mask [77; 78; 79] (fourcc "AR24")
    [0xFF000000; 0x80FFFFFF; 0x7FFFFFFF; 0; 0; 0; 0; 0xFF123456; 0xC0000000] = Ok ([193; 128; 79], true) /\
  extract_alpha_mask [77] (fourcc "XR24") [0xFF000000] = Ok ([0], false).
Proof. split; [vm_compute; tauto|]. split; vm_compute; reflexivity. Qed.
