(** C170: the colours on the viewer's screen are those of the buffers. *)
From Verif Require Import Common CommonProofs Pixels_Model Pixels_Spec Pixels_Proofs Pixels_Props Zrle_Model Zrle_Spec Zrle_Props Raw_Model Raw_Spec
  Tight_Model Tight_Spec Msg_Model Msg_Spec Msg_Proofs Upd_Spec Upd_Proofs Upd2_Proofs Upd3_Proofs Upd_Props
  Mirror_Spec Mirror_Proofs Mirror_Props Wire_Spec Wire_Proofs Eye_Spec Eye2_Spec Eye3_Spec Wire2_Proofs Wire3_Proofs
  Eye_Proofs Eye2_Proofs Eye3_Proofs Eye_Props Eye2_Props Eye3_Props Hue_Spec Hue_Proofs Hue2_Proofs.
From Verif Require Tight_Props.

(** As C148, of colours instead of bytes: each frame is made by any of the three encoders,
    and a viewer that reads the pixels of each rectangle as its encoding says has, at any
    place, nothing yet or the colour of the buffer's pixel there, red, green and blue each
    brought to the number of bits the client has asked for. *)
Theorem C170_colours_of_the_picture :
  forall zstate istate deflate inflate synced, zlib_works zstate istate deflate inflate synced ->
  forall p dr dg db src sr sg sb, clear_format p dr dg db -> source_format src sr sg sb ->
  forall E fuel d seq e st e' (l : scene (list Z)) c v (P : Mirror_Spec.picture (list Z)) x y px,
    synced (fst e) st -> well_formed (snd e) -> streams_synced synced (snd e) [st; st; st; st] ->
    cursors (fun _ => viewer_of p) E -> cursor_shapes E ->
    watch _ (touched p) E fuel l (ready p d seq) (nothing_yet _) = Ok (c, v) ->
    orderly _ (touched p) E fuel l (ready p d seq) (nothing_yet _) = true ->
    made_run (touched p) (zstate * tenc zstate) (any_frame zstate deflate p src) E fuel l (ready p d seq) (nothing_yet _) e e' ->
    one_byte_leds (log c) -> steady _ l P -> holds x y d -> Forall (fun z => input_holds x y (fst z)) l ->
    (forall h, e_more E h = None) \/ count is_fence (log c) = 0 ->
    none_lost (log c) -> ~ Upd_Spec.covers (damage c) x y -> coming _ v = None ->
    0 <= px < 2 ^ bits_per_pixel src -> last_picture _ P l x y = le (Z.to_nat (bits_per_pixel src / 8)) px ->
    exists ms, splits (fun _ => viewer_of p) [] (traffic (log c)) ms /\
      (hues istate inflate p st ms x y = None \/
       hues istate inflate p st ms x y =
         Some [rescale sr dr (channel sr px); rescale sg dg (channel sg px); rescale sb db (channel sb px)]).
Proof.
  intros zstate istate deflate inflate synced ZW p dr dg db src sr sg sb CD CS E fuel d seq e st e' l c v P x y px
    SZ WF SY CU SH W OR RF O1 ST H F N NL D C PX LP.
  assert (B : 0 <= bits_per_pixel src) by (destruct CS as (_ & _ & BS & _); cbn in BS; lia).
  destruct (watch_shown (viewer_of p) (viewer_prefix _ _) _ _ (hue_still istate inflate p _) snd
    (shade p src) (touched p) _ (tight_wide p)
    (zstate * tenc zstate) _ (hue_sync zstate istate synced) (fun z rg Q f z' s => hue_made zstate istate deflate inflate synced ZW p src B z rg Q f z' s)
    True E fuel p d seq [] _ l c v (mk_view istate dark st [st; st; st; st], dark) e e' CU SH I eq_refl
    (fun _ => conj eq_refl (fun _ _ => eq_refl)) W OR NL RF (conj SZ (conj WF SY)) O1) as (ms & S0 & G).
  exists ms. split; [exact S0|]. specialize (G x y). rewrite (cpixels p dr dg db CD) in G.
  destruct (C130_screen_shows_picture_partial _ (touched p) E fuel p d seq l c v P x y W ST OR H F N NL D C) as [K|K]; rewrite K in G.
  - left. apply G, I.
  - right. destruct G as (q & G2 & G1). unfold hues. rewrite G1. f_equal. rewrite LP in G2.
    exact (shade_colour p src dr dg db sr sg sb CD CS px PX q G2).
Qed.
Print Assumptions C170_colours_of_the_picture.

(** And it is there without fail where the client has been told of a change since it asked
    for frames at all. *)
Theorem C170_colours_of_what_is_marked :
  forall zstate istate deflate inflate synced, zlib_works zstate istate deflate inflate synced ->
  forall p dr dg db src sr sg sb, clear_format p dr dg db -> source_format src sr sg sb ->
  forall E fuel d seq e st e1 e2 (l0 : scene (list Z)) c0 v0 (l : scene (list Z)) c v (P : Mirror_Spec.picture (list Z)) x y px,
    synced (fst e) st -> well_formed (snd e) -> streams_synced synced (snd e) [st; st; st; st] ->
    cursors (fun _ => viewer_of p) E -> cursor_shapes E ->
    watch _ (touched p) E fuel l0 (ready p d seq) (nothing_yet _) = Ok (c0, v0) ->
    orderly _ (touched p) E fuel l0 (ready p d seq) (nothing_yet _) = true ->
    made_run (touched p) (zstate * tenc zstate) (any_frame zstate deflate p src) E fuel l0 (ready p d seq) (nothing_yet _) e e1 ->
    updating c0 = false -> Upd_Spec.covers (damage c0) x y ->
    watch _ (touched p) E fuel l c0 (nothing_yet _) = Ok (c, v) ->
    orderly _ (touched p) E fuel l c0 (nothing_yet _) = true ->
    made_run (touched p) (zstate * tenc zstate) (any_frame zstate deflate p src) E fuel l c0 (nothing_yet _) e1 e2 ->
    one_byte_leds (log c) -> steady _ l P -> holds x y d -> Forall (fun z => input_holds x y (fst z)) (l0 ++ l) ->
    (forall h, e_more E h = None) \/ count is_fence (log c) = 0 ->
    none_lost (log c) -> ~ Upd_Spec.covers (damage c) x y -> coming _ v = None ->
    0 <= px < 2 ^ bits_per_pixel src -> last_picture _ P l x y = le (Z.to_nat (bits_per_pixel src / 8)) px ->
    exists ms, splits (fun _ => viewer_of p) [] (traffic (log c)) ms /\
      hues istate inflate p st ms x y =
        Some [rescale sr dr (channel sr px); rescale sg dg (channel sg px); rescale sb db (channel sb px)].
Proof.
  intros zstate istate deflate inflate synced ZW p dr dg db src sr sg sb CD CS E fuel d seq e st e1 e2 l0 c0 v0 l c v P x y px
    SZ WF SY CU SH W0 OR0 RF0 U M W OR RF O1 ST H F N NL D C PX LP. apply Forall_app in F as [F0 F].
  assert (B : 0 <= bits_per_pixel src) by (destruct CS as (_ & _ & BS & _); cbn in BS; lia).
  destruct (watch_shown2 (viewer_of p) (viewer_prefix _ _) _ _ (hue_still istate inflate p _) snd
    (shade p src) (touched p) _ (tight_wide p)
    (zstate * tenc zstate) _ (hue_sync zstate istate synced) (fun z rg Q f z' s => hue_made zstate istate deflate inflate synced ZW p src B z rg Q f z' s)
    False E fuel p d seq l0 c0 v0 l c v (mk_view istate dark st [st; st; st; st], dark) e e1 e2 CU SH (fun x => x) (conj SZ (conj WF SY)) W0 OR0 RF0 W OR NL RF O1)
    as (ms & S0 & G).
  specialize (G x y).
  rewrite (C130_marked_pixel_is_shown_partial _ (touched p) E fuel p d seq (map fst l0) c0 l c v P x y) in G; auto.
  - destruct G as (q & G2 & G1). exists ms. split; [exact S0|]. unfold hues. rewrite <- (cpixels p dr dg db CD), G1. f_equal.
    rewrite LP in G2. exact (shade_colour p src dr dg db sr sg sb CD CS px PX q G2).
  - eapply watch_run. exact W0.
  - apply Forall_map. exact F0.
Qed.
Print Assumptions C170_colours_of_what_is_marked.

From Verif Require Import Refinery_Model Refinery_Spec Refinery_Props Turn_Model Turn_Spec Turn_Proofs Turn_Props
  Feed_Model Feed_Spec Feed_Proofs Feed_Props.

(** From the buffers the application feeds to the display, as C155: where the newest buffer
    [f] is seen to have a pixel of value [px], in the DRM format with the name's fields, the
    viewer has that colour. *)
Theorem C170_colours_of_what_is_fed :
  forall zstate istate deflate inflate synced, zlib_works zstate istate deflate inflate synced ->
  forall xxh rects_of pool before n r outs P hs src f fs bits sr sg sb, keeps_points rects_of ->
    feeds xxh rects_of (map fr_fed before) = Ok (r, outs) -> shows before P ->
    well_fed xxh src (all_fed before hs) -> all_fed before hs = f :: fs ->
    drm_colours (fr_format f) bits sr sg sb ->
  exists l, staged xxh rects_of pool r n P hs = Ok l /\
  forall E fuel p dr dg db d seq e st e' c v x y px, clear_format p dr dg db ->
    synced (fst e) st -> well_formed (snd e) -> streams_synced synced (snd e) [st; st; st; st] ->
    cursors (fun _ => viewer_of p) E -> cursor_shapes E ->
    watch _ (touched p) E fuel l (ready p d seq) (nothing_yet _) = Ok (c, v) ->
    orderly _ (touched p) E fuel l (ready p d seq) (nothing_yet _) = true ->
    made_run (touched p) (zstate * tenc zstate) (any_frame zstate deflate p src) E fuel l (ready p d seq) (nothing_yet _) e e' ->
    one_byte_leds (log c) -> holds x y d -> Forall (fun z => input_holds x y (fst z)) l -> Turn_Spec.inside f x y ->
    (forall h, e_more E h = None) \/ count is_fence (log c) = 0 ->
    none_lost (log c) -> ~ Upd_Spec.covers (damage c) x y -> coming _ v = None ->
    0 <= px < 2 ^ bits -> snd (Turn_Spec.pixel f x y) = le (Z.to_nat (bits / 8)) px ->
    exists ms, splits (fun _ => viewer_of p) [] (traffic (log c)) ms /\
      (hues istate inflate p st ms x y = None \/
       hues istate inflate p st ms x y =
         Some [rescale sr dr (channel sr px); rescale sg dg (channel sg px); rescale sb db (channel sb px)]).
Proof.
  intros zstate istate deflate inflate synced ZW xxh rects_of pool before n r outs P hs src f fs bits sr sg sb K F S W A DC.
  destruct (staged_steady xxh rects_of pool src K hs before n r outs P W F S) as (l & L & St & La). rewrite A in W, La.
  pose proof (newest_format _ _ _ _ W) as Fm. exists l. split; [exact L|].
  destruct (drm_source _ _ _ _ _ DC) as (src' & Fm' & SF & <-). rewrite Fm in Fm'. injection Fm' as <-.
  intros E fuel p dr dg db d seq e st e' c v x y px CD S1 S2 S3 C1 C2 Wa Or Ma One H Hi I Fe NL D Co PX PB.
  apply (C170_colours_of_the_picture zstate istate deflate inflate synced ZW p dr dg db src sr sg sb CD SF E fuel d seq e st e' l c v P x y px); auto.
  rewrite <- PB. apply La, I.
Qed.
Print Assumptions C170_colours_of_what_is_fed.

(** Cases.  The story of C148 (Raw, then ZRLE, then Tight), for a client of 16 bits, and
    its colours: a buffer with blue 56, green 28, red 112 out of 255 each. *)
Example C170_case :
  clear_format rgb565be (mk_field 11 5) (mk_field 5 6) (mk_field 0 5) /\
  source_format xrgb8888 (mk_field 16 8) (mk_field 8 8) (mk_field 0 8) /\
  drm_colours (fourcc "XR24") 32 (mk_field 16 8) (mk_field 8 8) (mk_field 0 8) /\
  last_picture _ (Eye_Props.canvas 6) mixed_story 2 1 = le 4 (112 * 2 ^ 16 + 28 * 2 ^ 8 + 56) /\
  hues unit id_i rgb565be tt mixed_wire 2 1 = Some [14; 7; 7] /\
  [rescale (mk_field 16 8) (mk_field 11 5) 112; rescale (mk_field 8 8) (mk_field 5 6) 28; rescale (mk_field 0 8) (mk_field 0 5) 56] = [14; 7; 7] /\
  (* before the second frame *)
  hues unit id_i rgb565be tt (firstn 1 mixed_wire) 2 1 = Some [12; 6; 6] /\ hues unit id_i rgb565be tt mixed_wire 3 1 = None.
Proof.
  split.
  { unfold clear_format, has_fields, fields_ok, Pixels_Spec.inside, apart. cbn. repeat split; try lia; try tauto; try (intros XX; discriminate XX). }
  split. { unfold source_format, has_fields, fields_ok, Pixels_Spec.inside, apart. cbn. repeat split; try lia; try tauto. }
  split. { exists "XR24"%string, [(X, 8); (R, 8); (G, 8); (B, 8)]. repeat split; try congruence. vm_compute. tauto. }
  split; [vm_compute; reflexivity|]. split; [vm_compute; reflexivity|]. split; [vm_compute; reflexivity|]. split; vm_compute; reflexivity.
Qed.

(** Clients of 32 bits: three bytes are sent, in ZRLE the low ones, or the high ones, in
    Tight red, green and blue. *)
Definition high_rgb : pixfmt := mk_fmt 32 24 1 1 255 255 255 24 16 8.
Example C170_three_bytes :
  clear_format xrgb8888 (mk_field 16 8) (mk_field 8 8) (mk_field 0 8) /\
  clear_format high_rgb (mk_field 24 8) (mk_field 16 8) (mk_field 8 8) /\
  tint_of xrgb8888 16 [56; 28; 112] = [112; 28; 56] /\ tint_of xrgb8888 7 [112; 28; 56] = [112; 28; 56] /\
  tint_of xrgb8888 0 [56; 28; 112; 0] = [112; 28; 56] /\ tint_of high_rgb 16 [112; 28; 56] = [112; 28; 56].
Proof.
  split.
  { unfold clear_format, has_fields, fields_ok, fits_low, fits_high, Pixels_Spec.inside, apart. cbn. repeat split; try lia; try tauto. }
  split.
  { unfold clear_format, has_fields, fields_ok, fits_low, fits_high, Pixels_Spec.inside, apart. cbn. repeat split; try lia; try tauto. }
  repeat split; vm_compute; reflexivity.
Qed.
