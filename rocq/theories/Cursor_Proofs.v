From Verif Require Import Common CommonProofs Ws_Proofs WsStream_Proofs.
From Verif Require Import Pixels_Model Pixels_Spec Pixels_Proofs Pixels_Props Zrle_Model Zrle_Spec Zrle_Proofs
  Zrle2_Proofs Raw_Model Raw_Spec Raw_Proofs Fb_Model Transform_Model Transform_Spec Transform_Props
  Cursor_Model Cursor_Spec.

(** ** Formats *)

Lemma alpha4 : forall name a, alpha32 name a -> exists s m, alpha_layout (fourcc name) = Some (4, s, m).
Proof.
  intros name a [l [Hin [Ha Hb]]]. cbn [drm_formats In] in Hin.
  repeat (destruct Hin as [Hin|Hin];
      [injection Hin as <- <-; cbn in Ha, Hb;
       first [discriminate Ha | discriminate Hb | do 2 eexists; vm_compute; reflexivity]|]).
  destruct Hin.
Qed.

Lemma source_format : forall name a, alpha32 name a -> exists src, pixfmt_from_fourcc (fourcc name) = Some src /\
  bits_per_pixel src = 32 /\ shifts_below_32 src /\ true_colour_flag src <> 0 /\ depth src <= 32.
Proof.
  intros name a [l [Hin [Ha Hb]]]. cbn [drm_formats In] in Hin.
  repeat (destruct Hin as [Hin|Hin];
      [injection Hin as <- <-; cbn in Ha, Hb;
       first [discriminate Ha | discriminate Hb
             | eexists; split; [vm_compute; reflexivity|unfold shifts_below_32; cbn; lia]]|]).
  destruct Hin.
Qed.

Lemma size4 : forall name a, alpha32 name a -> pixel_size_from_fourcc (fourcc name) = 4.
Proof.
  intros name a [l [Hin [Ha Hb]]]. cbn [drm_formats In] in Hin.
  repeat (destruct Hin as [Hin|Hin];
      [injection Hin as <- <-; cbn in Ha, Hb;
       first [discriminate Ha | discriminate Hb | vm_compute; reflexivity]|]).
  destruct Hin.
Qed.

(** ** The mask *)

Definition mask_good (a : field) (mem : list Z) (off stride width : Z) (rows : list (list Z)) : Prop :=
  forall y, 0 <= y < Z.of_nat (length rows) ->
  (forall x, 0 <= x < width -> exists p, get mem (off + y * (4 * stride) + x * 4) 4 = Ok p /\
     bitmap (nth (Z.to_nat y) rows []) x = opaque a p) /\
  (forall x, width <= x < 8 * ((width + 7) / 8) -> bitmap (nth (Z.to_nat y) rows []) x = false).

Lemma unle_nonneg : forall p, all_bytes p -> 0 <= unle p.
Proof.
  intros p H. unfold unle. pose proof (unbe_bound (rev p)) as B.
  apply B. apply Forall_rev. exact H.
Qed.

Lemma pixels_bytes : forall n bpp mem off px, all_bytes mem -> pixels_of n bpp mem off = Ok px ->
  Forall all_bytes px.
Proof.
  induction n as [|n IH]; intros bpp mem off px B H; cbn [pixels_of] in H.
  - injection H as <-. constructor.
  - destruct (get mem off bpp) as [p|] eqn:G; cbn [bind] in H; [|discriminate].
    destruct (pixels_of n bpp mem (off + bpp)) as [rest|] eqn:R; cbn [bind] in H; [|discriminate].
    injection H as <-. constructor; [|exact (IH _ _ _ _ B R)].
    unfold get in G. destruct (_ && _); [|discriminate]. injection G as <-.
    apply Forall_firstn, Forall_skipn, B.
Qed.

Lemma one_row : forall name a mem off width, alpha32 name a -> all_bytes mem -> 0 <= off -> 0 <= width ->
  off + width * 4 <= zlen mem ->
  exists px row, pixels_of (Z.to_nat width) 4 mem off = Ok px /\
    extract_alpha_mask (repeat 0 (Z.to_nat ((width + 8 - 1) / 8))) (fourcc name) (map unle px) = Ok (row, true) /\
    zlen row = (width + 7) / 8 /\
    (forall x, 0 <= x < width -> exists p, get mem (off + x * 4) 4 = Ok p /\ bitmap row x = opaque a p) /\
    (forall x, width <= x < 8 * ((width + 7) / 8) -> bitmap row x = false).
Proof.
  intros name a mem off width [l [Hin [Ha Hb]]] B O W L.
  destruct (pixels_of_total (Z.to_nat width) 4 mem off ltac:(lia) O ltac:(lia)) as [px P].
  destruct (pixels_of_length _ _ _ _ _ P) as [Lp _].
  replace (width + 8 - 1) with (width + 7) by lia.
  assert (Nn : 0 <= (width + 7) / 8) by (apply Z.div_pos; lia).
  assert (Zx : zlen (map unle px) = width) by (unfold zlen; rewrite map_length, Lp; lia).
  destruct (C65_alpha_mask name l a (repeat 0 (Z.to_nat ((width + 7) / 8))) (map unle px) Hin Ha) as [row [E [Lr [_ [T1 [T2 _]]]]]].
  - apply Forall_map. eapply Forall_impl; [|exact (pixels_bytes _ _ _ _ _ B P)]. intros p. apply unle_nonneg.
  - apply Forall_forall. intros z Hz. apply repeat_spec in Hz. subst. unfold is_byte. lia.
  - rewrite Zx. unfold zlen. rewrite repeat_length. lia.
  - rewrite Zx in *. exists px, row. split; [exact P|]. split; [exact E|].
    split; [unfold zlen; rewrite Lr, repeat_length; lia|]. split; [|exact T2].
    intros x Hx. destruct (pixels_of_nth _ _ _ _ _ (Z.to_nat x) P ltac:(lia)) as [p [N G]].
    exists p. split; [rewrite <- G; f_equal; lia|]. rewrite (T1 x Hx). unfold opaque.
    rewrite (nth_indep _ 0 (unle [])) by (rewrite map_length, Lp; lia).
    rewrite map_nth. rewrite (nth_error_nth _ _ _ N). reflexivity.
Qed.

Lemma mask_rows_ok : forall name a, alpha32 name a -> forall h dst mem off stride width,
  all_bytes mem -> 0 <= off -> 0 <= stride -> 0 <= width ->
  (h = O \/ off + (Z.of_nat h - 1) * (4 * stride) + width * 4 <= zlen mem) ->
  zlen (tdata dst) + Z.of_nat h * ((width + 7) / 8) <= tcap dst ->
  exists dst' rows, mask_rows h dst mem off stride (fourcc name) width = Ok (dst', true) /\
    tdata dst' = tdata dst ++ concat rows /\ length rows = h /\
    Forall (fun r => zlen r = (width + 7) / 8) rows /\ mask_good a mem off stride width rows.
Proof.
  intros name a F. destruct (alpha4 name a F) as [s [mx AL]].
  induction h as [|h IH]; intros dst mem off stride width B O S W L R; cbn [mask_rows].
  - exists dst, []. cbn [concat]. rewrite app_nil_r. repeat split; try constructor.
    + cbn [length] in H. lia.
    + cbn [length] in H. lia.
  - destruct L as [|L]; [lia|]. rewrite AL.
    assert (Nn : 0 <= (width + 7) / 8) by (apply Z.div_pos; lia).
    assert (P1 : 0 <= Z.of_nat h * (4 * stride)) by (apply Z.mul_nonneg_nonneg; lia).
    assert (P2 : 0 <= Z.of_nat h * ((width + 7) / 8)) by (apply Z.mul_nonneg_nonneg; lia).
    destruct (one_row name a mem off width F B O W ltac:(lia)) as [px [row [P [E [Lr [T1 T2]]]]]].
    rewrite P. cbn [bind]. rewrite E. cbn [bind fst].
    replace (width + 8 - 1) with (width + 7) by lia.
    replace (zlen (tdata dst) + (width + 7) / 8 <=? tcap dst) with true by lia. cbn [negb].
    unfold write_end. rewrite Lr. replace (_ <=? tcap dst) with true by lia. cbn [bind].
    destruct (IH (mk_tv (tdata dst ++ row) (tcap dst)) mem (off + 4 * stride) stride width B) as
      [dst' [rows [E' [D [Lw [Fw G]]]]]]; try lia.
    { cbn [tdata tcap]. rewrite zlen_app, Lr. lia. }
    exists dst', (row :: rows). split; [exact E'|]. split.
    { rewrite D. cbn [tdata concat]. rewrite app_assoc. reflexivity. }
    split; [cbn [length]; lia|]. split; [constructor; assumption|].
    intros y Hy. cbn [length] in Hy. destruct (Z.eq_dec y 0) as [->|Y].
    + cbn [Z.to_nat nth]. split; [|exact T2]. intros x Hx. destruct (T1 x Hx) as [p [Gp Bp]].
      exists p. split; [rewrite <- Gp; f_equal; lia|exact Bp].
    + destruct (G (y - 1) ltac:(lia)) as [G1 G2].
      replace (Z.to_nat y) with (Datatypes.S (Z.to_nat (y - 1))) by lia. cbn [nth].
      split; [|exact G2]. intros x Hx. destruct (G1 x Hx) as [p [Gp Bp]].
      exists p. split; [rewrite <- Gp; f_equal; lia|exact Bp].
Qed.

(** Too little room: the last rows are written behind the block. *)
Lemma mask_rows_full : forall name a, alpha32 name a -> forall h dst mem off stride width,
  all_bytes mem -> 0 <= off -> 0 <= stride -> 0 <= width ->
  (h = O \/ off + (Z.of_nat h - 1) * (4 * stride) + width * 4 <= zlen mem) ->
  zlen (tdata dst) <= tcap dst < zlen (tdata dst) + Z.of_nat h * ((width + 7) / 8) ->
  mask_rows h dst mem off stride (fourcc name) width = Fault OobWrite.
Proof.
  intros name a F. destruct (alpha4 name a F) as [s [mx AL]].
  induction h as [|h IH]; intros dst mem off stride width B O S W L R; cbn [mask_rows]; [lia|].
  destruct L as [|L]; [lia|]. rewrite AL.
  assert (Nn : 0 <= (width + 7) / 8) by (apply Z.div_pos; lia).
  assert (P1 : 0 <= Z.of_nat h * (4 * stride)) by (apply Z.mul_nonneg_nonneg; lia).
  replace (width + 8 - 1) with (width + 7) by lia.
  destruct (zlen (tdata dst) + (width + 7) / 8 <=? tcap dst) eqn:Q; cbn [negb]; [|reflexivity].
  destruct (one_row name a mem off width F B O W ltac:(lia)) as [px [row [P [E [Lr _]]]]].
  replace (width + 8 - 1) with (width + 7) in E by lia.
  rewrite P. cbn [bind]. rewrite E. cbn [bind fst].
  unfold write_end. rewrite Lr, Q. cbn [bind].
  apply IH; try assumption; try lia. cbn [tdata tcap]. rewrite zlen_app, Lr. lia.
Qed.

(** ** The pixels *)

Lemma raw_rows_cap : forall h v fb off stride dst src n w v',
  raw_rows h v fb off stride dst src n w = Ok v' -> tcap v' = tcap v.
Proof.
  induction h as [|h IH]; intros v fb off stride dst src n w v' H; cbn [raw_rows] in H.
  - injection H as <-. reflexivity.
  - destruct (pixel_to_cpixel _ _ _ _ _ _) as [out|] eqn:E; cbn [bind] in H; [|discriminate].
    destruct (write_end v out) as [v1|] eqn:W; cbn [bind] in H; [|discriminate].
    unfold write_end in W. destruct (_ <=? _); [|discriminate]. injection W as <-.
    rewrite (IH _ _ _ _ _ _ _ _ _ H). reflexivity.
Qed.

Lemma pixels_step : forall dst mem fmt src stride w h, raw_formats fmt src -> bits_per_pixel src = 32 ->
  0 < w -> 0 < h -> w <= stride -> h * stride * 4 <= zlen mem ->
  zlen (tdata dst) + w * h * (bits_per_pixel fmt / 8) <= tcap dst ->
  exists dst' cps,
    (if w =? stride then
       let* out := pixel_to_cpixel (bits_per_pixel fmt / 8) fmt src mem 0 (Z.to_nat (w * h)) in write_end dst out
     else raw_rows (Z.to_nat h) dst mem 0 (stride * (bits_per_pixel src / 8)) fmt src (bits_per_pixel fmt / 8) (Z.to_nat w))
    = Ok dst' /\
    tdata dst' = tdata dst ++ concat cps /\ tcap dst' = tcap dst /\
    Forall (fun c => zlen c = bits_per_pixel fmt / 8) cps /\ length cps = Z.to_nat (w * h) /\
    row_good mem 0 (stride * 4) (bits_per_pixel fmt / 8) fmt src w h cps.
Proof.
  intros dst mem fmt src stride w h F B W H S L C.
  pose proof F as [S1 [S2 [T1 [T2 [D1 [D2 [B1 B2]]]]]]].
  assert (E4 : bits_per_pixel src / 8 = 4) by (rewrite B; reflexivity).
  set (n := bits_per_pixel fmt / 8) in *.
  assert (Pn : 1 <= n <= 4) by (unfold n; lia).
  assert (Pm : 0 <= w * h) by (apply Z.mul_nonneg_nonneg; lia).
  destruct (w =? stride) eqn:Q.
  - assert (stride = w) by lia. subst stride.
    assert (A : asserts n fmt src = true) by (apply asserts_ok; try assumption; lia).
    destruct (emit_pixels_total (Z.to_nat (w * h)) n 4 fmt src mem 0 S1 S2 Pn ltac:(lia) ltac:(lia)) as [o [E Lo]].
    { rewrite Z2Nat.id by lia. lia. }
    assert (E' : pixel_to_cpixel n fmt src mem 0 (Z.to_nat (w * h)) = Ok o).
    { rewrite pixel_to_cpixel_loop by exact A. rewrite src_bytes_eq, E4. exact E. }
    rewrite E'. cbn [bind]. unfold write_end. rewrite Lo, Z2Nat.id by lia.
    replace (_ <=? tcap dst) with true by lia.
    destruct (to_px _ _ _ _ _ _ _ E') as [px [cps [P [Fc [Zc ->]]]]].
    destruct (pixels_of_length _ _ _ _ _ P) as [Lp _].
    exists (mk_tv (tdata dst ++ concat cps) (tcap dst)), cps.
    split; [reflexivity|]. split; [reflexivity|]. split; [reflexivity|]. split; [exact Zc|].
    split; [rewrite <- (Forall2_len _ _ _ _ _ Fc); exact Lp|].
    intros i j Hi Hj. rewrite E4 in *.
    assert (K : (Z.to_nat (j * w + i) < Z.to_nat (w * h))%nat) by nia.
    destruct (pixels_of_nth _ _ _ _ _ _ P K) as [p [N Gp]].
    destruct (Forall2_nth _ _ _ _ _ Fc _ _ N) as [c [N2 Cc]].
    exists p, c. split; [|split; [exact Cc|exact N2]].
    rewrite <- Gp. f_equal. rewrite Z2Nat.id by nia. lia.
  - rewrite E4.
    destruct (raw_rows_total (Z.to_nat h) dst mem 0 (stride * 4) fmt src n (Z.to_nat w) F eq_refl) as [v E]; [lia|lia| | |].
    { right. rewrite E4, !Z2Nat.id by lia. nia. }
    { rewrite !Z2Nat.id by lia. lia. }
    destruct (raw_rows_ok _ _ _ _ _ _ _ _ _ _ E) as [cps [T [Zc [Lc G]]]].
    exists v, cps. split; [exact E|]. split; [exact T|]. split; [exact (raw_rows_cap _ _ _ _ _ _ _ _ _ _ E)|].
    split; [exact Zc|]. split; [rewrite Lc, Z2Nat.inj_mul by lia; lia|].
    rewrite !Z2Nat.id in G by lia. exact G.
Qed.

(** ** Reading the rectangle *)

Lemma read_cursor_ok : forall n x y w h cps rows rest,
  0 <= x < 2 ^ 16 -> 0 <= y < 2 ^ 16 -> 0 < w < 2 ^ 16 -> 0 < h < 2 ^ 16 -> 0 <= n ->
  Forall (fun c => zlen c = n) cps -> length cps = Z.to_nat (w * h) ->
  Forall (fun r => zlen r = (w + 7) / 8) rows -> length rows = Z.to_nat h ->
  read_cursor (Z.to_nat n) (rect_head CURSOR x y w h ++ concat cps ++ concat rows ++ rest)
  = Some (mk_cursor x y w h cps rows, rest).
Proof.
  intros n x y w h cps rows rest Hx Hy Hw Hh Hn F L Fr Lr. unfold read_cursor, rect_head.
  rewrite !(Z.mod_small _ (2 ^ 16)) by lia. change (CURSOR mod 2 ^ 32) with (2 ^ 32 - 239).
  set (e := 2 ^ 32 - 239). assert (He : 0 <= e < 256 ^ Z.of_nat 4) by (unfold e; cbn; lia).
  set (head := be 2 x ++ be 2 y ++ be 2 w ++ be 2 h ++ be 4 e).
  assert (Lh : length head = 12%nat) by (unfold head; rewrite !app_length, !be_length; reflexivity).
  set (tl := concat cps ++ _).
  unfold take at 1. replace (12 <=? length (head ++ tl))%nat with true by (rewrite app_length; lia).
  rewrite (firstn_app_eq _ 12), (skipn_app_eq _ 12) by exact Lh.
  assert (S2 : skipn 2 head = be 2 y ++ be 2 w ++ be 2 h ++ be 4 e)
    by (unfold head; apply skipn_app_eq; apply be_length).
  assert (S4 : skipn 4 head = be 2 w ++ be 2 h ++ be 4 e)
    by (change 4%nat with (2 + 2)%nat at 1; rewrite <- skipn_skipn, S2; apply skipn_app_eq; apply be_length).
  assert (S6 : skipn 6 head = be 2 h ++ be 4 e)
    by (change 6%nat with (2 + 4)%nat at 1; rewrite <- skipn_skipn, S4; apply skipn_app_eq; apply be_length).
  assert (S8 : skipn 8 head = be 4 e)
    by (change 8%nat with (2 + 6)%nat at 1; rewrite <- skipn_skipn, S6; apply skipn_app_eq; apply be_length).
  rewrite S2, S4, S6, S8. unfold head. rewrite !u16_be by lia. rewrite unbe_be by exact He.
  rewrite Z.eqb_refl. unfold tl. rewrite <- L.
  rewrite read_cpixels_concat by (rewrite Z2Nat.id by lia; exact F).
  rewrite <- Lr. rewrite read_cpixels_concat; [reflexivity|].
  rewrite Z2Nat.id by (apply Z.div_pos; lia). exact Fr.
Qed.

(** ** Normal images *)

Lemma both_formats : forall fmt src, client_format fmt -> bits_per_pixel src = 32 -> shifts_below_32 src ->
  true_colour_flag src <> 0 -> depth src <= 32 -> raw_formats fmt src.
Proof.
  intros fmt src [S [T [D B]]] B' S' T' D'. unfold raw_formats. rewrite B'. repeat split; try assumption; try apply S; try apply S'; try (cbn; lia); lia.
Qed.

Section Body.
Variables (name : string) (a : field) (fmt src : pixfmt) (stride w h hx hy : Z) (mem : list Z).
Hypothesis F : alpha32 name a.
Hypothesis C : client_format fmt.
Hypothesis Src : pixfmt_from_fourcc (fourcc name) = Some src.
Hypothesis B : all_bytes mem.
Hypothesis W : 0 < w < 2 ^ 16.
Hypothesis H : 0 < h < 2 ^ 16.
Hypothesis S : w <= stride.
Hypothesis M : h * stride * 4 <= zlen mem.
Hypothesis HX : 0 <= hx < 2 ^ 16.
Hypothesis HY : 0 <= hy < 2 ^ 16.
Let n := bits_per_pixel fmt / 8.

Let start := append (mk_tv [] 4096) ([0; 0] ++ be 2 1).
Let body (dst : tvec) :=
  let dst := append dst (rect_head CURSOR hx hy w h) in
  let size := (w * h) mod 2 ^ 32 in
  let dst := reserve dst (zlen (tdata dst) + size * n + (size + 8 - 1) / 8) in
  let* dst :=
    (if w =? stride then
       let* out := pixel_to_cpixel n fmt src mem 0 (Z.to_nat size) in
       write_end dst out
     else raw_rows (Z.to_nat h) dst mem 0 (stride * (bits_per_pixel src / 8)) fmt src n (Z.to_nat w)) in
  let* r := mask_rows (Z.to_nat h) dst mem 0 stride (fourcc name) w in
  Ok (0, fst r, 0).

Lemma body_starts : exists dst' cps,
  body start = (let* r := mask_rows (Z.to_nat h) dst' mem 0 stride (fourcc name) w in Ok (0, fst r, 0)) /\
  tdata dst' = [0; 0; 0; 1] ++ rect_head CURSOR hx hy w h ++ concat cps /\ tcap dst' = reserved w h n /\
  Forall (fun c => zlen c = n) cps /\ length cps = Z.to_nat (w * h) /\
  row_good mem 0 (stride * 4) n fmt src w h cps /\ zlen (tdata dst') = 16 + w * h * n.
Proof.
  destruct (source_format name a F) as [src' [E' [B32 [Ss [Ts Ds]]]]].
  assert (src' = src) by congruence. subst src'. clear E'.
  pose proof (both_formats fmt src C B32 Ss Ts Ds) as R.
  assert (Pn : 1 <= n <= 4) by (unfold n; destruct C as [_ [_ [_ Q]]]; lia).
  assert (Pm : 0 < w * h) by (apply Z.mul_pos_pos; lia).
  assert (Pu : w * h < 2 ^ 32) by nia.
  assert (Lh : zlen (rect_head CURSOR hx hy w h) = 12)
    by (unfold zlen, rect_head; rewrite !app_length, !be_length; reflexivity).
  unfold body. rewrite (Z.mod_small (w * h)) by lia.
  set (d0 := append start (rect_head CURSOR hx hy w h)).
  assert (T0 : tdata d0 = [0; 0; 0; 1] ++ rect_head CURSOR hx hy w h) by reflexivity.
  assert (C0 : tcap d0 = 4096).
  { unfold d0, append. rewrite Lh. reflexivity. }
  assert (Z0 : zlen (tdata d0) = 16) by (rewrite T0, zlen_app, Lh; reflexivity).
  rewrite Z0. replace (w * h + 8 - 1) with (w * h + 7) by lia.
  set (d1 := reserve d0 _).
  assert (T1 : tdata d1 = tdata d0) by (unfold d1, reserve; destruct (_ <=? _); reflexivity).
  assert (C1 : tcap d1 = reserved w h n).
  { unfold d1, reserve, reserved. rewrite C0. destruct (_ <=? 4096) eqn:Q; cbn [tcap]; lia. }
  assert (P8 : 0 <= (w * h + 7) / 8) by (apply Z.div_pos; lia).
  destruct (pixels_step d1 mem fmt src stride w h R B32) as [d2 [cps [E [T2 [C2 [Fc [Lc G]]]]]]]; try lia.
  { rewrite T1, Z0, C1. unfold reserved. fold n. lia. }
  fold n in E, Fc, G. exists d2, cps. rewrite E. cbn [bind].
  split; [reflexivity|]. split; [rewrite T2, T1, T0, <- app_assoc; reflexivity|].
  split; [congruence|]. split; [exact Fc|]. split; [exact Lc|]. split; [exact G|].
  rewrite T2, T1, zlen_app, Z0.
  assert (Zc : zlen (concat cps) = w * h * n).
  { transitivity (Z.of_nat (length cps) * n); [|rewrite Lc, Z2Nat.id by lia; reflexivity].
    clear - Fc. induction Fc as [|c cps Hc Fc IH]; [reflexivity|]. cbn [concat length]. rewrite zlen_app, IH, Hc. lia. }
  lia.
Qed.

Lemma body_reads : needed w h n <= reserved w h n ->
  exists r c, body start = Ok (0, r, 0) /\ firstn 4 (tdata r) = [0; 0; 0; 1] /\
    read_cursor (Z.to_nat n) (skipn 4 (tdata r)) = Some (c, []) /\
    c_x c = hx /\ c_y c = hy /\ c_w c = w /\ c_h c = h /\
    (forall x y, 0 <= x < w -> 0 <= y < h -> exists p cp,
       get mem ((y * stride + x) * 4) 4 = Ok p /\ pixel_to_cpixel n fmt src p 0 1 = Ok cp /\
       pixel_of c x y = Some cp /\ shown c x y = opaque a p) /\
    (forall x y, w <= x < 8 * ((w + 7) / 8) -> 0 <= y < h -> shown c x y = false).
Proof.
  intros Room. destruct body_starts as [d [cps [E [T [Cp [Fc [Lc [G Z]]]]]]]].
  destruct (source_format name a F) as [src' [E' [B32 _]]].
  assert (src' = src) by congruence. subst src'. clear E'.
  destruct (mask_rows_ok name a F (Z.to_nat h) d mem 0 stride w B) as [d' [rows [E2 [T2 [Lr [Fr Gm]]]]]]; [lia|lia|lia| | |].
  { right. rewrite Z2Nat.id by lia. nia. }
  { rewrite Z, Cp, Z2Nat.id by lia. unfold needed in Room. lia. }
  rewrite E, E2. cbn [bind fst].
  exists d', (mk_cursor hx hy w h cps rows). split; [reflexivity|].
  rewrite T2, T. split; [reflexivity|].
  split.
  { change (skipn 4 (([0; 0; 0; 1] ++ rect_head CURSOR hx hy w h ++ concat cps) ++ concat rows))
      with ((rect_head CURSOR hx hy w h ++ concat cps) ++ concat rows).
    rewrite <- app_assoc. rewrite <- (app_nil_r (concat rows)).
    apply read_cursor_ok; try assumption. unfold n. apply Z.div_pos; destruct C as [_ [_ [_ Q]]]; lia. }
  do 4 (split; [reflexivity|]). unfold pixel_of, shown. cbn [c_px c_w c_mask]. split.
  - intros x y Hx Hy. destruct (G x y Hx Hy) as [p [cp [Gp [Ep Np]]]]. rewrite B32 in Gp. change (32 / 8) with 4 in Gp.
    destruct (Gm y ltac:(lia)) as [Gm1 _]. destruct (Gm1 x Hx) as [p' [Gp' Bp]].
    assert (Ep' : Ok p' = Ok p) by (rewrite <- Gp, <- Gp'; f_equal; lia). injection Ep' as ->.
    exists p, cp. split; [rewrite <- Gp; f_equal; lia|]. auto.
  - intros x y Hx Hy. destruct (Gm y ltac:(lia)) as [_ Gm2]. apply Gm2. exact Hx.
Qed.

Lemma body_overflows : reserved w h n < needed w h n -> body start = Fault OobWrite.
Proof.
  intros Room. destruct body_starts as [d [cps [E [T [Cp [Fc [Lc [G Z]]]]]]]].
  rewrite E. rewrite (mask_rows_full name a F); [reflexivity|assumption|lia|lia|lia| |].
  - right. rewrite Z2Nat.id by lia. nia.
  - rewrite Z, Cp, Z2Nat.id by lia. unfold needed in Room. split; [|lia]. unfold reserved.
    assert (0 <= (w * h + 7) / 8) by (apply Z.div_pos; nia). lia.
Qed.
End Body.

(** ** Transforms *)

Lemma from_matrix : forall t w h m x y, to_pixman_transform t w h = Ok m -> sampled m x y = comes_from t w h x y.
Proof. intros t w h m x y E. rewrite (sampled_ok t w h m x y E). destruct t; reflexivity. Qed.

Lemma matrix_exists : forall t w h, 0 <= w <= 32767 -> 0 <= h <= 32767 -> exists m, to_pixman_transform t w h = Ok m.
Proof.
  intros t w h W H. unfold to_pixman_transform. rewrite !times_F1_in by lia. destruct t; cbn [bind]; eauto.
Qed.

Lemma got : forall mem o n p, all_bytes mem -> get mem o n = Ok p -> zlen p = n /\ all_bytes p.
Proof.
  intros mem o n p B G. unfold get in G. destruct (_ && _ && _) eqn:E; [|discriminate]. injection G as <-. split.
  - unfold zlen. rewrite firstn_length, skipn_length. lia.
  - apply Forall_firstn, Forall_skipn, B.
Qed.

Section Draw.
Variables (i : image) (m : matrix).
Hypothesis B : all_bytes (im_mem i).

Lemma row_drawn : forall n x y,
  (forall k, 0 <= k < Z.of_nat n -> exists p, drawn i m 4 (x + k) y = Ok p /\ zlen p = 4 /\ all_bytes p) ->
  exists out, drawn_row n i m 4 x y = Ok out /\ zlen out = Z.of_nat n * 4 /\ all_bytes out /\
    forall k, 0 <= k < Z.of_nat n -> get out (k * 4) 4 = drawn i m 4 (x + k) y.
Proof.
  induction n as [|n IH]; intros x y D; cbn [drawn_row].
  - exists []. repeat split; [constructor|]. intros k Hk. lia.
  - destruct (D 0 ltac:(lia)) as [p [E [L Bp]]]. rewrite Z.add_0_r in E. rewrite E. cbn [bind].
    destruct (IH (x + 1) y) as [out [E' [L' [B' G]]]].
    { intros k Hk. replace (x + 1 + k) with (x + (k + 1)) by lia. apply D. lia. }
    rewrite E'. cbn [bind]. exists (p ++ out). split; [reflexivity|].
    split; [rewrite zlen_app, L, L'; lia|]. split; [apply Forall_app; auto|].
    intros k Hk. destruct (Z.eq_dec k 0) as [->|K].
    + rewrite Z.add_0_r, E. rewrite get_app_l by (try rewrite L; lia).
      rewrite <- L. replace (0 * zlen p) with 0 by lia. pose proof (get_prefix p []) as Q. rewrite app_nil_r in Q. exact Q.
    + rewrite get_app_r by (rewrite ?L, ?L'; lia). rewrite L.
      replace (k * 4 - 4) with ((k - 1) * 4) by lia. rewrite G by lia. f_equal. lia.
Qed.

Lemma rows_drawn : forall h w y,
  (forall x k, 0 <= x < Z.of_nat w -> 0 <= k < Z.of_nat h -> exists p, drawn i m 4 x (y + k) = Ok p /\ zlen p = 4 /\ all_bytes p) ->
  exists out, drawn_rows h w i m 4 y = Ok out /\ zlen out = Z.of_nat h * (Z.of_nat w * 4) /\ all_bytes out /\
    forall x k, 0 <= x < Z.of_nat w -> 0 <= k < Z.of_nat h ->
      get out ((k * Z.of_nat w + x) * 4) 4 = drawn i m 4 x (y + k).
Proof.
  induction h as [|h IH]; intros w y D; cbn [drawn_rows].
  - exists []. repeat split; [constructor|]. intros x k Hx Hk. lia.
  - destruct (row_drawn w 0 y) as [row [E [L [Bp G]]]].
    { intros k Hk. destruct (D (0 + k) 0) as [p Hp]; [lia|lia|]. rewrite Z.add_0_r in Hp. eauto. }
    rewrite E. cbn [bind]. destruct (IH w (y + 1)) as [out [E' [L' [B' G']]]].
    { intros x k Hx Hk. replace (y + 1 + k) with (y + (k + 1)) by lia. apply D; lia. }
    rewrite E'. cbn [bind]. exists (row ++ out). split; [reflexivity|].
    split; [rewrite zlen_app, L, L'; lia|]. split; [apply Forall_app; auto|].
    intros x k Hx Hk. destruct (Z.eq_dec k 0) as [->|K].
    + rewrite get_app_l by (rewrite ?L; lia). replace ((0 * Z.of_nat w + x) * 4) with (x * 4) by lia.
      rewrite G by lia. f_equal; lia.
    + assert (0 <= (k - 1) * Z.of_nat w) by (apply Z.mul_nonneg_nonneg; lia).
      rewrite get_app_r by (rewrite ?L, ?L'; nia). rewrite L.
      replace ((k * Z.of_nat w + x) * 4 - Z.of_nat w * 4) with (((k - 1) * Z.of_nat w + x) * 4) by lia.
      rewrite G' by lia. f_equal. lia.
Qed.
End Draw.

Lemma dims : forall t w h, transform_dimensions t w h = (w, h) \/ transform_dimensions t w h = (h, w).
Proof. intros. unfold transform_dimensions. destruct (is_transform_90_degrees t); auto. Qed.

Lemma from_inside : forall t w h x y w' h', transform_dimensions t w h = (w', h') ->
  0 <= x < w' -> 0 <= y < h' -> let (sx, sy) := comes_from t w h x y in 0 <= sx < w /\ 0 <= sy < h.
Proof.
  intros t w h x y w' h' E X Y. unfold transform_dimensions in E.
  destruct t; cbn in E; injection E as <- <-; cbn [comes_from]; lia.
Qed.

Lemma applied : forall name a i w' h', alpha32 name a -> im_fourcc i = fourcc name -> drawable i ->
  0 < im_w i -> 0 < im_h i -> im_w i <= im_stride i -> im_h i * im_stride i * 4 <= zlen (im_mem i) ->
  all_bytes (im_mem i) -> transform_dimensions (im_transform i) (im_w i) (im_h i) = (w', h') ->
  exists i', apply_transform i = Ok i' /\ im_w i' = w' /\ im_h i' = h' /\ im_fourcc i' = fourcc name /\
    w' <= im_stride i' /\ h' * im_stride i' * 4 <= zlen (im_mem i') /\ all_bytes (im_mem i') /\
    forall x y, 0 <= x < w' -> 0 <= y < h' ->
      let (sx, sy) := comes_from (im_transform i) (im_w i) (im_h i) x y in
      get (im_mem i') ((y * im_stride i' + x) * 4) 4 = get (im_mem i) ((sy * im_stride i + sx) * 4) 4.
Proof.
  intros name a i w' h' F Ef D W H S L B Ed.
  assert (Cases : im_transform i = Normal \/ im_transform i <> Normal) by (destruct (im_transform i); auto; right; discriminate).
  destruct Cases as [En|En].
  - rewrite En in Ed. cbn in Ed. injection Ed as <- <-. exists i. unfold apply_transform. rewrite En.
    cbn [comes_from]. repeat split; auto.
  - destruct D as [D|[Dp [Dw Dh]]]; [contradiction|].
    assert (Pos : 0 < w' <= 32767 /\ 0 < h' <= 32767).
    { destruct (dims (im_transform i) (im_w i) (im_h i)) as [Q|Q]; rewrite Q in Ed; injection Ed as <- <-; lia. }
    assert (Pm : 0 < w' * h' < 2 ^ 30) by nia.
    destruct (matrix_exists (im_transform i) (im_w i) (im_h i) ltac:(lia) ltac:(lia)) as [m Em].
    assert (Sz : exists size, fb_new w' h' (im_fourcc i) w' = Ok size /\ w' * h' * 4 <= size).
    { unfold fb_new, fb_alloc_size. rewrite Ef, (size4 name a F).
      replace (h' * w' <? 2 ^ 31) with true by lia. eexists. split; [reflexivity|].
      rewrite Z.mod_small by lia. pose proof (Z.div_mod (h' * w' * 4 + 8 - 1) 8 ltac:(lia)).
      pose proof (Z.mod_pos_bound (h' * w' * 4 + 8 - 1) 8 ltac:(lia)). lia. }
    destruct Sz as [size [Es Hs]].
    destruct (rows_drawn i m (Z.to_nat h') (Z.to_nat w') 0) as [px [Ex [Lx [Bx Gx]]]].
    { intros x k Hx Hk. rewrite Z2Nat.id in * by lia. unfold drawn. rewrite (from_matrix _ _ _ _ _ _ Em).
      pose proof (from_inside (im_transform i) (im_w i) (im_h i) x (0 + k) w' h' Ed Hx ltac:(lia)) as I.
      destruct (comes_from _ _ _ _ _) as [sx sy]. destruct I as [I1 I2].
      replace (_ && _ && _ && _) with true by lia.
      assert (R : (sy * im_stride i + sx) * 4 + 4 <= zlen (im_mem i)) by nia.
      destruct (get_ok (im_mem i) ((sy * im_stride i + sx) * 4) 4) as [p G]; [nia|lia|exact R|].
      exists p. split; [exact G|]. exact (got _ _ _ _ B G). }
    rewrite !Z2Nat.id in Lx by lia.
    exists (mk_image Normal w' h' w' (im_fourcc i) (px ++ repeat 0 (Z.to_nat (size - zlen px)))).
    split.
    { assert (Sm : (w' * h' * 4) mod 2 ^ 32 = w' * h' * 4) by (apply Z.mod_small; lia).
      unfold apply_transform.
      destruct (im_transform i); [contradiction|..];
        (rewrite Ed, Es; cbn [bind]; rewrite Sm; replace (w' * h' * 4 <=? size) with true by lia; cbn [negb];
         rewrite Dp; cbn [bind negb]; rewrite Em; cbn [bind]; rewrite Ef, (size4 name a F); rewrite Ex; reflexivity). }
    cbn [im_w im_h im_fourcc im_stride im_mem]. split; [reflexivity|]. split; [reflexivity|]. split; [exact Ef|].
    split; [lia|]. split.
    { rewrite zlen_app, Lx. pose proof (zlen_nonneg (repeat 0 (Z.to_nat (size - h' * (w' * 4))))). lia. }
    split.
    { apply Forall_app. split; [exact Bx|]. apply Forall_forall. intros z Hz. apply repeat_spec in Hz. subst. unfold is_byte. lia. }
    intros x y Hx Hy. rewrite get_app_l; [|nia|lia|rewrite Lx; nia].
    specialize (Gx x y). rewrite !Z2Nat.id in Gx by lia. rewrite Gx by lia.
    unfold drawn. rewrite (from_matrix _ _ _ _ _ _ Em).
    pose proof (from_inside (im_transform i) (im_w i) (im_h i) x (0 + y) w' h' Ed Hx ltac:(lia)) as I.
    replace (0 + y) with y in * by lia.
    destruct (comes_from _ _ _ _ _) as [sx sy]. destruct I as [I1 I2].
    replace (_ && _ && _ && _) with true by lia. reflexivity.
Qed.

(** ** The message *)

Section Message.
Variables (name : string) (a : field) (fmt src : pixfmt) (i : image) (width height hotspot_x hotspot_y w h hx hy : Z).
Hypothesis F : alpha32 name a.
Hypothesis Ef : im_fourcc i = fourcc name.
Hypothesis C : client_format fmt.
Hypothesis Src : pixfmt_from_fourcc (fourcc name) = Some src.
Hypothesis D : drawable i.
Hypothesis Iw : 0 < im_w i.
Hypothesis Ih : 0 < im_h i.
Hypothesis Is : im_w i <= im_stride i.
Hypothesis Im : im_h i * im_stride i * 4 <= zlen (im_mem i).
Hypothesis Ib : all_bytes (im_mem i).
Hypothesis Cw : 0 < width <= im_w i.
Hypothesis Ch : 0 < height <= im_h i.
Hypothesis Sw : width < 2 ^ 16.
Hypothesis Sh : height < 2 ^ 16.
Hypothesis Hx : 0 <= hotspot_x < 2 ^ 16.
Hypothesis Hy : 0 <= hotspot_y < 2 ^ 16.
Hypothesis Ed : transform_dimensions (im_transform i) width height = (w, h).
Hypothesis Eh : transform_dimensions (im_transform i) hotspot_x hotspot_y = (hx, hy).
Let n := bits_per_pixel fmt / 8.

Lemma ranges : 0 < w < 2 ^ 16 /\ 0 < h < 2 ^ 16 /\ 0 <= hx < 2 ^ 16 /\ 0 <= hy < 2 ^ 16.
Proof.
  unfold transform_dimensions in Ed, Eh. destruct (is_transform_90_degrees _); injection Ed as <- <-; injection Eh as <- <-; lia.
Qed.

Lemma message_reads : needed w h n <= reserved w h n ->
  exists out c, send_cursor_update true fmt (Some i) width height hotspot_x hotspot_y = Ok (Some out, 0) /\
    firstn 4 out = [0; 0; 0; 1] /\ read_cursor (Z.to_nat n) (skipn 4 out) = Some (c, []) /\
    c_x c = hx /\ c_y c = hy /\ c_w c = w /\ c_h c = h /\
    (forall x y, 0 <= x < w -> 0 <= y < h ->
       let (sx, sy) := comes_from (im_transform i) (im_w i) (im_h i) x y in
       exists p cp, get (im_mem i) ((sy * im_stride i + sx) * 4) 4 = Ok p /\
         pixel_to_cpixel n fmt src p 0 1 = Ok cp /\
         pixel_of c x y = Some cp /\ shown c x y = opaque a p) /\
    (forall x y, w <= x < 8 * ((w + 7) / 8) -> 0 <= y < h -> shown c x y = false).
Proof.
  intros Room. destruct ranges as [R1 [R2 [R3 R4]]].
  destruct (transform_dimensions (im_transform i) (im_w i) (im_h i)) as [w' h'] eqn:Ei.
  destruct (applied name a i w' h' F Ef D Iw Ih Is Im Ib Ei) as [i' [Ea [Ew' [Eh' [Ef' [S' [L' [B' G']]]]]]]].
  assert (Le : w <= w' /\ h <= h').
  { clear - Ed Ei Cw Ch. unfold transform_dimensions in *. destruct (is_transform_90_degrees _);
      injection Ed as <- <-; injection Ei as <- <-; lia. }
  destruct (body_reads name a fmt src (im_stride i') w h hx hy (im_mem i') F C Src B' R1 R2) as
    [r [c [E [E4 [Er [Q1 [Q2 [Q3 [Q4 [P1 P2]]]]]]]]]]; try assumption; try lia.
  { assert (h * im_stride i' <= h' * im_stride i') by (apply Z.mul_le_mono_nonneg_r; lia). lia. }
  fold n in E, Er, P1.
  exists (tdata r), c. split.
  { unfold send_cursor_update, cursor_encode. rewrite Ed, Eh. cbn [negb]. rewrite Ea. cbn [bind].
    rewrite Ew', Eh', Ef', Src. replace ((w <=? w') && (h <=? h')) with true by lia. cbn [negb].
    cbv zeta. fold n. cbv zeta in E. rewrite E. cbn [bind]. reflexivity. }
  split; [exact E4|]. split; [exact Er|]. do 4 (split; [assumption|]). split; [|exact P2].
  intros x y X Y. specialize (G' x y ltac:(lia) ltac:(lia)).
  destruct (comes_from _ _ _ _ _) as [sx sy]. destruct (P1 x y X Y) as [p [cp [Gp Rest]]].
  exists p, cp. split; [congruence|exact Rest].
Qed.

Lemma message_overflows : reserved w h n < needed w h n ->
  send_cursor_update true fmt (Some i) width height hotspot_x hotspot_y = Fault OobWrite.
Proof.
  intros Room. destruct ranges as [R1 [R2 [R3 R4]]].
  destruct (transform_dimensions (im_transform i) (im_w i) (im_h i)) as [w' h'] eqn:Ei.
  destruct (applied name a i w' h' F Ef D Iw Ih Is Im Ib Ei) as [i' [Ea [Ew' [Eh' [Ef' [S' [L' [B' G']]]]]]]].
  assert (Le : w <= w' /\ h <= h').
  { clear - Ed Ei Cw Ch. unfold transform_dimensions in *. destruct (is_transform_90_degrees _);
      injection Ed as <- <-; injection Ei as <- <-; lia. }
  assert (Lm : h * im_stride i' * 4 <= zlen (im_mem i')).
  { assert (h * im_stride i' <= h' * im_stride i') by (apply Z.mul_le_mono_nonneg_r; lia). lia. }
  pose proof (body_overflows name a fmt src (im_stride i') w h hx hy (im_mem i') F C Src B' R1 R2 ltac:(lia) Lm
    Room) as E.
  unfold send_cursor_update, cursor_encode. rewrite Ed, Eh. cbn [negb]. rewrite Ea. cbn [bind].
  rewrite Ew', Eh', Ef', Src. replace ((w <=? w') && (h <=? h')) with true by lia. cbn [negb].
  cbv zeta. fold n. cbv zeta in E. fold n in E. rewrite E. reflexivity.
Qed.
End Message.
