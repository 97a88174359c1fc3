From Verif Require Import Common CommonProofs Ws_Proofs WsStream_Proofs.
From Verif Require Import Pixels_Model Pixels_Proofs Zrle_Model Zrle_Spec Zrle_Proofs Zrle2_Proofs Raw_Model Raw_Spec.

(** Conversion of a block for any pixel size (Zrle_Proofs has CPIXELs only). *)
Lemma to_px : forall n dst src mem off len out, pixel_to_cpixel n dst src mem off len = Ok out ->
  exists px cps, pixels_of len (bits_per_pixel src / 8) mem off = Ok px /\
    Forall2 (fun p c => pixel_to_cpixel n dst src p 0 1 = Ok c) px cps /\
    Forall (fun c => zlen c = n) cps /\ out = concat cps.
Proof.
  intros n dst src mem off len out H. pose proof (to_cpixel_asserts _ _ _ _ _ _ _ H) as A.
  rewrite pixel_to_cpixel_loop in H by exact A.
  destruct (emit_pixels_px _ _ _ _ _ _ _ _ H) as [px [cps [P [F E]]]].
  rewrite src_bytes_eq in P. exists px, cps. split; [exact P|].
  destruct (pixels_of_length _ _ _ _ _ P) as [_ Q]. clear - A F Q E. revert out Q E.
  induction F as [|p c px cps X F IH]; intros out Q E; [repeat split; auto|].
  inversion Q; subst. destruct (IH _ H2 eq_refl) as [F1 [F2 _]]. repeat split.
  - constructor; [|exact F1]. rewrite pixel_to_cpixel_loop by exact A.
    cbn [emit_pixels]. rewrite src_bytes_eq, <- H1.
    pose proof (get_prefix p []) as G. rewrite app_nil_r in G. rewrite G. cbn [bind]. rewrite X. cbn [bind].
    rewrite app_nil_r. reflexivity.
  - constructor; [exact (emit_pixel_length _ _ _ _ _ X)|exact F2].
Qed.

Lemma Forall2_nth : forall A B (R : A -> B -> Prop) l l', Forall2 R l l' ->
  forall k x, nth_error l k = Some x -> exists y, nth_error l' k = Some y /\ R x y.
Proof.
  intros A B R l l' F. induction F as [|p c px cps X F IH]; intros k q N;
    destruct k; cbn [nth_error] in *; try discriminate.
  - injection N as <-. eauto.
  - apply IH; exact N.
Qed.

Definition row_good (fb : list Z) (off stride n : Z) (dst src : pixfmt) (w h : Z) (cps : list (list Z)) : Prop :=
  forall i j, 0 <= i < w -> 0 <= j < h ->
  exists p c, get fb (off + j * stride + i * (bits_per_pixel src / 8)) (bits_per_pixel src / 8) = Ok p /\
    pixel_to_cpixel n dst src p 0 1 = Ok c /\ nth_error cps (Z.to_nat (j * w + i)) = Some c.

Lemma raw_rows_ok : forall h v fb off stride dst src n w v',
  raw_rows h v fb off stride dst src n w = Ok v' ->
  exists cps, tdata v' = tdata v ++ concat cps /\ Forall (fun c => zlen c = n) cps /\
    length cps = (h * w)%nat /\ row_good fb off stride n dst src (Z.of_nat w) (Z.of_nat h) cps.
Proof.
  induction h as [|h IH]; intros v fb off stride dst src n w v' H; cbn [raw_rows] in H.
  - injection H as <-. exists []. cbn [concat]. rewrite app_nil_r. repeat split; [constructor|].
    intros i j Hi Hj. lia.
  - destruct (pixel_to_cpixel _ _ _ _ _ _) as [out|] eqn:E; cbn [bind] in H; [|discriminate].
    destruct (write_end v out) as [v1|] eqn:W; cbn [bind] in H; [|discriminate].
    unfold write_end in W. destruct (_ <=? _); [|discriminate]. injection W as <-.
    destruct (IH _ _ _ _ _ _ _ _ _ H) as [cps [T [Z [L G]]]]. cbn [tdata] in T.
    destruct (to_px _ _ _ _ _ _ _ E) as [px [row [P [F [ZR ->]]]]].
    destruct (pixels_of_length _ _ _ _ _ P) as [Lp _].
    assert (Lr : length row = w) by (rewrite <- (Forall2_len _ _ _ _ _ F); exact Lp).
    exists (row ++ cps). split; [|split; [|split]].
    + rewrite T, concat_app, app_assoc. reflexivity.
    + apply Forall_app. auto.
    + rewrite app_length, Lr, L. lia.
    + intros i j Hi Hj. destruct (Z.eq_dec j 0) as [->|J].
      * assert (K : (Z.to_nat i < w)%nat) by lia.
        destruct (pixels_of_nth _ _ _ _ _ _ P K) as [p [N Gp]].
        destruct (Forall2_nth _ _ _ _ _ F _ _ N) as [c [N2 C]].
        exists p, c. split; [|split; [exact C|]].
        -- rewrite <- Gp. f_equal. rewrite Z2Nat.id by lia. lia.
        -- replace (Z.to_nat (0 * Z.of_nat w + i)) with (Z.to_nat i) by (f_equal; lia).
           rewrite nth_error_app1 by lia. exact N2.
      * destruct (G i (j - 1) Hi ltac:(lia)) as [p [c [Gp [C N]]]].
        exists p, c. split; [|split; [exact C|]].
        -- rewrite <- Gp. f_equal. lia.
        -- assert (0 <= (j - 1) * Z.of_nat w) by (apply Z.mul_nonneg_nonneg; lia).
           rewrite nth_error_app2 by (rewrite Lr; lia). rewrite Lr, <- N. f_equal. lia.
Qed.

Lemma read_raw_ok : forall n x y w h cps rest,
  0 <= x < 2 ^ 16 -> 0 <= y < 2 ^ 16 -> 0 < w < 2 ^ 16 -> 0 < h < 2 ^ 16 -> 0 <= n ->
  Forall (fun c => zlen c = n) cps -> length cps = (Z.to_nat h * Z.to_nat w)%nat ->
  read_raw (Z.to_nat n) (rect_head 0 x y w h ++ concat cps ++ rest) = Some (mk_rrect x y w h cps, rest).
Proof.
  intros n x y w h cps rest Hx Hy Hw Hh Hn F L. unfold read_raw, rect_head.
  rewrite !(Z.mod_small _ (2 ^ 16)) by lia. rewrite (Z.mod_small 0) by lia.
  set (head := be 2 x ++ be 2 y ++ be 2 w ++ be 2 h ++ be 4 0).
  assert (Lh : length head = 12%nat) by (unfold head; rewrite !app_length, !be_length; reflexivity).
  unfold take. replace (12 <=? length (head ++ concat cps ++ rest))%nat with true by (rewrite app_length; lia).
  rewrite (firstn_app_eq _ 12), (skipn_app_eq _ 12) by exact Lh.
  assert (S2 : skipn 2 head = be 2 y ++ be 2 w ++ be 2 h ++ be 4 0)
    by (unfold head; apply skipn_app_eq; apply be_length).
  assert (S4 : skipn 4 head = be 2 w ++ be 2 h ++ be 4 0)
    by (change 4%nat with (2 + 2)%nat at 1; rewrite <- skipn_skipn, S2; apply skipn_app_eq; apply be_length).
  assert (S6 : skipn 6 head = be 2 h ++ be 4 0)
    by (change 6%nat with (2 + 4)%nat at 1; rewrite <- skipn_skipn, S4; apply skipn_app_eq; apply be_length).
  assert (S8 : skipn 8 head = be 4 0)
    by (change 8%nat with (2 + 6)%nat at 1; rewrite <- skipn_skipn, S6; apply skipn_app_eq; apply be_length).
  rewrite S2, S4, S6, S8. unfold head. rewrite !u16_be by lia. rewrite unbe_be by lia.
  change (0 =? 0) with true. cbv iota.
  replace (Z.to_nat (w * h)) with (length cps) by (rewrite L, Z2Nat.inj_mul by lia; lia).
  rewrite read_cpixels_concat; [reflexivity|]. rewrite Z2Nat.id by lia. exact F.
Qed.

Lemma raw_asserts_pos : forall h v fb off stride dst src n w v', (0 < h)%nat ->
  raw_rows h v fb off stride dst src n w = Ok v' -> 1 <= n <= 4.
Proof.
  intros h v fb off stride dst src n w v' P H. destruct h; [lia|]. cbn [raw_rows] in H.
  destruct (pixel_to_cpixel _ _ _ _ _ _) as [out|] eqn:E; cbn [bind] in H; [|discriminate].
  apply to_cpixel_asserts in E. unfold asserts in E. lia.
Qed.

Lemma raw_box_reads : forall v fb xp yp dst src b stride v',
  fits_header xp yp b ->
  raw_encode_box v fb xp yp dst src (x1 b) (y1 b) stride (x2 b - x1 b) (y2 b - y1 b) = Ok v' ->
  exists bytes r, tdata v' = tdata v ++ bytes /\ raw_shows fb stride xp yp dst src b r /\
    forall rest, read_raw (Z.to_nat (bits_per_pixel dst / 8)) (bytes ++ rest) = Some (r, rest).
Proof.
  intros v fb xp yp dst src b stride v' [F1 [F2 [F3 F4]]] H. unfold raw_encode_box in H. cbv zeta in H.
  assert (Hp : (0 < Z.to_nat (y2 b - y1 b))%nat) by lia.
  pose proof (raw_asserts_pos _ _ _ _ _ _ _ _ _ _ Hp H) as Pn.
  destruct (raw_rows_ok _ _ _ _ _ _ _ _ _ _ H) as [cps [T [Z [L G]]]].
  assert (T' : tdata v' = tdata v ++ rect_head 0 (xp + x1 b) (yp + y1 b) (x2 b - x1 b) (y2 b - y1 b) ++ concat cps).
  { rewrite T. unfold reserve. destruct (_ <=? _); cbn [tdata]; rewrite append_tdata, <- app_assoc; reflexivity. }
  eexists _, (mk_rrect (xp + x1 b) (yp + y1 b) (x2 b - x1 b) (y2 b - y1 b) cps). split; [exact T'|]. split.
  - unfold raw_shows. cbn [rr_x rr_y rr_w rr_h rr_px]. repeat split. intros i j Hi Hj.
    rewrite !Z2Nat.id in G by lia. destruct (G i j Hi Hj) as [p [c [Gp [C N]]]].
    exists p, c. split; [|auto]. rewrite <- Gp. f_equal. ring.
  - intros rest. rewrite <- app_assoc. apply read_raw_ok; try lia; assumption.
Qed.

Lemma raw_boxes_read : forall boxes v fb xp yp dst src stride v',
  Forall (fits_header xp yp) boxes -> raw_boxes boxes v fb xp yp dst src stride = Ok v' ->
  exists bytes rs, tdata v' = tdata v ++ bytes /\ Forall2 (raw_shows fb stride xp yp dst src) boxes rs /\
    read_raws (Z.to_nat (bits_per_pixel dst / 8)) (length boxes) bytes = Some rs.
Proof.
  induction boxes as [|b boxes IH]; intros v fb xp yp dst src stride v' F H; cbn [raw_boxes] in H.
  - injection H as <-. exists [], []. rewrite app_nil_r. repeat split. constructor.
  - inversion F; subst.
    destruct (raw_encode_box _ _ _ _ _ _ _ _ _ _ _) as [v1|] eqn:E; cbn [bind] in H; [|discriminate].
    destruct (raw_box_reads _ _ _ _ _ _ _ _ _ H2 E) as [b1 [r [T1 [S1 R1]]]].
    destruct (IH _ _ _ _ _ _ _ _ H3 H) as [b2 [rs [T2 [S2 R2]]]].
    exists (b1 ++ b2), (r :: rs). split; [rewrite T2, T1, app_assoc; reflexivity|].
    split; [constructor; assumption|]. cbn [length read_raws]. rewrite R1, R2. reflexivity.
Qed.

Lemma raw_frame_reads : forall fb x_pos y_pos dst src stride rects extents out n,
  Forall (fits_header x_pos y_pos) (extents :: rects) ->
  Forall (fun b => x1 extents <= x1 b /\ x2 b <= x2 extents /\ y1 extents <= y1 b /\ y2 b <= y2 extents) rects ->
  raw_do_work fb x_pos y_pos dst src stride rects extents = Ok (out, n) ->
  exists rs, read_raws (Z.to_nat (bits_per_pixel dst / 8)) (Z.to_nat n) out = Some rs /\ 0 <= n <= 65535 /\
    (forall r, In r rs -> exists b, In b (extents :: rects) /\ raw_shows fb stride x_pos y_pos dst src b r) /\
    (forall b x y, In b rects -> x1 b <= x < x2 b -> y1 b <= y < y2 b ->
       exists r, In r rs /\ 0 <= x_pos + x - rr_x r < rr_w r /\ 0 <= y_pos + y - rr_y r < rr_h r).
Proof.
  intros fb xp yp dst src stride rects extents out n Fh Fe H.
  unfold raw_do_work, raw_encode_frame in H. cbv zeta in H.
  destruct (raw_boxes _ _ _ _ _ _ _ _) as [v|] eqn:E; cbn [bind fst snd] in H; [|discriminate].
  apply ok_inj, pair_equal_spec in H as [<- <-]. inversion Fh as [|? ? Fx Fr]; subst.
  assert (Fb : Forall (fits_header xp yp) (if Z.of_nat (length rects) >? 65535 then [extents] else rects)).
  { destruct (_ >? _); [constructor; [exact Fx|constructor]|exact Fr]. }
  destruct (raw_boxes_read _ _ _ _ _ _ _ _ _ Fb E) as [bytes [rs [T [F R]]]].
  cbn [tdata app] in T. rewrite T, Nat2Z.id.
  exists rs. split; [exact R|]. split; [|split].
  - destruct (Z.of_nat (length rects) >? 65535) eqn:G; [cbn [length]; lia|lia].
  - intros r Hr. destruct (Forall2_in_r _ _ _ _ _ _ F Hr) as [b [Ib Sb]]. exists b. split; [|exact Sb].
    destruct (_ >? _); [destruct Ib as [->|[]]; left; reflexivity|right; exact Ib].
  - intros b x y Ib Hx Hy.
    destruct (Z.of_nat (length rects) >? 65535).
    + destruct (Forall2_in_l _ _ _ _ _ extents F (or_introl eq_refl)) as [r [Ir [E1 [E2 [E3 [E4 _]]]]]].
      exists r. split; [exact Ir|]. rewrite Forall_forall in Fe. specialize (Fe b Ib). lia.
    + destruct (Forall2_in_l _ _ _ _ _ b F Ib) as [r [Ir [E1 [E2 [E3 [E4 _]]]]]].
      exists r. split; [exact Ir|]. lia.
Qed.

(** No fault. *)
Lemma raw_rows_total : forall h v fb off stride dst src n w, raw_formats dst src -> n = bits_per_pixel dst / 8 ->
  0 <= off -> 0 <= stride ->
  (h = O \/ off + (Z.of_nat h - 1) * stride + Z.of_nat w * (bits_per_pixel src / 8) <= zlen fb) ->
  zlen (tdata v) + Z.of_nat h * (Z.of_nat w * n) <= tcap v ->
  exists v', raw_rows h v fb off stride dst src n w = Ok v'.
Proof.
  induction h as [|h IH]; intros v fb off stride dst src n w F En Ho Hs L C; cbn [raw_rows]; [eauto|].
  destruct L as [|L]; [lia|]. pose proof F as [S1 [S2 [T1 [T2 [D1 [D2 [B1 B2]]]]]]].
  assert (Pn : 1 <= n <= 4) by (rewrite En; lia).
  assert (0 <= Z.of_nat h * stride) by (apply Z.mul_nonneg_nonneg; lia).
  assert (Pw : 0 <= Z.of_nat w * n) by (apply Z.mul_nonneg_nonneg; lia).
  assert (0 <= Z.of_nat h * (Z.of_nat w * n)) by (apply Z.mul_nonneg_nonneg; lia).
  assert (A : asserts n dst src = true) by (apply asserts_ok; try assumption; lia).
  rewrite pixel_to_cpixel_loop by exact A. rewrite src_bytes_eq.
  destruct (emit_pixels_total w n (bits_per_pixel src / 8) dst src fb off S1 S2 Pn) as [o [E Lo]]; [lia|lia|lia|].
  rewrite E. cbn [bind]. unfold write_end. rewrite Lo.
  replace (_ <=? tcap v) with true by lia. cbn [bind].
  apply IH; [exact F|exact En|lia|lia| |].
  - destruct h; [left; reflexivity|right]. lia.
  - cbn [tdata tcap]. rewrite zlen_app, Lo. lia.
Qed.

Lemma raw_boxes_total : forall boxes v fb xp yp dst src stride height, raw_formats dst src ->
  Forall (fun b => box_in b stride height) boxes -> height * stride * (bits_per_pixel src / 8) <= zlen fb ->
  exists v', raw_boxes boxes v fb xp yp dst src stride = Ok v'.
Proof.
  induction boxes as [|b boxes IH]; intros v fb xp yp dst src stride height F H L; cbn [raw_boxes]; [eauto|].
  inversion H as [|? ? [B1 [B2 [B3 [B4 [B5 B6]]]]] Hr]; subst.
  pose proof F as [_ [_ [_ [_ [_ [_ [Bs _]]]]]]].
  assert (E : exists v', raw_encode_box v fb xp yp dst src (x1 b) (y1 b) stride (x2 b - x1 b) (y2 b - y1 b) = Ok v').
  { unfold raw_encode_box. cbv zeta. set (s := bits_per_pixel src / 8) in *.
    assert (P1 : 0 <= x1 b * s) by (apply Z.mul_nonneg_nonneg; lia).
    assert (P2 : 0 <= y1 b * (stride * s)) by (repeat apply Z.mul_nonneg_nonneg; lia).
    assert (P3 : 0 <= stride * s) by (apply Z.mul_nonneg_nonneg; lia).
    assert (P4 : x2 b * s <= stride * s) by (apply Z.mul_le_mono_nonneg_r; lia).
    assert (P5 : y2 b * (stride * s) <= height * (stride * s)) by (apply Z.mul_le_mono_nonneg_r; lia).
    apply raw_rows_total; [exact F|reflexivity|lia|lia| |].
    - right. fold s. rewrite !Z2Nat.id by lia. lia.
    - rewrite !Z2Nat.id by lia. unfold reserve. destruct (_ <=? _) eqn:Q; cbn [tdata tcap]; lia. }
  destruct E as [v1 E]. rewrite E. cbn [bind]. apply (IH v1 fb xp yp dst src stride height); assumption.
Qed.
