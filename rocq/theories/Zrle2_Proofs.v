From Verif Require Import Common CommonProofs Ws_Proofs WsStream_Proofs.
From Verif Require Import Pixels_Model Pixels_Proofs Zrle_Model Zrle_Spec Zrle_Proofs.

Lemma ok_inj : forall A (a b : A), Ok a = Ok b -> a = b.
Proof. congruence. Qed.

(** No fault. *)
Lemma to_cpixel_total : forall dst src mem len, zrle_formats dst src ->
  Z.of_nat len * (bits_per_pixel src / 8) <= zlen mem ->
  exists out, pixel_to_cpixel (calc_bytes_per_cpixel dst) dst src mem 0 len = Ok out /\
    zlen out = Z.of_nat len * calc_bytes_per_cpixel dst.
Proof.
  intros dst src mem len [Hs [Hd [A B]]] L. rewrite pixel_to_cpixel_loop by exact A.
  apply emit_pixels_total; try assumption; try lia.
  - unfold asserts in A. lia.
  - rewrite src_bytes_eq. lia.
  - rewrite src_bytes_eq. lia.
Qed.

Definition tile_cap (dst : pixfmt) : Z := 1 + calc_bytes_per_cpixel dst * TILE_LENGTH * TILE_LENGTH + 16 * 3.

Lemma put_total : forall block new, zlen new <= zlen block -> exists b, put block 0 new = Ok b.
Proof. intros block new H. unfold put, zlen in *. replace (_ && _) with true by lia. eauto. Qed.

Lemma encode_tile_gen : forall dst dst_fmt src_fmt tile len, zrle_formats dst_fmt src_fmt ->
  (1 <= len <= 4096)%nat -> Z.of_nat len * (bits_per_pixel src_fmt / 8) <= zlen tile ->
  tile_cap dst_fmt <= tcap dst ->
  (calc_bytes_per_cpixel dst_fmt <= 3 \/
   forall px pal, pixels_of len (bits_per_pixel src_fmt / 8) tile 0 = Ok px ->
     get_tile_palette (bits_per_pixel src_fmt / 8) px = Ok (Some pal) ->
     Z.of_nat (length pal) * calc_bytes_per_cpixel dst_fmt <= 48) ->
  exists v, encode_tile dst dst_fmt src_fmt tile len = Ok v /\ tcap dst <= tcap v.
Proof.
  intros dst dst_fmt src_fmt tile len F Ln Lt C P3.
  pose proof F as [_ [_ [A B]]].
  assert (N : 1 <= calc_bytes_per_cpixel dst_fmt <= 4) by (unfold asserts in A; lia).
  unfold tile_cap, TILE_LENGTH in C. unfold encode_tile. cbv zeta.
  destruct (pixels_of_total len (bits_per_pixel src_fmt / 8) tile 0) as [px P]; [lia|lia|lia|].
  rewrite P. cbn [bind].
  destruct (pixels_of_length _ _ _ _ _ P) as [Lp W].
  destruct (to_cpixel_total _ _ _ _ F Lt) as [out [E Lo]].
  assert (RAW : forall cap, tcap dst <= cap -> exists v,
    bind (append_8 (mk_tv [] cap) 0) (fun d =>
      bind (pixel_to_cpixel (calc_bytes_per_cpixel dst_fmt) dst_fmt src_fmt tile 0 len)
        (fun out => write_at_1 d out)) = Ok v /\ tcap dst <= tcap v).
  { intros cap Hc. rewrite append_8_total by (cbn [tdata tcap]; change (zlen []) with 0; lia).
    cbn [bind]. rewrite E. cbn [bind]. unfold write_at_1. cbn [tdata tcap].
    replace (1 + zlen out <=? cap) with true by nia. eexists. split; [reflexivity|]. exact Hc. }
  assert (G : exists r, get_tile_palette (bits_per_pixel src_fmt / 8) px = Ok r).
  { destruct px as [|c px]; [cbn [length] in Lp; lia|]. apply palette_loop_total. lia. }
  destruct G as [[pal|] G]; rewrite G; cbn [bind]; [|apply RAW; lia].
  destruct (get_tile_palette_ok _ _ _ G) as [Ne [L16 I]].
  assert (Wp : Forall (fun p => zlen p = bits_per_pixel src_fmt / 8) pal).
  { rewrite Forall_forall in W |- *. intros p Hp. apply W, I, Hp. }
  assert (P3' : Z.of_nat (length pal) * calc_bytes_per_cpixel dst_fmt <= 48).
  { destruct P3 as [P3|P3]; [nia|]. eapply P3; eassumption. }
  destruct pal as [|c [|c2 pal]]; [congruence| |].
  - unfold encode_unichrome_tile.
    rewrite append_8_total by (cbn [tdata tcap]; change (zlen []) with 0; lia). cbn [bind].
    inversion Wp; subst.
    destruct (to_cpixel_total dst_fmt src_fmt c 1 F) as [o [Eo Lo']]; [lia|]. rewrite Eo. cbn [bind].
    unfold write_at_1. cbn [tdata tcap]. replace (_ <=? _) with true by lia.
    eexists. split; [reflexivity|]. cbn [tcap]. lia.
  - set (p := c :: c2 :: pal) in *.
    assert (Lp' : (1 < length p)%nat) by (unfold p; cbn [length]; lia).
    assert (K : exists pk, encode_packed_tile (mk_tv [] (tcap dst)) dst_fmt src_fmt px p = Ok pk /\
              tcap dst <= tcap pk).
    { unfold encode_packed_tile. cbv zeta.
      destruct (to_cpixel_total dst_fmt src_fmt (concat p) (length p) F) as [o [Eo Lo']].
      { rewrite (zlen_concat _ _ Wp). lia. }
      rewrite Eo. cbn [bind].
      destruct (put_total (repeat 0 (16 * 3)) o) as [b Eb].
      { rewrite Lo'. change (zlen (repeat 0 (16 * 3))) with 48. lia. }
      rewrite Eb. cbn [bind]. destruct (put_start _ _ _ Eb) as [r ->].
      rewrite append_8_total by (cbn [tdata tcap]; change (zlen []) with 0; lia). cbn [bind].
      rewrite <- Lo', get_prefix. cbn [bind].
      set (d := append _ o).
      assert (Cd : tcap dst <= tcap d) by (unfold d; match goal with |- _ <= tcap (append ?v o) => exact (append_tcap v o) end).
      assert (Ld : zlen (tdata d) = 1 + zlen o) by (unfold d; rewrite append_tdata, zlen_app; reflexivity).
      destruct px as [|q px]; [cbn [length] in Lp; lia|]. cbn [length] in Lp.
      destruct (packed_loop_total px d p q 1) as [d' Ed]; [lia|exact L16| | |nia|].
      - apply I. left. reflexivity.
      - intros z Hz. apply I. right. exact Hz.
      - exists d'. split; [exact Ed|].
        destruct (packed_loop_ok px d p q 1 d' (fun x => x) Ed) as [_ [_ [Cq _]]]; [lia|exact L16| | |lia].
        + apply I. left. reflexivity.
        + intros z Hz. apply I. right. exact Hz. }
    destruct K as [pk [K Ck]]. rewrite K. cbn [bind].
    destruct (_ <=? _); [eauto|]. apply RAW. exact Ck.
Qed.

(** Tiles. *)
Lemma udiv_up : forall a, 0 < a -> 64 * (UDIV_UP a 64 - 1) < a <= 64 * UDIV_UP a 64 /\ 0 < UDIV_UP a 64.
Proof. intros a H. unfold UDIV_UP. nia. Qed.

Lemma cuts_map : forall k fuel from to, 0 <= from -> (Z.of_nat k = UDIV_UP (to - from) 64) ->
  (k <= fuel)%nat -> 0 <= to - from ->
  cuts fuel from to = map (fun i => (from + 64 * Z.of_nat i, Z.min 64 (to - (from + 64 * Z.of_nat i)))) (seq 0 k).
Proof.
  induction k as [|k IH]; intros fuel from to H E F P.
  - assert (to - from = 0) by (unfold UDIV_UP in E; nia). cbn [seq map].
    destruct fuel; cbn [cuts]; replace (to <=? from) with true by lia; reflexivity.
  - assert (0 < to - from) by (unfold UDIV_UP in E; destruct (Z.eq_dec (to - from) 0) as [Q|];
      [rewrite Q in E; cbn in E; lia|lia]).
    destruct fuel; [lia|]. cbn [cuts]. replace (to <=? from) with false by lia.
    cbn [seq map]. rewrite Z.mul_0_r, Z.add_0_r. f_equal.
    destruct (Z_le_gt_dec (to - from) 64) as [S|S].
    + assert (k = O) as -> by (unfold UDIV_UP in E; nia). cbn [seq map].
      destruct fuel; cbn [cuts]; replace (to <=? from + 64) with true by lia; reflexivity.
    + rewrite IH by (try lia; unfold UDIV_UP in *; replace (to - (from + 64) + 64 - 1) with
        ((to - from + 64 - 1) + (-1) * 64) by lia; rewrite Z.div_add by lia; lia).
      rewrite <- seq_shift, map_map. apply map_ext. intros i. f_equal; [lia|]. f_equal. lia.
Qed.

Lemma seq_grid : forall A (f : nat -> A) a b, (0 < a)%nat ->
  map f (seq 0 (a * b)) = flat_map (fun r => map (fun c => f (r * a + c)%nat) (seq 0 a)) (seq 0 b).
Proof.
  intros A f a b Ha. induction b as [|b IH].
  - rewrite Nat.mul_0_r. reflexivity.
  - replace (a * S b)%nat with (a * b + a)%nat by lia.
    rewrite seq_app, map_app, IH. replace (S b) with (b + 1)%nat by lia.
    rewrite seq_app, flat_map_app. f_equal. cbn [Nat.add seq flat_map]. rewrite app_nil_r.
    replace (a * b)%nat with (b * a)%nat by lia.
    clear IH. generalize (b * a)%nat as m. intros m.
    rewrite <- (Nat.add_0_r m) at 1.
    assert (forall n s, map f (seq (m + s) n) = map (fun c => f (m + c)%nat) (seq s n)) as Q.
    { induction n as [|n IHn]; intros s; [reflexivity|]. cbn [seq map]. f_equal.
      replace (S (m + s)) with (m + S s)%nat by lia. apply IHn. }
    apply Q.
Qed.

Definition tuple (t : tile_rect) : Z * Z * Z * Z := (tile_x t, tile_y t, tile_width t, tile_height t).

Lemma flat_map_map : forall A B C (f : A -> B) (g : B -> list C) l, flat_map g (map f l) = flat_map (fun x => g (f x)) l.
Proof. induction l; cbn [map flat_map]; [reflexivity|]. rewrite IHl. reflexivity. Qed.

Lemma flat_map_ext' : forall A B (f g : A -> list B) l, (forall x, In x l -> f x = g x) -> flat_map f l = flat_map g l.
Proof.
  induction l as [|x l IH]; intros H; [reflexivity|]. cbn [flat_map]. rewrite H by (left; reflexivity).
  rewrite IH; [reflexivity|]. intros y Hy. apply H. right. exact Hy.
Qed.

Lemma tile_at_grid : forall w h r c, 0 < w -> 0 <= r -> 0 <= c < UDIV_UP w 64 ->
  tuple (tile_at w h (r * UDIV_UP w 64 + c)) = (64 * c, 64 * r, Z.min 64 (w - 64 * c), Z.min 64 (h - 64 * r)).
Proof.
  intros w h r c Hw Hr Hc. unfold tile_at, tuple, TILE_LENGTH.
  assert (M : (r * UDIV_UP w 64 + c) mod UDIV_UP w 64 = c).
  { rewrite Z.add_comm, Z.mod_add by lia. apply Z.mod_small. lia. }
  assert (D : (r * UDIV_UP w 64 + c) / UDIV_UP w 64 = r).
  { rewrite Z.add_comm, Z.div_add by lia. rewrite Z.div_small by lia. lia. }
  rewrite M, D. cbn [tile_x tile_y tile_width tile_height].
  replace (c * 64) with (64 * c) by lia. replace (r * 64) with (64 * r) by lia.
  repeat f_equal.
  - destruct (w - 64 * c >=? 64) eqn:E; lia.
  - destruct (h - 64 * r >=? 64) eqn:E; lia.
Qed.

Lemma tiles_rfc : forall w h, 0 < w -> 0 < h -> map tuple (tiles w h) = rfc_tiles w h.
Proof.
  intros w h Hw Hh. pose proof (udiv_up w Hw) as [Uw Pw]. pose proof (udiv_up h Hh) as [Uh Ph].
  unfold tiles, rfc_tiles, n_tiles, TILE_LENGTH. rewrite map_map, Z2Nat.inj_mul by lia.
  set (a := Z.to_nat (UDIV_UP w 64)). set (b := Z.to_nat (UDIV_UP h 64)).
  rewrite (seq_grid _ (fun i => tuple (tile_at w h (Z.of_nat i)))) by lia.
  rewrite (cuts_map b (Z.to_nat h) 0 h) by (try lia; rewrite Z.sub_0_r; lia).
  rewrite (cuts_map a (Z.to_nat w) 0 w) by (try lia; rewrite Z.sub_0_r; lia).
  rewrite flat_map_map. apply flat_map_ext'. intros r Hr. apply in_seq in Hr.
  rewrite map_map. apply map_ext_in. intros c Hc. apply in_seq in Hc.
  replace (Z.of_nat (r * a + c)) with (Z.of_nat r * UDIV_UP w 64 + Z.of_nat c) by lia.
  rewrite tile_at_grid by lia. cbn [fst snd]. repeat f_equal; lia.
Qed.

Lemma grid_inj : forall r c r' c' u, r * u + c = r' * u + c' -> 0 <= c < u -> 0 <= c' < u -> r = r' /\ c = c'.
Proof.
  intros r c r' c' u E H H'. apply (Z.div_mod_unique u); lia.
Qed.

Lemma in_tile_at : forall w h i x y, 0 < w -> 0 < h -> 0 <= i < n_tiles w h -> 0 <= x < w -> 0 <= y < h ->
  in_tile (tuple (tile_at w h i)) x y = (i =? y / 64 * UDIV_UP w 64 + x / 64).
Proof.
  intros w h i x y Hw Hh Hi Hx Hy. pose proof (udiv_up w Hw) as [Uw Pw].
  unfold n_tiles, TILE_LENGTH in Hi.
  pose proof (Z.div_mod i (UDIV_UP w 64)) as D. pose proof (Z.mod_pos_bound i (UDIV_UP w 64)) as M.
  set (r := i / UDIV_UP w 64) in *. set (c := i mod UDIV_UP w 64) in *.
  assert (Ei : i = r * UDIV_UP w 64 + c) by lia. rewrite Ei.
  assert (0 <= r) by (apply Z.div_pos; lia).
  rewrite tile_at_grid by lia. unfold in_tile.
  pose proof (Z.div_mod x 64). pose proof (Z.mod_pos_bound x 64).
  pose proof (Z.div_mod y 64). pose proof (Z.mod_pos_bound y 64).
  set (xq := x / 64) in *. set (yq := y / 64) in *.
  assert (0 <= xq < UDIV_UP w 64) by nia.
  destruct (Z.eq_dec c xq) as [Ec|Ec]; [destruct (Z.eq_dec r yq) as [Er|Er]|].
  - subst c r. rewrite Ec, Er, Z.eqb_refl. lia.
  - replace (r * UDIV_UP w 64 + c =? yq * UDIV_UP w 64 + xq) with false; [lia|].
    symmetry. apply Z.eqb_neq. intros Q. apply grid_inj in Q as [Q _]; [contradiction|lia|lia].
  - replace (r * UDIV_UP w 64 + c =? yq * UDIV_UP w 64 + xq) with false; [lia|].
    symmetry. apply Z.eqb_neq. intros Q. apply grid_inj in Q as [_ Q]; [contradiction|lia|lia].
Qed.

Lemma filter_eq_seq : forall n s k, (s <= k < s + n)%nat ->
  length (filter (fun i => (i =? k)%nat) (seq s n)) = 1%nat.
Proof.
  induction n as [|n IH]; intros s k H; [lia|]. cbn [seq filter]. destruct (s =? k)%nat eqn:E.
  - apply Nat.eqb_eq in E. subst. cbn [length]. f_equal.
    assert (forall m t, (k < t)%nat -> filter (fun i => (i =? k)%nat) (seq t m) = []) as Q.
    { induction m as [|m IHm]; intros t Ht; [reflexivity|]. cbn [seq filter].
      replace (t =? k)%nat with false by lia. apply IHm. lia. }
    rewrite Q by lia. reflexivity.
  - apply IH. lia.
Qed.

Lemma filter_map_len : forall A B (f : A -> B) g l, length (filter g (map f l)) = length (filter (fun x => g (f x)) l).
Proof. induction l; cbn [map filter]; [reflexivity|]. destruct (g (f a)); cbn [length]; congruence. Qed.

Lemma tile_index_bound : forall w h x y, 0 < w -> 0 < h -> 0 <= x < w -> 0 <= y < h ->
  0 <= y / 64 * UDIV_UP w 64 + x / 64 < n_tiles w h.
Proof.
  intros w h x y Hw Hh Hx Hy. unfold n_tiles, TILE_LENGTH.
  pose proof (udiv_up w Hw). pose proof (udiv_up h Hh).
  assert (0 <= x / 64 < UDIV_UP w 64) by nia. assert (0 <= y / 64 < UDIV_UP h 64) by nia. nia.
Qed.

Lemma tiles_cover : forall w h x y, 0 < w -> 0 < h -> 0 <= x < w -> 0 <= y < h ->
  times (fun t => in_tile (tuple t) x y) (tiles w h) = 1%nat.
Proof.
  intros w h x y Hw Hh Hx Hy. unfold times, tiles. rewrite filter_map_len.
  pose proof (tile_index_bound w h x y Hw Hh Hx Hy).
  rewrite (filter_ext_in _ (fun i => (i =? Z.to_nat (y / 64 * UDIV_UP w 64 + x / 64))%nat)).
  - apply filter_eq_seq. lia.
  - intros i Hi. apply in_seq in Hi. rewrite in_tile_at by lia.
    destruct (Z.eqb_spec (Z.of_nat i) (y / 64 * UDIV_UP w 64 + x / 64));
      destruct (Nat.eqb_spec i (Z.to_nat (y / 64 * UDIV_UP w 64 + x / 64))); try lia.
Qed.

Lemma tiles_in : forall w h t, 0 < w -> 0 < h -> In t (tiles w h) ->
  0 <= tile_x t /\ 0 <= tile_y t /\ 1 <= tile_width t <= 64 /\ 1 <= tile_height t <= 64 /\
  tile_x t + tile_width t <= w /\ tile_y t + tile_height t <= h.
Proof.
  intros w h t Hw Hh H. pose proof (udiv_up w Hw). pose proof (udiv_up h Hh).
  unfold tiles in H. apply in_map_iff in H as [i [E Hi]]. apply in_seq in Hi.
  unfold n_tiles, TILE_LENGTH in Hi.
  assert (Bi : 0 <= Z.of_nat i < UDIV_UP w 64 * UDIV_UP h 64) by lia.
  pose proof (Z.div_mod (Z.of_nat i) (UDIV_UP w 64) ltac:(lia)) as D.
  pose proof (Z.mod_pos_bound (Z.of_nat i) (UDIV_UP w 64) ltac:(lia)) as M.
  set (r := Z.of_nat i / UDIV_UP w 64) in *. set (c := Z.of_nat i mod UDIV_UP w 64) in *.
  assert (0 <= r) by (apply Z.div_pos; lia).
  assert (r < UDIV_UP h 64) by (apply Z.div_lt_upper_bound; lia).
  assert (T : tuple t = (64 * c, 64 * r, Z.min 64 (w - 64 * c), Z.min 64 (h - 64 * r))).
  { rewrite <- E, D, (Z.mul_comm (UDIV_UP w 64)). apply tile_at_grid; lia. }
  apply (f_equal (fun q => match q with (a, b, c, d) => [a; b; c; d] end)) in T. unfold tuple in T.
  set (k := 64 * c) in *. set (l := 64 * r) in *.
  injection T as -> -> -> ->. lia.
Qed.

Lemma tiles_nonempty : forall w h, 0 < w -> 0 < h -> length (tiles w h) <> O.
Proof.
  intros w h Hw Hh. unfold tiles. rewrite map_length, seq_length. unfold n_tiles, TILE_LENGTH.
  pose proof (udiv_up w Hw). pose proof (udiv_up h Hh).
  assert (0 < UDIV_UP w 64 * UDIV_UP h 64) by (apply Z.mul_pos_pos; lia). lia.
Qed.

(** The pixels of a copied tile. *)
Lemma get_at : forall b o n, 0 <= o -> 0 <= n -> o + n <= zlen b ->
  get b o n = Ok (firstn (Z.to_nat n) (skipn (Z.to_nat o) b)).
Proof.
  intros b o n H1 H2 H3. unfold get, zlen in *. replace (_ && _ && _) with true by lia. reflexivity.
Qed.

Lemma get_app_l : forall a b o n, 0 <= o -> 0 <= n -> o + n <= zlen a -> get (a ++ b) o n = get a o n.
Proof.
  intros a b o n H1 H2 H3. pose proof (zlen_app a b). pose proof (zlen_nonneg b).
  rewrite (get_at (a ++ b)), (get_at a) by lia. unfold zlen in H3. rewrite skipn_app, firstn_app.
  replace (Z.to_nat n - length (skipn (Z.to_nat o) a))%nat with O by (rewrite skipn_length; lia).
  cbn [firstn]. rewrite app_nil_r. reflexivity.
Qed.

Lemma get_app_r : forall a b o n, 0 <= o - zlen a -> 0 <= n -> o - zlen a + n <= zlen b ->
  get (a ++ b) o n = get b (o - zlen a) n.
Proof.
  intros a b o n H1 H2 H3. pose proof (zlen_nonneg a).
  pose proof (zlen_app a b). rewrite (get_at (a ++ b)), (get_at b) by lia.
  unfold zlen in *. rewrite skipn_app.
  replace (skipn (Z.to_nat o) a) with (@nil Z) by (symmetry; apply skipn_all2; lia).
  cbn [app]. do 2 f_equal. f_equal. lia.
Qed.

Lemma get_get : forall a o n l i m, get a o n = Ok l -> 0 <= i -> 0 <= m -> i + m <= n ->
  get l i m = get a (o + i) m.
Proof.
  intros a o n l i m H I M L. unfold get in H. destruct (_ && _) eqn:E; [|discriminate].
  injection H as <-. fold (zlen a) in E.
  rewrite !get_at; try lia; [|unfold zlen in *; rewrite firstn_length, skipn_length; lia].
  rewrite skipn_firstn_comm, firstn_firstn, skipn_skipn. do 2 f_equal; [lia|]. f_equal. lia.
Qed.

Lemma copy_rows_len : forall h fb off bs row rows, 0 <= row -> copy_rows h fb off bs row = Ok rows ->
  zlen rows = Z.of_nat h * row.
Proof.
  induction h as [|h IH]; intros fb off bs row rows R H; cbn [copy_rows] in H.
  - injection H as <-. reflexivity.
  - destruct (get fb off row) as [r|] eqn:G; cbn [bind] in H; [|discriminate].
    destruct (copy_rows h fb (off + bs) bs row) as [rest|] eqn:C; cbn [bind] in H; [|discriminate].
    injection H as <-. rewrite zlen_app, (IH _ _ _ _ _ R C).
    unfold get in G. destruct (_ && _) eqn:E; [|discriminate]. injection G as <-.
    unfold zlen. rewrite firstn_length, skipn_length. lia.
Qed.

Lemma copy_rows_px : forall h fb off bs w bpp rows, 0 < w -> 0 <= bpp ->
  copy_rows h fb off bs (w * bpp) = Ok rows ->
  forall i j, 0 <= i < w -> 0 <= j < Z.of_nat h ->
  get rows ((j * w + i) * bpp) bpp = get fb (off + j * bs + i * bpp) bpp.
Proof.
  induction h as [|h IH]; intros fb off bs w bpp rows W B H i j Hi Hj; [lia|]. cbn [copy_rows] in H.
  destruct (get fb off (w * bpp)) as [r|] eqn:G; cbn [bind] in H; [|discriminate].
  destruct (copy_rows h fb (off + bs) bs (w * bpp)) as [rest|] eqn:C; cbn [bind] in H; [|discriminate].
  injection H as <-.
  assert (Lr : zlen r = w * bpp).
  { unfold get in G. destruct (_ && _) eqn:E; [|discriminate]. injection G as <-.
    unfold zlen. rewrite firstn_length, skipn_length. lia. }
  assert (0 <= i * bpp) by (apply Z.mul_nonneg_nonneg; lia).
  assert ((i + 1) * bpp <= w * bpp) by (apply Z.mul_le_mono_nonneg_r; lia).
  destruct (Z.eq_dec j 0) as [->|J].
  - rewrite get_app_l by lia. rewrite (get_get _ _ _ _ ((0 * w + i) * bpp) bpp G) by lia.
    f_equal. lia.
  - assert (Wb : 0 <= w * bpp) by (apply Z.mul_nonneg_nonneg; lia).
    pose proof (copy_rows_len _ _ _ _ _ _ Wb C) as Lrest.
    assert (0 <= (j - 1) * (w * bpp)) by (apply Z.mul_nonneg_nonneg; lia).
    assert ((j - 1 + 1) * (w * bpp) <= Z.of_nat h * (w * bpp)) by (apply Z.mul_le_mono_nonneg_r; lia).
    rewrite get_app_r by lia. rewrite Lr.
    replace ((j * w + i) * bpp - w * bpp) with (((j - 1) * w + i) * bpp) by ring.
    rewrite (IH _ _ _ _ _ _ W B C) by lia. f_equal. lia.
Qed.

Lemma copy_rows_total : forall h fb off bs row, 0 <= off -> 0 <= bs -> 0 <= row ->
  (h = O \/ off + (Z.of_nat h - 1) * bs + row <= zlen fb) -> exists rows, copy_rows h fb off bs row = Ok rows.
Proof.
  induction h as [|h IH]; intros fb off bs row O B R L; cbn [copy_rows]; [eauto|].
  destruct L as [|L]; [lia|].
  destruct (get_ok fb off row) as [r G]; [lia|lia|nia|]. rewrite G. cbn [bind].
  destruct (IH fb (off + bs) bs row) as [rest C]; [lia|lia|lia| |rewrite C; cbn [bind]; eauto].
  destruct h; [left; reflexivity|right; nia].
Qed.

(** One rectangle. *)
Definition good_tile (fb : list Z) (stride x y : Z) (dst src : pixfmt) (t : tile_rect) (cps : list cpixel) : Prop :=
  forall i j, 0 <= i < tile_width t -> 0 <= j < tile_height t ->
  exists p c, get fb (((y + tile_y t + j) * stride + (x + tile_x t + i)) * (bits_per_pixel src / 8))
                (bits_per_pixel src / 8) = Ok p /\
    conv dst src p c /\ nth_error cps (Z.to_nat (j * tile_width t + i)) = Some c.

Section Z.
Variable zstate istate : Type.
Variable deflate : zstate -> list Z -> bool -> zstate * list Z.
Variable inflate : istate -> list Z -> istate * list Z.
Variable synced : zstate -> istate -> Prop.
Hypothesis zlib : zlib_works zstate istate deflate inflate synced.

Lemma tile_loop_ok : forall ts zs fb stride x y dst src cap zs' out,
  Forall (fun t => 1 <= tile_width t <= 64 /\ 1 <= tile_height t <= 64) ts ->
  0 <= bits_per_pixel src / 8 ->
  tile_loop zstate deflate ts zs fb stride x y dst src cap = Ok (zs', out) ->
  exists pieces, deflate_all zstate deflate zs pieces = (zs', out) /\ length pieces = length ts /\
    exists rs, Forall2 (fun t r => fst r = tuple t /\ good_tile fb stride x y dst src t (snd r)) ts rs /\
      forall rest, read_tiles (Z.to_nat (calc_bytes_per_cpixel dst)) (map tuple ts) (concat pieces ++ rest)
        = Some (rs, rest).
Proof.
  induction ts as [|t ts IH]; intros zs fb stride x y dst src cap zs' out Ht B H; cbn [tile_loop] in H.
  - injection H as <- <-. exists []. repeat split. exists []. split; [constructor|]. reflexivity.
  - inversion Ht as [|? ? [Tw Th] Hts]; subst.
    destruct (copy_tile _ _ _ _ _ _) as [tile|] eqn:C; cbn [bind] in H; [|discriminate].
    destruct (encode_tile _ _ _ _ _) as [v|] eqn:E; cbn [bind] in H; [|discriminate].
    destruct (deflate zs (tdata v) _) as [z1 o1] eqn:D.
    destruct (tile_loop _ _ ts z1 _ _ _ _ _ _ _) as [[z2 o2]|] eqn:T; cbn [bind fst snd] in H; [|discriminate].
    injection H as <- <-.
    destruct (IH _ _ _ _ _ _ _ _ _ _ Hts B T) as [pieces [DA [LP [rs [F R]]]]].
    destruct (encode_tile_ok _ _ _ _ _ _ E) as [px [cps [P [FC RT]]]].
    exists (tdata v :: pieces). split; [|split].
    + cbn [deflate_all]. replace (match pieces with [] => true | _ => false end)
        with (match ts with [] => true | _ => false end)
        by (destruct ts, pieces; cbn [length] in LP; try lia; reflexivity).
      rewrite D, DA. reflexivity.
    + cbn [length]. lia.
    + exists ((tuple t, cps) :: rs). split.
      * constructor; [|exact F]. split; [reflexivity|]. cbn [snd]. intros i j Hi Hj.
        unfold copy_tile in C.
        destruct (copy_rows _ _ _ _ _) as [rows|] eqn:CR; cbn [bind] in C; [|discriminate].
        destruct (_ <=? _); [|discriminate]. injection C as <-.
        assert (K : (Z.to_nat (j * tile_width t + i) < Z.to_nat (tile_width t * tile_height t))%nat).
        { assert (j * tile_width t <= (tile_height t - 1) * tile_width t) by (apply Z.mul_le_mono_nonneg_r; lia).
          assert (0 <= j * tile_width t) by (apply Z.mul_nonneg_nonneg; lia).
          apply Z2Nat.inj_lt; lia. }
        destruct (pixels_of_nth _ _ _ _ _ _ P K) as [p [N G]].
        destruct (nth_same _ _ _ _ FC _ _ N) as [c [N2 CV]].
        exists p, c. split; [|auto]. rewrite <- G.
        replace (0 + Z.of_nat (Z.to_nat (j * tile_width t + i)) * (bits_per_pixel src / 8))
          with ((j * tile_width t + i) * (bits_per_pixel src / 8)) by (rewrite Z2Nat.id by (apply Z.add_nonneg_nonneg; [apply Z.mul_nonneg_nonneg; lia|lia]); lia).
        assert (Tp : 0 < tile_width t) by lia.
        rewrite (copy_rows_px _ _ _ _ _ _ _ Tp B CR) by lia. f_equal. ring.
      * intros rest. unfold tuple at 1. cbn [map read_tiles concat]. rewrite <- app_assoc. rewrite RT, R. reflexivity.
Qed.

Lemma tile_loop_total : forall ts zs fb stride x y dst src cap,
  zrle_formats dst src -> calc_bytes_per_cpixel dst <= 3 -> tile_cap dst <= cap ->
  0 <= x -> 0 <= y -> 0 <= stride ->
  Forall (fun t => 0 <= tile_x t /\ 0 <= tile_y t /\ 1 <= tile_width t <= 64 /\ 1 <= tile_height t <= 64 /\
     x + tile_x t + tile_width t <= stride /\
     (y + tile_y t + tile_height t) * stride * (bits_per_pixel src / 8) <= zlen fb) ts ->
  exists z, tile_loop zstate deflate ts zs fb stride x y dst src cap = Ok z.
Proof.
  induction ts as [|t ts IH]; intros zs fb stride x y dst src cap F N3 C X Y St Ht; cbn [tile_loop]; [eauto|].
  inversion Ht as [|? ? [T1 [T2 [T3 [T4 [T5 T6]]]]] Hts]; subst. pose proof F as [_ [_ [_ B]]].
  set (bpp := bits_per_pixel src / 8) in *.
  assert (CT : exists tile, copy_tile fb ((x + tile_x t) * bpp + (y + tile_y t) * stride * bpp) bpp stride
                (tile_width t) (tile_height t) = Ok tile /\ zlen tile = tile_width t * tile_height t * bpp).
  { unfold copy_tile.
    assert (P1 : 0 <= (x + tile_x t) * bpp) by (apply Z.mul_nonneg_nonneg; lia).
    assert (P2 : 0 <= (y + tile_y t) * stride * bpp) by (repeat apply Z.mul_nonneg_nonneg; lia).
    assert (P3 : 0 <= stride * bpp) by (apply Z.mul_nonneg_nonneg; lia).
    assert (P4 : 0 <= tile_width t * bpp) by (apply Z.mul_nonneg_nonneg; lia).
    assert (P5 : (x + tile_x t + tile_width t) * bpp <= stride * bpp) by (apply Z.mul_le_mono_nonneg_r; lia).
    destruct (copy_rows_total (Z.to_nat (tile_height t)) fb ((x + tile_x t) * bpp + (y + tile_y t) * stride * bpp)
                (stride * bpp) (tile_width t * bpp)) as [rows CR]; [lia|lia|lia| |].
    - right. rewrite Z2Nat.id by lia. lia.
    - rewrite CR. cbn [bind]. pose proof (copy_rows_len _ _ _ _ _ _ P4 CR) as L.
      rewrite Z2Nat.id in L by lia. unfold TILE_LENGTH.
      assert (tile_width t * tile_height t <= 64 * 64) by nia.
      assert (0 <= tile_width t * tile_height t) by nia.
      replace (zlen rows <=? _) with true by nia. eexists. split; [reflexivity|]. rewrite L. ring. }
  destruct CT as [tile [CT LT]]. rewrite CT. cbn [bind].
  assert (LL : (1 <= Z.to_nat (tile_width t * tile_height t) <= 4096)%nat) by nia.
  destruct (encode_tile_gen (mk_tv [] cap) dst src tile (Z.to_nat (tile_width t * tile_height t)) F) as [v [E Cv]];
    [exact LL|fold bpp; rewrite Z2Nat.id by nia; lia|exact C|left; exact N3|].
  rewrite E. cbn [bind]. destruct (deflate _ _ _) as [z1 o1].
  cbn [tcap] in Cv.
  destruct (IH z1 fb stride x y dst src (tcap v) F N3 ltac:(lia) X Y St Hts) as [z2 T]. rewrite T. cbn [bind]. eauto.
Qed.

Lemma encode_box_total : forall zs fb xp yp dst src b stride height,
  zrle_formats dst src -> calc_bytes_per_cpixel dst <= 3 ->
  box_in b stride height -> height * stride * (bits_per_pixel src / 8) <= zlen fb ->
  exists z, encode_box zstate deflate zs fb xp yp dst src (x1 b) (y1 b) stride (x2 b - x1 b) (y2 b - y1 b) = Ok z.
Proof.
  intros zs fb xp yp dst src b stride height F N3 [B1 [B2 [B3 [B4 [B5 B6]]]]] L. unfold encode_box. cbv zeta.
  pose proof F as [_ [_ [_ B]]].
  destruct (tile_loop_total (tiles (x2 b - x1 b) (y2 b - y1 b)) zs fb stride (x1 b) (y1 b) dst src
    (tile_cap dst) F N3 ltac:(lia) B1 B4 ltac:(lia)) as [z T].
  { apply Forall_forall. intros t Ht.
    apply tiles_in in Ht; [|lia|lia]. destruct Ht as [T1 [T2 [T3 [T4 [T5 T6]]]]].
    repeat split; try lia.
    apply Z.le_trans with (height * stride * (bits_per_pixel src / 8)); [|exact L].
    repeat apply Z.mul_le_mono_nonneg_r; lia. }
  unfold tile_cap in T. rewrite T. cbn [bind]. eauto.
Qed.

Lemma box_loop_total : forall boxes zs fb xp yp dst src stride height,
  zrle_formats dst src -> calc_bytes_per_cpixel dst <= 3 ->
  Forall (fun b => box_in b stride height) boxes -> height * stride * (bits_per_pixel src / 8) <= zlen fb ->
  exists z, box_loop zstate deflate boxes zs fb xp yp dst src stride = Ok z.
Proof.
  induction boxes as [|b boxes IH]; intros zs fb xp yp dst src stride height F N3 H L; cbn [box_loop]; [eauto|].
  inversion H; subst.
  destruct (encode_box_total zs fb xp yp dst src b stride height) as [z E]; try assumption.
  rewrite E. cbn [bind].
  destruct (IH (fst z) fb xp yp dst src stride height) as [z2 E2]; try assumption. rewrite E2. cbn [bind]. eauto.
Qed.

Lemma u16_be : forall v rest, 0 <= v < 2 ^ 16 -> u16 (be 2 v ++ rest) = v.
Proof.
  intros v rest H. unfold u16. rewrite firstn_app_eq by apply be_length. apply unbe_be. exact H.
Qed.

Lemma find_tile : forall ts (rs : list ((Z * Z * Z * Z) * list cpixel)) (P : tile_rect -> list cpixel -> Prop) x y,
  Forall2 (fun t r => fst r = tuple t /\ P t (snd r)) ts rs ->
  (exists t, In t ts /\ in_tile (tuple t) x y = true) ->
  exists t cps, find (fun t => in_tile (fst t) x y) rs = Some (tuple t, cps) /\ P t cps /\
    in_tile (tuple t) x y = true.
Proof.
  intros ts rs P x y F. induction F as [|t [u cps] ts rs [E Q] F IH]; intros [t0 [I T]]; [destruct I|].
  cbn [fst snd] in *. subst u. cbn [find fst]. destruct (in_tile (tuple t) x y) eqn:K.
  - exists t, cps. auto.
  - apply IH. exists t0. split; [|exact T]. destruct I as [->|I]; [congruence|exact I].
Qed.

Lemma times_ex : forall A (f : A -> bool) l, times f l = 1%nat -> exists x, In x l /\ f x = true.
Proof.
  intros A f l H. unfold times in H. destruct (filter f l) as [|x r] eqn:E; [discriminate|].
  exists x. apply filter_In. rewrite E. left. reflexivity.
Qed.

Lemma encode_box_reads : forall zs st fb xp yp dst src b stride zs' out,
  0 <= bits_per_pixel src / 8 -> fits_header xp yp b -> zlen out < 2 ^ 32 -> synced zs st ->
  encode_box zstate deflate zs fb xp yp dst src (x1 b) (y1 b) stride (x2 b - x1 b) (y2 b - y1 b) = Ok (zs', out) ->
  exists r st', synced zs' st' /\ shows fb stride xp yp dst src b r /\
    forall rest, read_rect istate inflate (Z.to_nat (calc_bytes_per_cpixel dst)) st (out ++ rest) = Some (r, st', rest).
Proof.
  intros zs st fb xp yp dst src b stride zs' out B [F1 [F2 [F3 F4]]] L S H.
  unfold encode_box in H. cbv zeta in H.
  destruct (tile_loop _ _ _ _ _ _ _ _ _ _ _) as [[z o]|] eqn:T; cbn [bind fst snd] in H; [|discriminate].
  apply ok_inj in H. apply pair_equal_spec in H as [<- <-].
  assert (FT : Forall (fun t => 1 <= tile_width t <= 64 /\ 1 <= tile_height t <= 64) (tiles (x2 b - x1 b) (y2 b - y1 b))).
  { apply Forall_forall. intros t Ht. apply tiles_in in Ht; [tauto|lia|lia]. }
  destruct (tile_loop_ok _ _ _ _ _ _ _ _ _ _ _ FT B T)
    as [pieces [DA [LP [rs [F R]]]]].
  assert (Ne : pieces <> []).
  { intros ->. apply (tiles_nonempty (x2 b - x1 b) (y2 b - y1 b)); [apply F3|apply F4|]. symmetry. exact LP. }
  destruct (zlib zs st pieces S Ne) as [st' [I S']]. rewrite DA in I, S'. cbn [fst snd] in I, S'.
  assert (Lo : zlen o < 2 ^ 32).
  { rewrite !zlen_app in L. pose proof (zlen_nonneg (rect_head 16 (xp + x1 b) (yp + y1 b) (x2 b - x1 b) (y2 b - y1 b))).
    pose proof (zlen_nonneg (be 4 (zlen o mod 2 ^ 32))). lia. }
  pose proof (zlen_nonneg o) as Lo0.
  exists (mk_zrect (xp + x1 b) (yp + y1 b) (x2 b - x1 b) (y2 b - y1 b) rs), st'.
  split; [exact S'|]. split.
  - unfold shows. cbn [r_x r_y r_w r_h]. repeat split. intros i j Hi Hj.
    destruct (find_tile _ _ (good_tile fb stride (x1 b) (y1 b) dst src) i j F) as [t [cps [Fd [G K]]]].
    { apply times_ex. apply tiles_cover; lia. }
    unfold in_tile, tuple in K.
    destruct (G (i - tile_x t) (j - tile_y t)) as [p [c [Gp [Cv N]]]]; [lia|lia|].
    exists p, c. split; [|split].
    + rewrite <- Gp. f_equal. ring.
    + exact Cv.
    + unfold shown. cbn [r_tiles]. rewrite Fd. unfold tuple. exact N.
  - intros rest. unfold read_rect, rect_head. rewrite !(Z.mod_small _ (2 ^ 16)) by lia.
    rewrite (Z.mod_small 16) by lia. rewrite (Z.mod_small (zlen o)) by lia.
    set (head := be 2 (xp + x1 b) ++ be 2 (yp + y1 b) ++ be 2 (x2 b - x1 b) ++ be 2 (y2 b - y1 b) ++ be 4 16 ++ be 4 (zlen o)).
    replace (((be 2 (xp + x1 b) ++ be 2 (yp + y1 b) ++ be 2 (x2 b - x1 b) ++ be 2 (y2 b - y1 b) ++ be 4 16) ++
      be 4 (zlen o) ++ o) ++ rest) with (head ++ o ++ rest) by (unfold head; rewrite <- !app_assoc; reflexivity).
    assert (Lh : length head = 16%nat) by (unfold head; rewrite !app_length, !be_length; reflexivity).
    unfold take at 1. replace (16 <=? length (head ++ o ++ rest))%nat with true by (rewrite app_length; lia).
    rewrite (firstn_app_eq _ 16), (skipn_app_eq _ 16) by exact Lh.
    assert (S2 : skipn 2 head = be 2 (yp + y1 b) ++ be 2 (x2 b - x1 b) ++ be 2 (y2 b - y1 b) ++ be 4 16 ++ be 4 (zlen o))
      by (unfold head; apply skipn_app_eq; apply be_length).
    assert (S4 : skipn 4 head = be 2 (x2 b - x1 b) ++ be 2 (y2 b - y1 b) ++ be 4 16 ++ be 4 (zlen o))
      by (change 4%nat with (2 + 2)%nat at 1; rewrite <- skipn_skipn, S2; apply skipn_app_eq; apply be_length).
    assert (S6 : skipn 6 head = be 2 (y2 b - y1 b) ++ be 4 16 ++ be 4 (zlen o))
      by (change 6%nat with (2 + 4)%nat at 1; rewrite <- skipn_skipn, S4; apply skipn_app_eq; apply be_length).
    assert (S8 : skipn 8 head = be 4 16 ++ be 4 (zlen o))
      by (change 8%nat with (2 + 6)%nat at 1; rewrite <- skipn_skipn, S6; apply skipn_app_eq; apply be_length).
    assert (S12 : skipn 12 head = be 4 (zlen o))
      by (change 12%nat with (4 + 8)%nat at 1; rewrite <- skipn_skipn, S8; apply skipn_app_eq; apply be_length).
    rewrite S2, S4, S6, S8, S12. unfold head at 1. rewrite !u16_be by lia.
    rewrite firstn_app_eq by apply be_length. rewrite !unbe_be by lia.
    change (16 =? 16) with true. cbv iota.
    unfold take. unfold zlen at 1 2 3. rewrite Nat2Z.id.
    replace (length o <=? length (o ++ rest))%nat with true by (rewrite app_length; lia).
    rewrite firstn_app_exact, skipn_app_exact. rewrite I.
    rewrite <- tiles_rfc by lia. specialize (R []). rewrite app_nil_r in R. rewrite R. reflexivity.
Qed.

Lemma box_loop_reads : forall boxes zs st fb xp yp dst src stride zs' out,
  0 <= bits_per_pixel src / 8 -> Forall (fits_header xp yp) boxes -> zlen out < 2 ^ 32 -> synced zs st ->
  box_loop zstate deflate boxes zs fb xp yp dst src stride = Ok (zs', out) ->
  exists rs st', read_rects istate inflate (Z.to_nat (calc_bytes_per_cpixel dst)) (length boxes) st out = Some (rs, st') /\
    synced zs' st' /\ Forall2 (shows fb stride xp yp dst src) boxes rs.
Proof.
  induction boxes as [|b boxes IH]; intros zs st fb xp yp dst src stride zs' out B Fh L S H; cbn [box_loop] in H.
  - injection H as <- <-. exists [], st. repeat split; [exact S|constructor].
  - inversion Fh; subst.
    destruct (encode_box _ _ _ _ _ _ _ _ _ _ _ _ _) as [[z1 o1]|] eqn:E; cbn [bind fst snd] in H; [|discriminate].
    destruct (box_loop _ _ boxes _ _ _ _ _ _ _) as [[z2 o2]|] eqn:E2; cbn [bind fst snd] in H; [|discriminate].
    injection H as <- <-. rewrite zlen_app in L. pose proof (zlen_nonneg o1). pose proof (zlen_nonneg o2).
    assert (LL : zlen o1 < 2 ^ 32 /\ zlen o2 < 2 ^ 32) by lia.
    destruct (encode_box_reads _ st _ _ _ _ _ _ _ _ _ B H2 (proj1 LL) S E) as [r [st1 [S1 [Sh R]]]].
    destruct (IH _ st1 _ _ _ _ _ _ _ _ B H3 (proj2 LL) S1 E2) as [rs [st2 [R2 [S2 F2]]]].
    exists (r :: rs), st2. cbn [length read_rects]. rewrite R, R2. repeat split; [exact S2|constructor; assumption].
Qed.
End Z.

(** The palette is the set of colours. *)
Lemma palette_loop_exact : forall px bpp palette colours, 0 <= bpp <= 4 -> NoDup palette ->
  (length colours <= 16)%nat -> (forall p, In p palette -> In p colours) ->
  (forall p, In p px -> In p colours) ->
  exists palette', palette_loop bpp palette px = Ok (Some palette') /\ NoDup palette' /\
    (forall p, In p palette' -> In p colours).
Proof.
  induction px as [|c px IH]; intros bpp palette colours B N L I1 I2; cbn [palette_loop]; [eauto|].
  destruct (find_colour palette c <? 0) eqn:F.
  - assert (Nc : ~ In c palette).
    { intros Hc. destruct (find_colour_ok palette c Hc) as [k [_ [E _]]]. lia. }
    assert (N' : NoDup (palette ++ [c])).
    { apply (NoDup_Add (a := c) (l := palette)); [|auto]. 
      pose proof (Add_app c palette []) as A. rewrite app_nil_r in A. exact A. }
    assert (I' : forall p, In p (palette ++ [c]) -> In p colours).
    { intros p Hp. apply in_app_or in Hp as [Hp|[->|[]]]; [auto|apply I2; left; reflexivity]. }
    pose proof (NoDup_incl_length N' I') as LL. rewrite app_length in LL. cbn [length] in LL.
    replace (Z.of_nat (length palette) >=? 16) with false by lia.
    replace (_ <=? 16 * 4) with true by nia.
    apply IH with (colours := colours); try assumption. intros; apply I2; right; auto.
  - apply IH with (colours := colours); try assumption. intros; apply I2; right; auto.
Qed.

Lemma palette_exact : forall bpp px colours, 0 <= bpp <= 4 -> px <> [] -> NoDup colours ->
  (length colours <= 16)%nat -> (forall p, In p px <-> In p colours) ->
  exists pal, get_tile_palette bpp px = Ok (Some pal) /\ length pal = length colours.
Proof.
  intros bpp [|c px] colours B Ne N L I; [congruence|]. cbn [get_tile_palette].
  destruct (palette_loop_exact (c :: px) bpp [c] colours B) as [pal [E [Np Ip]]].
  - repeat constructor. intros [].
  - exact L.
  - intros p [->|[]]. apply I. left. reflexivity.
  - intros p Hp. apply I, Hp.
  - exists pal. split; [exact E|].
    destruct (get_tile_palette_ok bpp (c :: px) pal E) as [_ [_ I2]].
    apply Nat.le_antisymm; apply NoDup_incl_length; try assumption.
    intros p Hp. apply I2, I, Hp.
Qed.

Lemma pixels_in : forall len bpp tile px, pixels_of len bpp tile 0 = Ok px ->
  forall p, In p px <-> exists k, (k < len)%nat /\ get tile (Z.of_nat k * bpp) bpp = Ok p.
Proof.
  intros len bpp tile px P p. destruct (pixels_of_length _ _ _ _ _ P) as [L _]. split.
  - intros I. destruct (In_nth_error _ _ I) as [k N].
    assert (K : (k < len)%nat) by (rewrite <- L; apply nth_error_Some; congruence).
    destruct (pixels_of_nth _ _ _ _ _ k P K) as [q [N2 G]]. rewrite N in N2. injection N2 as <-.
    exists k. split; [exact K|exact G].
  - intros [k [K G]]. destruct (pixels_of_nth _ _ _ _ _ k P K) as [q [N2 G2]].
    change (0 + Z.of_nat k * bpp) with (Z.of_nat k * bpp) in G2. rewrite G in G2. injection G2 as <-.
    exact (nth_error_In _ _ N2).
Qed.

Lemma wide_overflow : forall dst dst_fmt src_fmt tile len colours,
  zrle_formats dst_fmt src_fmt -> calc_bytes_per_cpixel dst_fmt = 4 ->
  Z.of_nat len * (bits_per_pixel src_fmt / 8) <= zlen tile ->
  NoDup colours -> (13 <= length colours <= 16)%nat ->
  (forall p, In p colours <-> exists k, (k < len)%nat /\
     get tile (Z.of_nat k * (bits_per_pixel src_fmt / 8)) (bits_per_pixel src_fmt / 8) = Ok p) ->
  encode_tile dst dst_fmt src_fmt tile len = Fault OobWrite.
Proof.
  intros dst dst_fmt src_fmt tile len colours F N Lt Nd Lc I. pose proof F as [_ [_ [_ B]]].
  unfold encode_tile. cbv zeta.
  destruct (pixels_of_total len (bits_per_pixel src_fmt / 8) tile 0) as [px P]; [lia|lia|lia|].
  rewrite P. cbn [bind]. pose proof (pixels_in _ _ _ _ P) as In1.
  destruct (pixels_of_length _ _ _ _ _ P) as [_ W].
  destruct (palette_exact (bits_per_pixel src_fmt / 8) px colours) as [pal [G L]]; [lia| |exact Nd|lia| |].
  - intros ->. destruct colours as [|c colours]; [cbn [length] in Lc; lia|].
    assert (In c []) by (apply In1, I; left; reflexivity). contradiction.
  - intros p. rewrite In1, I. reflexivity.
  - rewrite G. cbn [bind]. destruct (get_tile_palette_ok _ _ _ G) as [_ [_ I2]].
    destruct pal as [|c [|c2 pal]]; [cbn [length] in L; lia|cbn [length] in L; lia|].
    set (p := c :: c2 :: pal) in *. unfold encode_packed_tile. cbv zeta.
    destruct (to_cpixel_total dst_fmt src_fmt (concat p) (length p) F) as [o [Eo Lo]].
    { rewrite (zlen_concat (bits_per_pixel src_fmt / 8)); [lia|].
      rewrite Forall_forall in W |- *. intros q Hq. apply W, I2, Hq. }
    rewrite Eo. cbn [bind]. unfold put. rewrite N in Lo. unfold zlen in Lo.
    rewrite repeat_length. replace (_ && _) with false by lia. reflexivity.
Qed.

Lemma tile_no_fault : forall dst dst_fmt src_fmt tile len, zrle_formats dst_fmt src_fmt ->
  (1 <= len <= 4096)%nat -> Z.of_nat len * (bits_per_pixel src_fmt / 8) <= zlen tile ->
  1 + calc_bytes_per_cpixel dst_fmt * 64 * 64 + 48 <= tcap dst ->
  (calc_bytes_per_cpixel dst_fmt <= 3 \/
   exists colours, NoDup colours /\ (length colours <= 12)%nat /\
     forall p, In p colours <-> exists k, (k < len)%nat /\
       get tile (Z.of_nat k * (bits_per_pixel src_fmt / 8)) (bits_per_pixel src_fmt / 8) = Ok p) ->
  exists v, encode_tile dst dst_fmt src_fmt tile len = Ok v.
Proof.
  intros dst dst_fmt src_fmt tile len F Ln Lt C H. pose proof F as [_ [_ [A B]]].
  destruct (encode_tile_gen dst dst_fmt src_fmt tile len F Ln Lt C) as [v [E _]]; [|eauto].
  destruct H as [H|[colours [Nd [L I]]]]; [left; exact H|right].
  intros px pal P G. pose proof (pixels_in _ _ _ _ P) as In1.
  destruct (pixels_of_length _ _ _ _ _ P) as [Lp _].
  destruct (palette_exact (bits_per_pixel src_fmt / 8) px colours) as [pal' [G' L']]; [lia| |exact Nd|lia| |].
  - intros ->. cbn [length] in Lp. lia.
  - intros p. rewrite In1, I. reflexivity.
  - rewrite G in G'. injection G' as <-. unfold asserts in A. nia.
Qed.

Lemma write_at_1_size : forall v out v', write_at_1 v out = Ok v' -> zlen (tdata v) = 1 ->
  zlen (tdata v') = 1 + zlen out.
Proof.
  intros v out v' H L. unfold write_at_1 in H. destruct (_ <=? _); [|discriminate]. injection H as <-.
  cbn [tdata]. rewrite zlen_app. destruct (tdata v) as [|a [|b r]]; unfold zlen in L; cbn [length] in L; try lia.
  reflexivity.
Qed.

Lemma to_cpixel_size : forall dst src mem off len out,
  pixel_to_cpixel (calc_bytes_per_cpixel dst) dst src mem off len = Ok out ->
  zlen out = calc_bytes_per_cpixel dst * Z.of_nat len /\ 1 <= calc_bytes_per_cpixel dst.
Proof.
  intros dst src mem off len out H. destruct (to_cpixel_px _ _ _ _ _ _ H) as [px [cps [P [F [L ->]]]]].
  pose proof (to_cpixel_asserts _ _ _ _ _ _ _ H) as A.
  destruct (pixels_of_length _ _ _ _ _ P) as [Lp _].
  rewrite (zlen_concat _ _ L), <- (Forall2_len _ _ _ _ _ F), Lp. unfold asserts in A. lia.
Qed.

Lemma encode_tile_size : forall dst dst_fmt src_fmt tile len v,
  encode_tile dst dst_fmt src_fmt tile len = Ok v ->
  1 <= zlen (tdata v) <= 1 + calc_bytes_per_cpixel dst_fmt * Z.of_nat len.
Proof.
  intros dst dst_fmt src_fmt tile len v H. unfold encode_tile in H. cbv zeta in H.
  destruct (pixels_of len _ tile 0) as [px|] eqn:P; cbn [bind] in H; [|discriminate].
  destruct (pixels_of_length _ _ _ _ _ P) as [Lp W].
  destruct (get_tile_palette _ px) as [pal|] eqn:G; cbn [bind] in H; [|discriminate].
  assert (RAW : forall cap v0, bind (append_8 (mk_tv [] cap) 0) (fun dst =>
      bind (pixel_to_cpixel (calc_bytes_per_cpixel dst_fmt) dst_fmt src_fmt tile 0 len) (fun out =>
      write_at_1 dst out)) = Ok v0 ->
    1 <= zlen (tdata v0) <= 1 + calc_bytes_per_cpixel dst_fmt * Z.of_nat len).
  { intros cap v0 R. destruct (append_8 (mk_tv [] cap) 0) as [v1|] eqn:A; cbn [bind] in R; [|discriminate].
    destruct (pixel_to_cpixel _ _ _ _ _ _) as [out|] eqn:C; cbn [bind] in R; [|discriminate].
    apply append_8_ok in A as [A _]. rewrite (write_at_1_size _ _ _ R) by (rewrite A; reflexivity).
    destruct (to_cpixel_size _ _ _ _ _ _ C) as [-> ?]. nia. }
  destruct pal as [pal|]; [|exact (RAW _ _ H)].
  destruct (get_tile_palette_ok _ _ _ G) as [Ne _].
  destruct pal as [|c [|c2 pal]]; [congruence| |].
  - unfold encode_unichrome_tile in H.
    destruct (append_8 _ 1) as [v1|] eqn:A; cbn [bind] in H; [|discriminate].
    destruct (pixel_to_cpixel _ _ _ _ _ _) as [out|] eqn:C; cbn [bind] in H; [|discriminate].
    apply append_8_ok in A as [A _]. rewrite (write_at_1_size _ _ _ H) by (rewrite A; reflexivity).
    destruct (to_cpixel_size _ _ _ _ _ _ C) as [-> ?].
    destruct px as [|q px]; [cbn [get_tile_palette] in G; discriminate|]. cbn [length] in Lp. nia.
  - destruct (encode_packed_tile _ _ _ _ _) as [pk|] eqn:K; cbn [bind] in H; [|discriminate].
    destruct (zlen (tdata pk) <=? 1 + calc_bytes_per_cpixel dst_fmt * Z.of_nat len) eqn:E; [|exact (RAW _ _ H)].
    injection H as <-. split; [|lia].
    destruct (get_tile_palette_ok _ _ _ G) as [_ [L16 I]].
    destruct (packed_tile_ok _ _ _ _ _ _ K) as [cps [_ R]]; [reflexivity|cbn [length] in *; lia|exact I|exact W|].
    specialize (R []). rewrite app_nil_r in R. destruct (tdata pk) as [|b r]; [discriminate|].
    unfold zlen. cbn [length]. lia.
Qed.

Lemma Forall2_in_r : forall A B (R : A -> B -> Prop) l l' y, Forall2 R l l' -> In y l' -> exists x, In x l /\ R x y.
Proof.
  intros A B R l l' y F. induction F as [|a b l l' X F IH]; intros I; [destruct I|].
  destruct I as [->|I]; [exists a; split; [left; reflexivity|exact X]|].
  destruct (IH I) as [x [I2 Q]]. exists x. split; [right; exact I2|exact Q].
Qed.
Lemma Forall2_in_l : forall A B (R : A -> B -> Prop) l l' x, Forall2 R l l' -> In x l -> exists y, In y l' /\ R x y.
Proof.
  intros A B R l l' x F. induction F as [|a b l l' X F IH]; intros I; [destruct I|].
  destruct I as [->|I]; [exists b; split; [left; reflexivity|exact X]|].
  destruct (IH I) as [y [I2 Q]]. exists y. split; [right; exact I2|exact Q].
Qed.

Lemma frame_reads_back :
  forall zstate istate deflate inflate synced, zlib_works zstate istate deflate inflate synced ->
  forall zs st fb x_pos y_pos dst src stride rects extents zs' out n,
  0 <= bits_per_pixel src / 8 ->
  Forall (fits_header x_pos y_pos) (extents :: rects) ->
  Forall (fun b => x1 extents <= x1 b /\ x2 b <= x2 extents /\ y1 extents <= y1 b /\ y2 b <= y2 extents) rects ->
  synced zs st -> zlen out < 2 ^ 32 ->
  encode_frame zstate deflate zs fb x_pos y_pos dst src stride rects extents = Ok (zs', out, n) ->
  exists rs st', read_rects istate inflate (Z.to_nat (calc_bytes_per_cpixel dst)) (Z.to_nat n) st out = Some (rs, st') /\
    synced zs' st' /\ 0 <= n <= 65535 /\
    (forall r, In r rs -> exists b, In b (extents :: rects) /\ shows fb stride x_pos y_pos dst src b r) /\
    (forall b x y, In b rects -> x1 b <= x < x2 b -> y1 b <= y < y2 b ->
       exists r, In r rs /\ 0 <= x_pos + x - r_x r < r_w r /\ 0 <= y_pos + y - r_y r < r_h r).
Proof.
  intros zstate istate deflate inflate synced Z zs st fb xp yp dst src stride rects extents zs' out n
    B Fh Fe S L H.
  unfold encode_frame in H. cbv zeta in H.
  destruct (box_loop _ _ _ _ _ _ _ _ _ _) as [[z o]|] eqn:E; cbn [bind fst snd] in H; [|discriminate].
  injection H as <- <- <-. inversion Fh as [|? ? Fx Fr]; subst.
  assert (Fb : Forall (fits_header xp yp) (if Z.of_nat (length rects) >? 65535 then [extents] else rects)).
  { destruct (_ >? _); [constructor; [exact Fx|constructor]|exact Fr]. }
  destruct (box_loop_reads _ _ _ _ _ Z _ _ st _ _ _ _ _ _ _ _ B Fb L S E) as [rs [st' [R [S' F]]]].
  exists rs, st'. rewrite Nat2Z.id. split; [exact R|]. split; [exact S'|]. split; [|split].
  - destruct (Z.of_nat (length rects) >? 65535) eqn:G; [cbn [length]; lia|lia].
  - intros r Hr. destruct (Forall2_in_r _ _ _ _ _ _ F Hr) as [b [Ib Sb]]. exists b. split; [|exact Sb].
    destruct (_ >? _); [destruct Ib as [->|[]]; left; reflexivity|right; exact Ib].
  - intros b x y Ib Hx Hy.
    destruct (Z.of_nat (length rects) >? 65535).
    + destruct (Forall2_in_l _ _ _ _ _ extents F (or_introl eq_refl)) as [r [Ir [E1 [E2 [E3 [E4 _]]]]]].
      exists r. split; [exact Ir|]. rewrite Forall_forall in Fe. specialize (Fe b Ib). lia.
    + destruct (Forall2_in_l _ _ _ _ _ b F Ib) as [r [Ir [E1 [E2 [E3 [E4 _]]]]]].
      exists r. split; [exact Ir|]. lia.
Qed.
