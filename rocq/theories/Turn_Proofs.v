From Verif Require Import Common CommonProofs Zrle_Model Raw_Model Transform_Model Transform_Spec Transform_Props Refinery_Model Refinery_Spec
  Refinery_Proofs Refinery_Props Cursor_Model Turn_Model Turn_Spec.

(** ** Tiles and pixels *)
Lemma flat_map_ext_in {A B} (f g : A -> list B) l : (forall i, In i l -> f i = g i) -> flat_map f l = flat_map g l.
Proof.
  induction l as [|i l IH]; intros H; [reflexivity|]. cbn [flat_map]. rewrite (H i) by now left. rewrite IH; [reflexivity|].
  intros j J. apply H. now right.
Qed.

Lemma app_eq_len {A} (a b c d : list A) : length a = length c -> a ++ b = c ++ d -> a = c /\ b = d.
Proof.
  revert c. induction a as [|x a IH]; intros [|z c] L E; try discriminate; [auto|]. cbn in *. injection E as -> E.
  destruct (IH c ltac:(lia) E) as [-> ->]. auto.
Qed.

Lemma flat_map_inj {A B} (f g : A -> list B) l : (forall i, In i l -> length (f i) = length (g i)) ->
  flat_map f l = flat_map g l -> forall i, In i l -> f i = g i.
Proof.
  induction l as [|j l IH]; intros L E i I; [destruct I|]. cbn [flat_map] in E.
  apply app_eq_len in E as [E1 E2]; [|apply L; now left].
  destruct I as [<-|I]; [exact E1|]. apply IH; [|exact E2|exact I]. intros k K. apply L. now right.
Qed.

Lemma flat_map_len {A B} (f g : A -> list B) l : (forall i, In i l -> length (f i) = length (g i)) -> length (flat_map f l) = length (flat_map g l).
Proof.
  induction l as [|j l IH]; intros L; [reflexivity|]. cbn [flat_map]. rewrite !app_length, (L j) by now left. rewrite IH; [reflexivity|].
  intros k K. apply L. now right.
Qed.

Lemma range_cons a b : a < b -> range a b = a :: range (a + 1) b.
Proof.
  intros H. unfold range. replace (Z.to_nat (b - a)) with (S (Z.to_nat (b - (a + 1)))) by lia. cbn [seq map]. f_equal; [lia|].
  rewrite <- seq_shift, map_map. apply map_ext. intros i. lia.
Qed.
Lemma range_nil a b : b <= a -> range a b = [].
Proof. intros H. unfold range. replace (Z.to_nat (b - a)) with O by lia. reflexivity. Qed.
Lemma in_range a b i : In i (range a b) <-> a <= i < b.
Proof.
  unfold range. rewrite in_map_iff. split.
  - intros (k & <- & K). apply in_seq in K. lia.
  - intros H. exists (Z.to_nat (i - a)). split; [lia|]. apply in_seq. lia.
Qed.

Lemma firstn_plus {A} n m (l : list A) : firstn (n + m) l = firstn n l ++ firstn m (skipn n l).
Proof. revert l. induction n as [|n IH]; intros [|a l]; cbn; rewrite ?firstn_nil; [reflexivity..|]. now rewrite IH. Qed.

Lemma row_pixels p y n : 0 < pic_bpp p -> 0 <= pic_stride p -> 0 <= y -> forall a, 0 <= a ->
  firstn (Z.to_nat (Z.of_nat n * pic_bpp p)) (skipn (Z.to_nat ((y * pic_stride p + a) * pic_bpp p)) (pic_mem p))
  = flat_map (fun x => stored p x y) (range a (a + Z.of_nat n)).
Proof.
  intros B St Y. induction n as [|n IH]; intros a A.
  - rewrite range_nil by lia. reflexivity.
  - rewrite range_cons by lia. cbn [flat_map]. replace (Z.to_nat (Z.of_nat (S n) * pic_bpp p)) with (Z.to_nat (pic_bpp p) + Z.to_nat (Z.of_nat n * pic_bpp p))%nat by nia.
    rewrite firstn_plus. unfold stored at 1. f_equal. rewrite skipn_skipn.
    replace (Z.to_nat (pic_bpp p) + Z.to_nat ((y * pic_stride p + a) * pic_bpp p))%nat with (Z.to_nat ((y * pic_stride p + (a + 1)) * pic_bpp p)) by nia.
    rewrite IH by lia. replace (a + 1 + Z.of_nat n) with (a + Z.of_nat (S n)) by lia. reflexivity.
Qed.

Lemma tile_pixels p tx ty : 0 < pic_bpp p -> 0 <= pic_stride p -> 0 <= 32 * tx < pic_w p -> 0 <= 32 * ty ->
  tile_bytes p tx ty = flat_map (fun y => flat_map (fun x => stored p x y) (range (32 * tx) (Z.min (32 * tx + 32) (pic_w p))))
                         (range (32 * ty) (Z.min (32 * ty + 32) (pic_h p))).
Proof.
  intros B St X Y. unfold tile_bytes. apply flat_map_ext_in. intros y I. apply in_range in I.
  set (n := Z.to_nat (Z.min (32 * tx + 32) (pic_w p) - 32 * tx)).
  assert (N : Z.min (32 * tx + 32) (pic_w p) = 32 * tx + Z.of_nat n) by lia.
  replace (Z.min (32 * tx + 32) (pic_w p) - 32 * tx) with (Z.of_nat n) by lia. rewrite N. apply row_pixels; lia.
Qed.

Lemma stored_length p x y : sound p -> 0 < pic_bpp p -> 0 <= x < pic_w p -> 0 <= y < pic_h p -> length (stored p x y) = Z.to_nat (pic_bpp p).
Proof.
  intros (W & H & _ & St & M) B X Y. unfold stored. rewrite firstn_length, skipn_length. unfold zlen in M.
  assert ((y * pic_stride p + x + 1) * pic_bpp p <= pic_h p * pic_stride p * pic_bpp p) by (apply Z.mul_le_mono_nonneg_r; nia). nia.
Qed.

(* tiles of two pictures of one size are equal if and only if their pixels are *)
Lemma tiles_equal p q tx ty : sound p -> sound q -> 0 < pic_bpp p -> pic_bpp p = pic_bpp q -> pic_w p = pic_w q -> pic_h p = pic_h q ->
  0 <= 32 * tx < pic_w p -> 0 <= 32 * ty < pic_h p ->
  (tile_bytes p tx ty = tile_bytes q tx ty <->
   forall x y, 0 <= x < pic_w p -> 0 <= y < pic_h p -> x / 32 = tx -> y / 32 = ty -> stored p x y = stored q x y).
Proof.
  intros P Q B Eb Ew Eh X Y. pose proof P as (Wp & Hp & _ & Sp & _). pose proof Q as (Wq & Hq & _ & Sq & _).
  rewrite !tile_pixels by lia. rewrite <- Ew, <- Eh. split.
  - intros E x y Ix Iy Tx Ty. pose proof (Z.div_mod x 32). pose proof (Z.mod_pos_bound x 32). pose proof (Z.div_mod y 32). pose proof (Z.mod_pos_bound y 32).
    assert (L : forall x y, 0 <= x < pic_w p -> 0 <= y < pic_h p -> length (stored p x y) = length (stored q x y)).
    { intros. rewrite !stored_length by (assumption || lia). now rewrite Eb. }
    assert (Iy' : In y (range (32 * ty) (Z.min (32 * ty + 32) (pic_h p)))) by (apply in_range; lia).
    assert (Ix' : In x (range (32 * tx) (Z.min (32 * tx + 32) (pic_w p)))) by (apply in_range; lia).
    pose proof (fun Ln => flat_map_inj _ _ _ Ln E y Iy') as E1. cbv beta in E1.
    assert (E2 := E1). clear E1. match type of E2 with ?A -> _ => assert (Ln : A) end.
    { intros j J. apply in_range in J. apply flat_map_len. intros k K. apply in_range in K. apply L; lia. }
    specialize (E2 Ln). apply (flat_map_inj _ _ _) with (i := x) in E2; [exact E2| |exact Ix'].
    intros k K. apply in_range in K. apply L; lia.
  - intros E. apply flat_map_ext_in. intros y Iy. apply flat_map_ext_in. intros x Ix. apply in_range in Ix, Iy.
    apply E; try lia; symmetry; apply (Z.div_unique _ _ _ (_ - _)); lia.
Qed.

(** ** Turning *)
Lemma source_in f x y : inside f x y -> 0 <= fst (source f x y) < pic_w (pic f) /\ 0 <= snd (source f x y) < pic_h (pic f).
Proof. unfold inside, size, source. destruct (fr_turn f); cbn; lia. Qed.

Lemma source_onto f sx sy : 0 <= sx < pic_w (pic f) -> 0 <= sy < pic_h (pic f) -> exists x y, inside f x y /\ source f x y = (sx, sy).
Proof.
  intros X Y. unfold inside, size, source.
  destruct (fr_turn f); [exists sx, sy | exists (pic_h (pic f) - 1 - sy), sx | exists (pic_w (pic f) - 1 - sx), (pic_h (pic f) - 1 - sy) | exists sy, (pic_w (pic f) - 1 - sx)
      |exists (pic_w (pic f) - 1 - sx), sy | exists sy, sx | exists sx, (pic_h (pic f) - 1 - sy) | exists (pic_h (pic f) - 1 - sy), (pic_w (pic f) - 1 - sx)];
    cbn; (split; [lia|f_equal; lia]).
Qed.

Lemma same_source f g x y : pic_w (pic f) = pic_w (pic g) -> pic_h (pic f) = pic_h (pic g) -> fr_turn f = fr_turn g -> source f x y = source g x y.
Proof. intros W H T. unfold source. now rewrite W, H, T. Qed.

Definition hash (xxh : list Z -> Z) (f : frame) tx ty := xxh (tile_bytes (pic f) tx ty) mod 2 ^ 32.

Lemma div32 v m : 0 <= v < m -> 0 <= 32 * (v / 32) < m.
Proof. intros. pose proof (Z.div_mod v 32). pose proof (Z.mod_pos_bound v 32). pose proof (Z.div_pos v 32). lia. Qed.

(* a tile not touched by the damage is as it was *)
Lemma untouched old before f tx ty : usable old -> usable f -> steady (old :: before) f -> honest (old :: before) f ->
  pic_w (pic old) = pic_w (pic f) -> pic_h (pic old) = pic_h (pic f) -> 0 <= 32 * tx < pic_w (pic f) -> 0 <= 32 * ty < pic_h (pic f) ->
  ~ touches (f_damage (fr_fed f)) tx ty -> tile_bytes (pic old) tx ty = tile_bytes (pic f) tx ty.
Proof.
  intros ((So & _) & Bo & _) ((Sf & _) & Bf & _) St Ho W H X Y N. destruct (St W H) as (T & Fm & B).
  apply tiles_equal; try assumption; try lia. intros sx sy Ix Iy Tx Ty.
  destruct (source_onto f sx sy) as (x & y & I & S); [lia|lia|]. specialize (Ho x y I). unfold pixel in Ho.
  rewrite (same_source old f x y W H T), S in Ho. destruct Ho as [D|[_ E]].
  - exfalso. apply N. exists sx, sy. auto.
  - injection E as _ E. exact E.
Qed.

Lemma remembered_is xxh old before tx ty :
  Forall usable (old :: before) -> every steady (old :: before) -> every honest (old :: before) ->
  0 <= 32 * tx < pic_w (pic old) -> 0 <= 32 * ty < pic_h (pic old) ->
  let v := remembered xxh (map fr_fed (old :: before)) (pic_w (pic old)) (pic_h (pic old)) tx ty in v = 0 \/ v = hash xxh old tx ty.
Proof.
  revert old. induction before as [|o2 before IH]; intros old U St Ho X Y; cbn [map remembered]; fold (pic old); rewrite !Z.eqb_refl, !andb_true_r;
    (destruct (f_clients (fr_fed old)); [|now left]).
  - destruct (touchesb _ _ _); [now right|now left].
  - destruct (touchesb (f_damage (fr_fed old)) tx ty) eqn:T; [now right|].
    inversion U as [|? ? Uo U2]; subst. inversion U2 as [|? ? Uo2 U3]; subst. destruct St as [St St2]. destruct Ho as [Ho Ho2].
    destruct (f_clients (fr_fed o2) && (pic_w (pic o2) =? pic_w (pic old)) && (pic_h (pic o2) =? pic_h (pic old))) eqn:C.
    + apply andb_prop in C as [C H]. apply andb_prop in C as [C W]. apply Z.eqb_eq in W, H.
      specialize (IH o2 U2 St2 Ho2 ltac:(lia) ltac:(lia)). cbv zeta in IH. rewrite W, H in IH. cbn [map] in IH.
      unfold hash in *. rewrite (untouched o2 before old tx ty) in IH; try assumption.
      intros Tc. apply touchesb_touches in Tc. congruence.
    + left. fold (pic o2). cbn [remembered]. fold (pic o2). rewrite C. reflexivity.
Qed.

(** ** What is shown *)
Lemma get_in l off n : 0 <= off -> 0 <= n -> off + n <= zlen l -> get l off n = Ok (firstn (Z.to_nat n) (skipn (Z.to_nat off) l)).
Proof. unfold zlen, get. intros. replace (_ && _) with true by lia. reflexivity. Qed.

Lemma read_pixel p x y : sound p -> 0 < pic_bpp p -> 0 <= x < pic_w p -> 0 <= y < pic_h p ->
  get (pic_mem p) ((y * pic_stride p + x) * pic_bpp p) (pic_bpp p) = Ok (stored p x y).
Proof.
  intros (W & H & _ & St & M) B X Y. unfold stored. apply get_in; [apply Z.mul_nonneg_nonneg; nia|lia|].
  assert ((y * pic_stride p + x + 1) * pic_bpp p <= pic_h p * pic_stride p * pic_bpp p) by (apply Z.mul_le_mono_nonneg_r; nia).
  rewrite Z.mul_add_distr_r, Z.mul_1_l in *. lia.
Qed.

Lemma source_same f x y : source f x y = source_of (fr_turn f) (pic_w (pic f)) (pic_h (pic f)) x y.
Proof. reflexivity. Qed.

Lemma shown_right dst f : usable f -> exists c, resampler_feed dst f = Ok c /\
  forall x y, inside f x y -> (let* p := c x y in Ok (fr_format f, p)) = Ok (pixel f x y).
Proof.
  intros ((So & _) & B & K). fold (pic f) in So. assert (D : exists c, resampler_feed dst f = Ok c /\ forall x y, inside f x y ->
    c x y = let (sx, sy) := source f x y in get (pic_mem (pic f)) ((sy * pic_stride (pic f) + sx) * pic_bpp (pic f)) (pic_bpp (pic f))).
  { destruct (fr_turn f) eqn:T; [unfold resampler_feed; rewrite T; eexists; split; [reflexivity|]; intros x y _; unfold source; rewrite T; reflexivity|..];
    (destruct K as [K|K]; [discriminate|]; unfold resampler_feed; rewrite T; unfold resample_now; rewrite K; cbn [bind negb]; rewrite T;
     pose proof So as (W & H & _);
     match goal with |- context [to_pixman_transform ?t ?w ?h] => destruct (to_pixman_transform t w h) as [m|] eqn:M;
       [|exfalso; revert M; unfold to_pixman_transform; rewrite ?times_F1_in by lia; cbn [bind]; intros M; discriminate M] end;
     cbn [bind]; eexists; split; [reflexivity|]; intros x y I; unfold drawn; rewrite (sampled_ok _ _ _ _ x y M), source_same, T;
     pose proof (source_in f x y I) as Q; rewrite source_same, T in Q; cbn [source_of fst snd] in *; unfold as_image; cbn [im_w im_h im_stride im_mem];
     match goal with |- context [if ?b then _ else _] => replace b with true by lia end; reflexivity). }
  destruct D as (c & E & D). exists c. split; [exact E|]. intros x y I. rewrite (D x y I). pose proof (source_in f x y I) as Q. unfold pixel.
  destruct (source f x y) as [sx sy]. cbn [fst snd] in Q. rewrite read_pixel by tauto. reflexivity.
Qed.

Lemma within_in r x y : within r x y = true <-> in_region r x y.
Proof.
  unfold within, in_region. rewrite existsb_exists. split; intros (b & I & H); exists b; (split; [exact I|]); lia.
Qed.

Lemma clip_within w h l : 0 <= w <= 32767 -> 0 <= h <= 32767 -> region_within (clip w h l) w h.
Proof.
  intros W H. unfold region_within, clip. rewrite !int16_small by lia. rewrite Forall_forall. intros b I. apply filter_In in I as [I F].
  apply in_map_iff in I as (c & <- & _). cbn [x1 y1 x2 y2] in *. lia.
Qed.

Lemma turned_damage f r x y : usable f -> region_within r (pic_w (pic f)) (pic_h (pic f)) -> inside f x y ->
  (in_region (transform_region r (fr_turn f) (pic_w (pic f)) (pic_h (pic f))) x y <-> let (sx, sy) := source f x y in in_region r sx sy).
Proof.
  intros ((So & _) & _) R I. fold (pic f) in So. pose proof So as (W & H & _).
  pose proof (C26_transforms_agree_partial (fr_turn f) (pic_w (pic f)) (pic_h (pic f)) ltac:(lia) ltac:(lia)) as C.
  destruct (transform_dimensions _ _ _) as [w' h']. destruct C as (m & M & _ & _ & C). destruct (C r R) as [_ C'].
  specialize (C' x y). rewrite (sampled_ok _ _ _ _ x y M) in C'. rewrite source_same. destruct (source_of _ _ _ _ _). symmetry. exact C'.
Qed.

Lemma refine_tiles_size xxh ts : forall r refined mem stride bpp r' out, refine_tiles xxh ts r refined mem stride bpp = Ok (r', out) -> rf_w r' = rf_w r /\ rf_h r' = rf_h r.
Proof.
  induction ts as [|[tx ty] ts IH]; intros r refined mem stride bpp r' out E; cbn [refine_tiles] in E; [injection E as <- _; auto|].
  cbv zeta in E. unfold refine_tile in E. destruct (hash_tile _ _ _ _ _ _ _) as [hs|]; [|discriminate]. cbn [bind] in E.
  destruct (get _ _ _) as [o|]; [|discriminate]. cbn [bind] in E. destruct (put _ _ _) as [pp|]; [|discriminate]. cbn [bind] in E.
  apply IH in E. exact E.
Qed.

Lemma feed_within xxh rects_of r f r' out : usable f -> feed_damage xxh rects_of r (f_clients (fr_fed f)) (f_pic (fr_fed f)) (f_damage (fr_fed f)) = Ok (r', out) ->
  region_within out (pic_w (pic f)) (pic_h (pic f)).
Proof.
  intros ((So & Rw) & _) D. pose proof So as (W & H & _). unfold feed_damage in D. destruct (f_clients (fr_fed f)); [|injection D as _ <-; exact Rw].
  unfold damage_refine in D. destruct (negb _) eqn:Q; [discriminate|]. destruct (refine_tiles _ _ _ _ _ _ _) as [[r3 o3]|] eqn:E; [|discriminate].
  cbn [bind] in D. injection D as -> <-. apply refine_tiles_size in E as [-> ->]. apply negb_false_iff, andb_prop in Q as [Qw Qh].
  apply Z.eqb_eq in Qw, Qh. rewrite Qw, Qh. unfold pic. apply clip_within; lia.
Qed.

(** ** All frames *)
Lemma screens xxh rects_of dst s : keeps_points rects_of -> forall l, Forall usable l -> every steady l -> every honest l -> tells_apart xxh l ->
  exists r sc outs, run xxh rects_of dst s l = Ok (r, sc) /\ feeds xxh rects_of (map fr_fed l) = Ok (r, outs) /\
    match l with [] => True | f :: _ => forall x y, inside f x y -> sc x y = Ok (pixel f x y) end.
Proof.
  intros K. induction l as [|f l IH]; intros U St Ho Tl; [eexists _, _, _; split; [reflexivity|split; [reflexivity|exact I]]|].
  inversion U as [|? ? Uf Ul]; subst. destruct St as [Sf Sl]. destruct Ho as [Hf Hl].
  destruct (IH Ul Sl Hl) as (r & sc & outs & R & F & S). { intros a b tx ty A B. apply Tl; now right. }
  assert (Pl : Forall proper (map fr_fed l)). { rewrite Forall_map. eapply Forall_impl; [|exact Ul]. now intros a (P & _). }
  destruct (feed_exact xxh rects_of (map fr_fed l) (fr_fed f) K Pl (proj1 Uf)) as (r' & out & outs' & E & _ & B).
  cbn [feeds] in E. rewrite F in E. cbn [bind] in E.
  destruct (feed_damage xxh rects_of r (f_clients (fr_fed f)) (f_pic (fr_fed f)) (f_damage (fr_fed f))) as [[r2 o2]|] eqn:D; [|discriminate].
  cbn [bind] in E. injection E as -> -> ->.
  destruct (shown_right (dst (length l)) f Uf) as (c & C & Cx).
  eexists r', _, (out :: outs'). split; [|split].
  - cbn [run]. rewrite R. cbn [bind]. unfold display_feed. fold (pic f) in D. rewrite D. cbn [bind]. rewrite C. cbn [bind]. reflexivity.
  - cbn [map feeds]. rewrite F. cbn [bind]. rewrite D. reflexivity.
  - intros x y I. unfold redraw. destruct (within _ x y) eqn:Wi; [apply Cx; exact I|].
    pose proof (feed_within _ _ _ _ _ _ Uf D) as Wout.
    assert (N : ~ (let (sx, sy) := source f x y in in_region out sx sy)).
    { rewrite <- (turned_damage f out x y Uf Wout I). rewrite <- within_in. congruence. }
    assert (Eq : match l with old :: _ => size old = size f /\ pixel old x y = pixel f x y | [] => False end).
    { pose proof (Hf x y I) as Hx. pose proof (source_in f x y I) as Q. destruct (source f x y) as [sx sy] eqn:Sx. cbn [fst snd] in Q.
      destruct Hx as [Hx|Hx]; [|exact Hx]. destruct (f_clients (fr_fed f)) eqn:Cl; [|subst out; contradiction].
      rewrite B in N. fold (pic f) in N.
      assert (Tt : touches (f_damage (fr_fed f)) (sx / 32) (sy / 32)) by (exists sx, sy; auto).
      assert (Hh : hash xxh f (sx / 32) (sy / 32) = remembered xxh (map fr_fed l) (pic_w (pic f)) (pic_h (pic f)) (sx / 32) (sy / 32)).
      { destruct (Z.eq_dec (hash xxh f (sx / 32) (sy / 32)) (remembered xxh (map fr_fed l) (pic_w (pic f)) (pic_h (pic f)) (sx / 32) (sy / 32))) as [e|n]; [exact e|].
        exfalso. apply N. unfold hash in n. tauto. }
      pose proof (div32 sx _ (proj1 Q)) as Qx. pose proof (div32 sy _ (proj2 Q)) as Qy.
      destruct (Tl f f _ _ (or_introl eq_refl) (or_introl eq_refl) Qx Qy) as [Nz _].
      unfold hash in Hh. destruct l as [|old l]; [exfalso; apply Nz; exact Hh|].
      destruct (andb (pic_w (pic old) =? pic_w (pic f)) (pic_h (pic old) =? pic_h (pic f))) eqn:Sz.
      - apply andb_prop in Sz as [W H]. apply Z.eqb_eq in W, H. destruct (Sf W H) as (T & Fm & Bp).
        rewrite <- W, <- H in Hh. destruct (remembered_is xxh old l (sx / 32) (sy / 32) Ul Sl Hl) as [e|e]; [lia|lia|congruence|].
        rewrite e in Hh. unfold hash in Hh. destruct (Tl f old _ _ (or_introl eq_refl) (or_intror (or_introl eq_refl)) Qx Qy) as [_ Te].
        specialize (Te Hh). inversion Ul as [|? ? Uo _]; subst. pose proof Uf as ((S1 & _) & B1 & _). pose proof Uo as ((S2 & _) & B2 & _).
        rewrite (tiles_equal (pic f) (pic old)) in Te by (assumption || lia || congruence).
        split; [unfold size; rewrite T, W, H; reflexivity|]. unfold pixel. rewrite (same_source old f x y W H T), Sx, Fm.
        f_equal. symmetry. apply Te; try reflexivity; tauto.
      - exfalso. apply Nz. rewrite Hh. cbn [map remembered]. fold (pic old). rewrite <- andb_assoc, Sz, andb_false_r. reflexivity. }
    destruct l as [|old l]; [destruct Eq|]. destruct Eq as [Es Ep]. rewrite <- Ep. apply S. unfold inside in *. rewrite Es. exact I.
Qed.

Lemma run_feeds xxh rects_of dst s l r sc : run xxh rects_of dst s l = Ok (r, sc) -> exists outs, feeds xxh rects_of (map fr_fed l) = Ok (r, outs).
Proof.
  revert r sc. induction l as [|f l IH]; intros r sc E; cbn [run] in E; [injection E as <- _; now exists []|].
  destruct (run xxh rects_of dst s l) as [[r0 s0]|]; [|discriminate]. cbn [bind] in E. destruct (IH _ _ eq_refl) as [outs F].
  unfold display_feed in E. destruct (feed_damage _ _ _ _ _ _) as [[r1 o]|] eqn:D; [|discriminate]. cbn [bind] in E.
  destruct (resampler_feed _ f) as [c|]; [|discriminate]. cbn [bind] in E. injection E as <- _.
  exists (o :: outs). cbn [map feeds]. rewrite F. cbn [bind]. fold (pic f). rewrite D. reflexivity.
Qed.

Lemma turning_missed xxh rects_of dst s f g before r sc : keeps_points rects_of -> Forall usable (g :: f :: before) ->
  run xxh rects_of dst s (f :: before) = Ok (r, sc) ->
  f_clients (fr_fed f) = true -> f_clients (fr_fed g) = true -> pic g = pic f ->
  (forall x y, in_region (f_damage (fr_fed g)) x y -> in_region (f_damage (fr_fed f)) x y) ->
  exists r' sc', run xxh rects_of dst s (g :: f :: before) = Ok (r', sc') /\ forall x y, inside g x y -> sc' x y = sc x y.
Proof.
  intros K U R Cf Cg P Dm. inversion U as [|? ? Ug U2]; subst. inversion U2 as [|? ? Uf Ub]; subst.
  assert (Pl : Forall proper (map fr_fed before)). { rewrite Forall_map. eapply Forall_impl; [|exact Ub]. now intros a (Q & _). }
  destruct (C51_same_frame_again xxh rects_of (map fr_fed before) (fr_fed f) (fr_fed g) K Pl (proj1 Uf) (proj1 Ug) Cf Cg (eq_sym P) Dm) as (r' & out & outs & E & N).
  destruct (run_feeds _ _ _ _ _ _ _ R) as [o1 F]. cbn [map] in F. cbn [feeds] in E, F. rewrite F in E. cbn [bind] in E.
  destruct (feed_damage xxh rects_of r _ (f_pic (fr_fed g)) _) as [[r2 o2]|] eqn:D; [|discriminate]. cbn [bind] in E. injection E as -> -> _.
  destruct (shown_right (dst (length (f :: before))) g Ug) as (c & C & _).
  eexists r', _. split.
  - remember (f :: before) as l. cbn [run]. rewrite R. cbn [bind]. unfold display_feed. fold (pic g) in D. rewrite D. cbn [bind]. rewrite C. reflexivity.
  - intros x y I. unfold redraw. destruct (within _ x y) eqn:W; [|reflexivity]. exfalso. apply within_in in W.
    rewrite (turned_damage g out x y Ug (feed_within _ _ _ _ _ _ Ug D) I) in W. destruct (source g x y). exact (N _ _ W).
Qed.
