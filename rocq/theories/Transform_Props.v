(** Claims about output transforms. *)
From Verif Require Import Common Zrle_Model Transform_Model Transform_Spec.

Lemma half : forall a b, (a * 65536 * (b * 65536 + 32768)) / 65536 = a * (b * 65536 + 32768).
Proof. intros. replace (a * 65536 * (b * 65536 + 32768)) with (a * (b * 65536 + 32768) * 65536) by ring. apply Z.div_mul. lia. Qed.

Lemma half_pixel : forall a, (a * 65536 + 32768) / 65536 = a.
Proof. intros. rewrite Z.div_add_l by lia. cbn. lia. Qed.

Definition source_of (t : transform) (w h dx dy : Z) : Z * Z :=
  match t with
  | Normal => (dx, dy) | R90 => (dy, h - 1 - dx) | R180 => (w - 1 - dx, h - 1 - dy) | R270 => (w - 1 - dy, dx)
  | Flipped => (w - 1 - dx, dy) | Flipped_90 => (dy, dx) | Flipped_180 => (dx, h - 1 - dy)
  | Flipped_270 => (w - 1 - dy, h - 1 - dx)
  end.

Lemma times_F1_ok : forall v r, times_F1 v = Ok r -> r = v * 65536.
Proof. unfold times_F1, F1. intros v r. destruct (_ && _); congruence. Qed.

Lemma times_F1_in : forall v, 0 <= v <= 32767 -> times_F1 v = Ok (v * 65536).
Proof. intros v H. unfold times_F1, F1. replace (_ && _) with true by lia. reflexivity. Qed.

Lemma sampled_ok : forall t w h m x y, to_pixman_transform t w h = Ok m -> sampled m x y = source_of t w h x y.
Proof.
  intros t w h m x y H.
  assert (P : forall a b, (65536 * a + 0 * b) / 65536 = a) by (intros; rewrite Z.mul_0_l, Z.add_0_r, Z.mul_comm; apply Z.div_mul; lia).
  assert (P' : forall a b, (0 * b + 65536 * a) / 65536 = a) by (intros; rewrite Z.mul_0_l, Z.add_0_l, Z.mul_comm; apply Z.div_mul; lia).
  assert (Q : forall a b, (- (65536) * a + 0 * b) / 65536 = - a)
    by (intros; rewrite Z.mul_0_l, Z.add_0_r; replace (- (65536) * a) with (- a * 65536) by ring; apply Z.div_mul; lia).
  assert (Q' : forall a b, (0 * b + - (65536) * a) / 65536 = - a)
    by (intros; rewrite Z.mul_0_l, Z.add_0_l; replace (- (65536) * a) with (- a * 65536) by ring; apply Z.div_mul; lia).
  assert (D : forall a b, (- (a * 65536 + 32768) + b * 65536) / 65536 = b - 1 - a).
  { intros. replace (- (a * 65536 + 32768) + b * 65536) with ((b - 1 - a) * 65536 + 32768) by ring. apply half_pixel. }
  unfold to_pixman_transform, F1 in H.
  destruct t; try (destruct (times_F1 w) as [vw|] eqn:Ew; cbn [bind] in H; [apply times_F1_ok in Ew; subst vw|discriminate]);
    try (destruct (times_F1 h) as [vh|] eqn:Eh; cbn [bind] in H; [apply times_F1_ok in Eh; subst vh|discriminate]);
    injection H as <-; unfold sampled; cbn [m00 m01 m02 m10 m11 m12 source_of]; cbv zeta;
    rewrite ?P, ?P', ?Q, ?Q', ?D, ?Z.add_0_r, ?half_pixel; reflexivity.
Qed.

Lemma int16_small : forall v, 0 <= v <= 32767 -> int16 v = v.
Proof. intros v H. unfold int16, to_signed. cbv zeta. rewrite Z.mod_small by lia. destruct (_ <? _) eqn:E; lia. Qed.

Ltac boxes := unfold transform_box; cbn [x1 y1 x2 y2]; rewrite ?int16_small by lia.

(** C26 is false of buffers of more than 32767 pixels in a direction, which
    nothing keeps an application from feeding (dimensions are 16-bit unsigned):
    the translation overflows an int. *)
Theorem C26_transforms_agree_refuted : exists t w h, 0 < w <= 65535 /\ 0 < h <= 65535 /\
  to_pixman_transform t w h = Fault SignedOverflow.
Proof. exists R90, 1, 32768. vm_compute. repeat split; congruence. Qed.
Print Assumptions C26_transforms_agree_refuted.

(** What holds, for buffers up to 32767 in both directions: the matrix exists;
    each pixel of the transformed image is sampled from inside the buffer, each
    buffer pixel by exactly one of them; that one is in the transformed damage iff
    the buffer pixel is in the damage; and transformed damage stays inside the
    transformed dimensions. *)
Theorem C26_transforms_agree_partial : forall t w h, 0 < w <= 32767 -> 0 < h <= 32767 ->
  let (w', h') := transform_dimensions t w h in
  exists m, to_pixman_transform t w h = Ok m /\
  (forall x y, 0 <= x < w' -> 0 <= y < h' -> let (sx, sy) := sampled m x y in 0 <= sx < w /\ 0 <= sy < h) /\
  (forall sx sy, 0 <= sx < w -> 0 <= sy < h -> exists x y, 0 <= x < w' /\ 0 <= y < h' /\ sampled m x y = (sx, sy) /\
     forall x' y', sampled m x' y' = (sx, sy) -> x' = x /\ y' = y) /\
  forall r, region_within r w h -> region_within (transform_region r t w h) w' h' /\
    forall x y, let (sx, sy) := sampled m x y in in_region r sx sy <-> in_region (transform_region r t w h) x y.
Proof.
  intros t w h Hw Hh.
  assert (E : exists m, to_pixman_transform t w h = Ok m).
  { unfold to_pixman_transform. rewrite !times_F1_in by lia. destruct t; cbn [bind]; eauto. }
  destruct (transform_dimensions t w h) as [w' h'] eqn:Dm. destruct E as [m E]. exists m. split; [exact E|].
  split; [|split].
  - intros x y X Y. rewrite (sampled_ok t w h m x y E).
    destruct t; cbn in Dm; injection Dm as <- <-; cbn [source_of]; lia.
  - intros sx sy X Y.
    assert (I : forall a b c d : Z, (a, b) = (c, d) <-> a = c /\ b = d)
      by (intros; split; [intros Q; injection Q; auto|intros [-> ->]; reflexivity]).
    destruct t; cbn in Dm; injection Dm as <- <-;
      [exists sx, sy | exists (h - 1 - sy), sx | exists (w - 1 - sx), (h - 1 - sy) | exists sy, (w - 1 - sx)
      |exists (w - 1 - sx), sy | exists sy, sx | exists sx, (h - 1 - sy) | exists (h - 1 - sy), (w - 1 - sx)];
      (split; [lia|split; [lia|split; [rewrite (sampled_ok _ _ _ _ _ _ E); cbn [source_of]; apply I; lia|]]]);
      intros x' y'; rewrite (sampled_ok _ _ _ _ _ _ E); cbn [source_of]; rewrite I; lia.
  - intros r R. split.
    + unfold region_within, transform_region in *. rewrite Forall_map. eapply Forall_impl; [|exact R].
      intros b [B1 [B2 [B3 [B4 [B5 B6]]]]].
      destruct t; cbn in Dm; injection Dm as <- <-; boxes; lia.
    + intros x y. rewrite (sampled_ok t w h m x y E). unfold in_region, transform_region, region_within in *.
      rewrite Forall_forall in R.
      destruct t; cbn [source_of]; (split;
        [intros [b [I B]]; eexists; split; [apply in_map; exact I|];
           specialize (R b I); destruct R as [R1 [R2 [R3 [R4 [R5 R6]]]]]; boxes; lia
        |intros [b' [I B]]; apply in_map_iff in I as [b [<- I]]; exists b; split; [exact I|];
           specialize (R b I); destruct R as [R1 [R2 [R3 [R4 [R5 R6]]]]]; revert B; boxes; lia]).
Qed.
Print Assumptions C26_transforms_agree_partial.

Example C26_ex : exists m, to_pixman_transform R90 4 3 = Ok m /\ sampled m 0 1 = (1, 2) /\
  transform_region [mk_box 1 2 3 3] R90 4 3 = [mk_box 0 1 1 3] /\ region_within [mk_box 1 2 3 3] 4 3.
Proof.
  eexists. split; [reflexivity|]. split; [reflexivity|]. split; [reflexivity|].
  constructor; [cbn; lia|constructor].
Qed.
