From Verif Require Import Common CommonProofs Pixels_Model Msg_Model Upd_Spec Mirror_Spec Zrle_Model Transform_Model Transform_Spec
  Refinery_Model Refinery_Spec Refinery_Proofs Refinery_Props Turn_Model Turn_Spec Turn_Proofs Feed_Model Feed_Spec.
From Verif Require Msg_Proofs.

(** What is not in the damage that is left looks as before. *)
Lemma kept xxh rects_of f l r outs r' out : keeps_points rects_of -> Forall usable (f :: l) -> every Turn_Spec.steady (f :: l) -> every honest (f :: l) ->
  tells_apart xxh (f :: l) -> feeds xxh rects_of (map fr_fed l) = Ok (r, outs) ->
  feed_damage xxh rects_of r (f_clients (fr_fed f)) (f_pic (fr_fed f)) (f_damage (fr_fed f)) = Ok (r', out) ->
  forall x y, inside f x y -> ~ (let (sx, sy) := source f x y in Transform_Spec.in_region out sx sy) ->
  match l with old :: _ => size old = size f /\ pixel old x y = pixel f x y | [] => False end.
Proof.
  intros K U St Ho Tl F D x y I N. inversion U as [|? ? Uf Ul]; subst. destruct St as [Sf Sl]. destruct Ho as [Hf Hl].
  assert (Pl : Forall proper (map fr_fed l)). { rewrite Forall_map. eapply Forall_impl; [|exact Ul]. now intros a (P & _). }
  destruct (feed_exact xxh rects_of (map fr_fed l) (fr_fed f) K Pl (proj1 Uf)) as (r3 & out' & outs' & E & _ & B).
  cbn [feeds] in E. rewrite F in E. cbn [bind] in E. rewrite D in E. cbn [bind] in E. injection E as -> -> ->.
  pose proof (Hf x y I) as Hx. pose proof (source_in f x y I) as Q. destruct (source f x y) as [sx sy] eqn:Sx. cbn [fst snd] in Q.
  destruct Hx as [Hx|Hx]; [|exact Hx]. destruct (f_clients (fr_fed f)) eqn:Cl; [|subst out'; contradiction].
  rewrite B in N. fold (pic f) in N.
  assert (Tt : touches (f_damage (fr_fed f)) (sx / 32) (sy / 32)) by (exists sx, sy; auto).
  assert (Hh : hash xxh f (sx / 32) (sy / 32) = remembered xxh (map fr_fed l) (pic_w (pic f)) (pic_h (pic f)) (sx / 32) (sy / 32)).
  { destruct (Z.eq_dec (hash xxh f (sx / 32) (sy / 32)) (remembered xxh (map fr_fed l) (pic_w (pic f)) (pic_h (pic f)) (sx / 32) (sy / 32))) as [e|n]; [exact e|].
    exfalso. apply N. unfold hash in n. tauto. }
  pose proof (div32 sx _ (proj1 Q)) as Qx. pose proof (div32 sy _ (proj2 Q)) as Qy.
  destruct (Tl f f _ _ (or_introl eq_refl) (or_introl eq_refl) Qx Qy) as [Nz _].
  unfold hash in Hh. destruct l as [|old l]; [exfalso; apply Nz; exact Hh|].
  destruct (andb (pic_w (pic old) =? pic_w (pic f)) (pic_h (pic old) =? pic_h (pic f))) eqn:Sz.
  - apply andb_prop in Sz as [W H]. apply Z.eqb_eq in W, H. destruct (Sf W H) as (T & Fm & Bp).
    rewrite <- W, <- H in Hh. destruct (remembered_is xxh old l (sx / 32) (sy / 32) Ul Sl Hl) as [e|e]; [lia|lia|congruence|].
    rewrite e in Hh. unfold hash in Hh. destruct (Tl f old _ _ (or_introl eq_refl) (or_intror (or_introl eq_refl)) Qx Qy) as [_ Te].
    specialize (Te Hh). inversion Ul as [|? ? Uo _]; subst. pose proof Uf as ((S1 & _) & B1 & _). pose proof Uo as ((S2 & _) & B2 & _).
    rewrite (tiles_equal (pic f) (pic old)) in Te by (assumption || lia || congruence).
    split; [unfold size; rewrite T, W, H; reflexivity|]. unfold pixel. rewrite (same_source old f x y W H T), Sx, Fm.
    f_equal. symmetry. apply Te; try reflexivity; tauto.
  - exfalso. apply Nz. rewrite Hh. cbn [map remembered]. fold (pic old). rewrite <- andb_assoc, Sz, andb_false_r. reflexivity.
Qed.

Lemma insideb_in f x y : insideb f x y = true <-> inside f x y.
Proof. unfold insideb, inside. lia. Qed.

Lemma corners_cover d x y : Upd_Spec.covers (map corners d) x y <-> Transform_Spec.in_region d x y.
Proof.
  unfold Upd_Spec.covers, Transform_Spec.in_region. rewrite Exists_exists. split.
  - intros (b & B & C). apply in_map_iff in B as (a & <- & A). exists a. split; [exact A|exact C].
  - intros (b & B & C). exists (corners b). split; [apply in_map; exact B|exact C].
Qed.

(** The part of a list the frames of which were fed earlier. *)
Lemma every_tail P f l : every P (f :: l) -> every P l.
Proof. now intros [_ ?]. Qed.
Lemma well_tail xxh src f l : well_fed xxh src (f :: l) -> well_fed xxh src l.
Proof.
  intros (U & Ho & St & T & Fm). inversion U; inversion Fm; subst. repeat split; auto; try (eapply every_tail; eassumption).
  - apply (T f0 g tx ty); try (now right); auto.
  - apply (T f0 g tx ty); try (now right); auto.
Qed.
Lemma well_app xxh src a l : well_fed xxh src (a ++ l) -> well_fed xxh src l.
Proof. induction a as [|f a IH]; [auto|]. intros H. apply IH. eapply well_tail. exact H. Qed.
Lemma all_fed_app hs : forall before, exists a, all_fed before hs = a ++ before.
Proof.
  induction hs as [|[f|i] hs IH]; intros before; cbn [all_fed fold_left]; [now exists []| |].
  - destruct (IH (f :: before)) as [a A]. exists (a ++ [f]). unfold all_fed in A. rewrite A, <- app_assoc. reflexivity.
  - apply IH.
Qed.

(** One buffer. *)
Lemma fed_once xxh rects_of dst src f l r outs P : keeps_points rects_of -> well_fed xxh src (f :: l) ->
  feeds xxh rects_of (map fr_fed l) = Ok (r, outs) -> shows l P ->
  exists r' shown damage outs', display_feed xxh rects_of r dst f = Ok (r', shown, damage) /\
    feeds xxh rects_of (map fr_fed (f :: l)) = Ok (r', outs') /\ shows (f :: l) (now_shown f shown P) /\
    forall x y, now_shown f shown P x y = P x y \/ Upd_Spec.covers (map corners damage) x y.
Proof.
  intros K (U & Ho & St & T & Fm) F S. inversion U as [|? ? Uf Ul]; subst.
  assert (Pl : Forall proper (map fr_fed l)). { rewrite Forall_map. eapply Forall_impl; [|exact Ul]. now intros a (Q & _). }
  destruct (feed_exact xxh rects_of (map fr_fed l) (fr_fed f) K Pl (proj1 Uf)) as (r' & out & outs' & E & _).
  pose proof E as E'. cbn [feeds] in E. rewrite F in E. cbn [bind] in E.
  destruct (feed_damage xxh rects_of r (f_clients (fr_fed f)) (f_pic (fr_fed f)) (f_damage (fr_fed f))) as [[r2 o2]|] eqn:D; [|discriminate].
  cbn [bind] in E. injection E as -> -> ->.
  destruct (shown_right dst f Uf) as (c & C & Cx).
  exists r', c, (transform_region out (fr_turn f) (pic_w (pic f)) (pic_h (pic f))), (out :: outs').
  split; [unfold display_feed; fold (pic f) in D; rewrite D; cbn [bind]; rewrite C; reflexivity|].
  split; [exact E'|]. split.
  - intros x y I. unfold now_shown. rewrite (proj2 (insideb_in f x y) I). specialize (Cx x y I). destruct (c x y); [|discriminate].
    cbn [bind] in Cx. injection Cx as Cx. rewrite <- Cx. reflexivity.
  - intros x y. unfold now_shown. destruct (insideb f x y) eqn:I; [|auto]. apply insideb_in in I.
    destruct (within (transform_region out (fr_turn f) (pic_w (pic f)) (pic_h (pic f))) x y) eqn:W.
    + right. apply corners_cover. apply within_in. exact W.
    + left. assert (N : ~ (let (sx, sy) := source f x y in Transform_Spec.in_region out sx sy)).
      { rewrite <- (turned_damage f out x y Uf (feed_within _ _ _ _ _ _ Uf D) I). rewrite <- within_in. congruence. }
      pose proof (kept xxh rects_of f l r outs' r' out K U St Ho T F D x y I N) as Eq.
      destruct l as [|old l]; [destruct Eq|]. destruct Eq as [Es Ep]. rewrite S by (unfold inside in *; rewrite Es; exact I). rewrite Ep.
      specialize (Cx x y I). destruct (c x y); [|discriminate]. cbn [bind] in Cx. injection Cx as Cx. rewrite <- Cx. reflexivity.
Qed.

Lemma last_cons {A} (a d : A) l : last (a :: l) d = last l a.
Proof. revert a d. induction l as [|b l IH]; intros a d; [reflexivity|]. change (last (a :: b :: l) d) with (last (b :: l) d). rewrite IH. symmetry. apply IH. Qed.

(** All. *)
Lemma staged_steady xxh rects_of dst src : keeps_points rects_of -> forall hs before n r outs P,
  well_fed xxh src (all_fed before hs) -> feeds xxh rects_of (map fr_fed before) = Ok (r, outs) -> shows before P ->
  exists l, staged xxh rects_of dst r n P hs = Ok l /\ Mirror_Spec.steady _ l P /\ shows (all_fed before hs) (last_picture _ P l).
Proof.
  intros K. induction hs as [|[f|i] hs IH]; intros before n r outs P W F S; cbn [staged].
  - exists []. repeat split; auto.
  - cbn [all_fed fold_left] in W |- *. fold (all_fed (f :: before) hs) in W |- *.
    destruct (all_fed_app hs (f :: before)) as [a A]. assert (Wf : well_fed xxh src (f :: before)) by (apply (well_app xxh src a); rewrite <- A; exact W).
    destruct (fed_once xxh rects_of (dst n) src f before r outs P K Wf F S) as (r' & shown & damage & outs' & D & F' & S' & Ch).
    rewrite D. cbn [bind]. destruct (IH (f :: before) (Datatypes.S n) r' outs' (now_shown f shown P) W F' S') as (l & L & St & La).
    rewrite L. cbn [bind]. eexists. split; [reflexivity|]. split.
    + cbn [Mirror_Spec.steady]. split; [|exact St]. intros x y. destruct (Ch x y) as [E|E]; [now left|right]. eexists _, _. split; [reflexivity|exact E].
    + unfold last_picture in *. cbn [map snd]. rewrite last_cons. exact La.
  - cbn [all_fed fold_left] in W |- *. fold (all_fed before hs) in W |- *.
    destruct (IH before n r outs P W F S) as (l & L & St & La). rewrite L. cbn [bind]. eexists. split; [reflexivity|]. split.
    + cbn [Mirror_Spec.steady]. split; [auto|exact St].
    + unfold last_picture in *. cbn [map snd]. rewrite last_cons. exact La.
Qed.

Lemma steady_app {A} (a b : scene A) : forall P, Mirror_Spec.steady A (a ++ b) P -> Mirror_Spec.steady A b (last_picture A P a).
Proof.
  induction a as [|[i Q] a IH]; intros P H; [exact H|]. destruct H as [_ H]. apply IH in H. unfold last_picture in *. cbn [map snd]. rewrite last_cons. exact H.
Qed.
Lemma last_app {A} (a b : scene A) : forall P, last_picture A P (a ++ b) = last_picture A (last_picture A P a) b.
Proof.
  unfold last_picture. induction a as [|[i Q] a IH]; intros P; [reflexivity|]. cbn [map snd app]. rewrite !last_cons. apply IH.
Qed.

Lemma has_bits n src : pixfmt_from_fourcc n = Some src -> 0 <= bits_per_pixel src.
Proof.
  unfold pixfmt_from_fourcc. destruct (layout_of_fourcc n) as [[[[rs gs] bs] [[bpp dep] mx]]|] eqn:L; [|discriminate]. intros E. injection E as <-.
  cbn [bits_per_pixel]. unfold layout_of_fourcc in L. cbv zeta in L.
  repeat match type of L with (if ?b then _ else _) = _ => destruct b end; try discriminate; injection L as <- <- <- <- <- <-; lia.
Qed.

Lemma newest_format xxh src f fs : well_fed xxh src (f :: fs) -> pixfmt_from_fourcc (fr_format f) = Some src.
Proof. intros (_ & _ & _ & _ & F). now inversion F. Qed.

Lemma staged_length xxh rects_of dst hs : forall r n P l, staged xxh rects_of dst r n P hs = Ok l -> length l = length hs.
Proof.
  induction hs as [|[f|i] hs IH]; intros r n P l E; cbn [staged] in E; [injection E as <-; reflexivity| |].
  - destruct (display_feed _ _ _ _ _) as [[[r' sh] dm]|]; [|discriminate]. cbn [bind] in E. destruct (staged _ _ _ _ _ _ _) as [l'|] eqn:L; [|discriminate].
    cbn [bind] in E. apply Msg_Proofs.ok_inj in E. subst l. cbn [length]. f_equal. eapply IH. exact L.
  - destruct (staged _ _ _ _ _ _ _) as [l'|] eqn:L; [|discriminate]. cbn [bind] in E. apply Msg_Proofs.ok_inj in E. subst l. cbn [length]. f_equal. eapply IH. exact L.
Qed.
