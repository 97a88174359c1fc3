(** Invariants of a display. *)
From Coq Require Import Permutation.
From Verif Require Import Common CommonProofs Fb_Model Fb_Spec Fb_Proofs Disp_Model Disp_Spec.

(** ** Lists *)

Lemma put_buf_nth l : forall n b i, nth_error (put_buf l n b) i =
  if Nat.eqb i n then match nth_error l i with Some _ => Some b | None => None end else nth_error l i.
Proof.
  induction l as [|x l IH]; intros [|n] b [|i]; cbn [put_buf nth_error Nat.eqb]; try reflexivity.
  - destruct (Nat.eqb i n); reflexivity.
  - apply IH.
Qed.

Lemma nth_ext_list {A} (l : list A) : forall m, (forall i, nth_error l i = nth_error m i) -> l = m.
Proof.
  induction l as [|x l IH]; intros [|y m] H; [reflexivity|specialize (H O); discriminate|specialize (H O); discriminate|].
  pose proof (H O) as H0. injection H0 as ->. f_equal. apply IH. intros i. exact (H (S i)).
Qed.

Definition wsum {A} (g : A -> Z) (l : list A) : Z := fold_right (fun x n => g x + n) 0 l.
Lemma wsum_app {A} (g : A -> Z) l m : wsum g (l ++ m) = wsum g l + wsum g m.
Proof. unfold wsum. induction l as [|x l IH]; cbn [app fold_right]; [reflexivity|]. rewrite IH. lia. Qed.
Lemma wsum_cons {A} (g : A -> Z) x l : wsum g (x :: l) = g x + wsum g l.
Proof. reflexivity. Qed.
Lemma without_split {A} (l : list A) : forall n x, nth_error l n = Some x ->
  exists a b, l = a ++ x :: b /\ without n l = a ++ b.
Proof.
  intros n x E. destruct (nth_error_split l n E) as (a & b & -> & L). exists a, b. split; [reflexivity|].
  unfold without. subst n. clear E. induction a as [|y a IH]; [reflexivity|]. cbn [length firstn app]. f_equal. exact IH.
Qed.
Lemma wsum_without {A} (g : A -> Z) l n x : nth_error l n = Some x -> wsum g (without n l) = wsum g l - g x.
Proof. intros E. destruct (without_split l n x E) as (a & b & -> & ->). rewrite !wsum_app, wsum_cons. lia. Qed.
Lemma wsum_nonneg {A} (g : A -> Z) l : (forall x, 0 <= g x) -> 0 <= wsum g l.
Proof. intros H. induction l as [|x l IH]; cbn; [lia|]. fold (wsum g l). specialize (H x). lia. Qed.
Lemma wsum_in {A} (g : A -> Z) l x : (forall x, 0 <= g x) -> In x l -> g x <= wsum g l.
Proof.
  intros H. induction l as [|y l IH]; [contradiction|]. intros [->|I]; cbn; fold (wsum g l).
  - pose proof (wsum_nonneg g l H). lia.
  - specialize (IH I). specialize (H y). lia.
Qed.
Lemma wsum_pos {A} (g : A -> Z) l : 0 < wsum g l -> exists x, In x l /\ 0 < g x.
Proof.
  induction l as [|y l IH]; cbn; [lia|]. fold (wsum g l). intros H.
  destruct (Z_lt_dec 0 (g y)); [exists y; auto|]. destruct IH as (x & I & P); [lia|]. exists x. auto.
Qed.

(** ** Frames and their ledgers *)

Definition feqb (a b : frame) : bool :=
  match a, b with Own i, Own j | Pooled i, Pooled j => Nat.eqb i j | _, _ => false end.
Lemma feqb_spec a b : reflect (a = b) (feqb a b).
Proof.
  destruct a as [i|i], b as [j|j]; cbn; try (constructor; congruence);
    destruct (Nat.eqb_spec i j); constructor; congruence.
Qed.
Lemma feqb_refl a : feqb a a = true. Proof. destruct a; apply Nat.eqb_refl. Qed.

Definition oz (b : bool) : Z := if b then 1 else 0.
Definition ledger := frame -> Z * phase.
Definition fupd (L : ledger) (f : frame) (g : Z * phase -> Z * phase) : ledger :=
  fun h => if feqb h f then g (L h) else L h.
Definition ref_s (s : Z * phase) := (fst s + 1, snd s).
Definition unref_s (s : Z * phase) := (fst s - 1, snd s).
Definition hold_s (s : Z * phase) := (fst s, Held (hold_of (snd s) + 1)).
Definition rel_s (f : frame) (s : Z * phase) :=
  (fst s, if hold_of (snd s) =? 1 then match f with Own _ => Acquired | Pooled _ => Returned end
          else Held (hold_of (snd s) - 1)).

Definition own_ok (b : buffer) (s : Z * phase) : Prop :=
  fb_ref (b_fb b) = oz (b_owned b) + fst s /\ fb_hold (b_fb b) = hold_of (snd s) /\
  fb_freed (b_fb b) = (fb_ref (b_fb b) =? 0) /\ hold_of (snd s) <= fst s /\ 0 <= hold_of (snd s) /\
  snd s <> Returned /\ (b_side b = true -> b_data b = true).

Record J (L : ledger) (w : world) : Prop := {
  j_own : forall i b, nth_error (d_bufs w) i = Some b -> own_ok b (L (Own i));
  j_out : forall i, nth_error (d_bufs w) i = None -> L (Own i) = (0, Acquired);
  j_pool : exists u, inv (d_pool w) u /\ u_pool u = oz (d_alive w) /\
    forall i, nth_error (u_fbs u) i = Some (L (Pooled i)) \/
              (nth_error (u_fbs u) i = None /\ L (Pooled i) = (0, Returned));
  j_side : forall i, In i (d_side w) <->
    exists b, nth_error (d_bufs w) i = Some b /\ b_side b = true /\ fb_freed (b_fb b) = false }.

(** What a call on a frame leaves alone. *)
Definition shape (b : buffer) := (b_upright b, b_geo b, b_owned b).
Record kept (w w' : world) : Prop := {
  k_shown : d_shown w' = d_shown w;
  k_works : d_works w' = d_works w;
  k_users : d_users w' = d_users w;
  k_alive : d_alive w' = d_alive w;
  k_fed : d_fed w' = d_fed w;
  k_shape : forall i, option_map shape (nth_error (d_bufs w') i) = option_map shape (nth_error (d_bufs w) i);
  k_side : d_side w = [] -> d_side w' = [] }.

Lemma kept_trans a b c : kept a b -> kept b c -> kept a c.
Proof. intros [] []. constructor; congruence || auto. Qed.
Lemma kept_refl w : kept w w. Proof. constructor; auto. Qed.

Definition alive_f (L : ledger) (f : frame) (w : world) : Prop :=
  match f with
  | Own i => exists b, nth_error (d_bufs w) i = Some b /\ 0 < oz (b_owned b) + fst (L f)
  | Pooled _ => 0 < fst (L f)
  end.

Lemma alive_kept L f w w' : kept w w' -> alive_f L f w -> alive_f L f w'.
Proof.
  intros K. destruct f as [i|i]; [|exact (fun H => H)]. intros (b & N & P). cbn.
  pose proof (k_shape _ _ K i) as Sh. rewrite N in Sh. destruct (nth_error (d_bufs w') i) as [b'|] eqn:N'; [|discriminate].
  exists b'. split; [reflexivity|]. cbn in Sh. unfold shape in Sh. assert (E : b_owned b' = b_owned b) by congruence. rewrite E. exact P.
Qed.

Lemma fupd_same L f g : fupd L f g f = g (L f). Proof. unfold fupd. rewrite feqb_refl. reflexivity. Qed.

(** Own buffers: a call that changes only reference and hold counts. *)
Lemma own_call L w i b x g :
  J L w -> nth_error (d_bufs w) i = Some b ->
  own_ok (with_fb x b) (g (L (Own i))) -> fb_freed x = fb_freed (b_fb b) ->
  let w' := set_bufs (put_buf (d_bufs w) i (with_fb x b)) w in
  J (fupd L (Own i) g) w' /\ kept w w' /\ d_log w' = d_log w /\ forall h, pts_of h w' = pts_of h w.
Proof.
  intros I N O F. cbn zeta. split; [|split; [|split]].
  - constructor; cbn [d_bufs d_pool d_alive d_side set_bufs].
    + intros j c. rewrite put_buf_nth. unfold fupd. cbn [feqb]. destruct (Nat.eqb_spec j i) as [->|Nj].
      * rewrite N. intros E. injection E as <-. exact O.
      * intros E. apply (j_own _ _ I _ _ E).
    + intros j. rewrite put_buf_nth. unfold fupd. cbn [feqb]. destruct (Nat.eqb_spec j i) as [->|Nj].
      * rewrite N. discriminate.
      * apply (j_out _ _ I).
    + destruct (j_pool _ _ I) as (u & U). exists u. exact U.
    + intros j. rewrite (j_side _ _ I j), put_buf_nth. destruct (Nat.eqb_spec j i) as [->|Nj]; [|reflexivity].
      rewrite N. split; intros (c & E & A1 & A2); injection E as <-.
      * exists (with_fb x b). cbn. rewrite F. auto.
      * exists b. cbn in A1, A2. rewrite F in A2. auto.
  - constructor; try reflexivity.
    + intros j. cbn [d_bufs set_bufs]. rewrite put_buf_nth. destruct (Nat.eqb_spec j i) as [->|Nj]; [rewrite N; reflexivity|reflexivity].
    + exact (fun H => H).
  - reflexivity.
  - intros [j|j]; cbn; [|reflexivity]. rewrite put_buf_nth. destruct (Nat.eqb_spec j i) as [->|Nj]; [rewrite N; reflexivity|reflexivity].
Qed.

(** Buffers of the pool: a call of Fb. *)
Lemma pool_call L w i o g (r : Z) ph :
  J L w -> L (Pooled i) = (r, ph) -> 0 < r ->
  (forall u, nth_error (u_fbs u) i = Some (r, ph) -> exists u', allowed u o None = Some u' /\
     u' = mk_u (u_pool u) (u_geo u) (update (u_fbs u) i g)) ->
  o <> Acquire ->
  exists p got, pool_step (d_pool w) o = Ok (p, got) /\ (got = None ->
    J (fupd L (Pooled i) g) (set_pool p w) /\ kept w (set_pool p w)).
Proof.
  intros I E P A NA. destruct (j_pool _ _ I) as (u & U & Up & Ul).
  assert (Ni : nth_error (u_fbs u) i = Some (r, ph)).
  { destruct (Ul i) as [H|[_ H]]; rewrite E in H; [exact H|]. injection H as -> ->. lia. }
  destruct (A u Ni) as (u' & A1 & A2).
  destruct (step_inv _ _ o U) as (p & got & S & _ & Si).
  { destruct o; try (unfold may; rewrite A1; discriminate). contradiction. }
  exists p, got. split; [exact S|]. intros ->. specialize (Si u' A1). split; [|constructor; auto].
  constructor; cbn [d_bufs d_pool d_alive d_side set_pool].
  - intros j b H. exact (j_own _ _ I j b H).
  - intros j H. exact (j_out _ _ I j H).
  - exists u'. split; [exact Si|]. subst u'. cbn [u_pool u_fbs]. split; [exact Up|]. intros j. rewrite update_nth.
    unfold fupd. cbn [feqb]. destruct (Nat.eqb_spec j i) as [->|Nj]; [|apply Ul]. rewrite Ni, E. left. reflexivity.
  - apply (j_side _ _ I).
Qed.

Lemma J_nonneg L w f : J L w -> 0 <= fst (L f) /\ 0 <= hold_of (snd (L f)).
Proof.
  intros I. destruct f as [i|i].
  - destruct (nth_error (d_bufs w) i) as [b|] eqn:N.
    + destruct (j_own _ _ I _ _ N) as (_ & _ & _ & A & B & _). lia.
    + rewrite (j_out _ _ I _ N). cbn. lia.
  - destruct (j_pool _ _ I) as (u & U & _ & Ul). destruct (Ul i) as [H|[_ H]]; [|rewrite H; cbn; lia].
    assert (Hl : (i < length (w_heap (d_pool w)))%nat) by (rewrite (i_len _ _ U); apply nth_error_Some; congruence).
    destruct (both _ _ i U Hl) as (x & s & _ & Hs & (A & _ & _ & B & C & _)). rewrite H in Hs. injection Hs as <-.
    split; [exact A|]. destruct (snd (L (Pooled i))) as [|n|]; cbn; [lia| |lia]. specialize (C n eq_refl). lia.
Qed.

Ltac own_alive I H :=
  destruct H as (b & Nb & P); pose proof (j_own _ _ I _ _ Nb) as (OR & OH & OF & OL & ON & OP & OD).

Lemma call_ref L w f : J L w -> alive_f L f w ->
  exists w', call nvnc_fb_ref f w = Ok w' /\ J (fupd L f ref_s) w' /\ kept w w' /\ d_log w' = d_log w /\
             forall h, pts_of h w' = pts_of h w.
Proof.
  intros I H. destruct f as [i|i]; cbn [alive_f] in H.
  - own_alive I H. cbn [call]. rewrite Nb. unfold nvnc_fb_ref. rewrite OF.
    destruct (fb_ref (b_fb b) =? 0) eqn:Z0; [lia|]. cbn [bind]. eexists. split; [reflexivity|].
    apply own_call; [exact I|exact Nb| |cbn; congruence].
    unfold own_ok, ref_s, with_fb; cbn [fst snd b_fb b_owned b_side b_data fb_ref fb_hold fb_freed].
    repeat split; auto; try lia.
  - destruct (L (Pooled i)) as [r ph] eqn:E. cbn [fst] in H.
    destruct (pool_call L w i (FbRef i) ref_s r ph I E H) as (p & got & S & K).
    { intros u Nu. cbn [allowed]. rewrite Nu. assert (R : (0 <? r) = true) by lia. rewrite R. eexists. split; reflexivity. }
    { discriminate. }
    cbn [pool_step] in S. cbn [call]. destruct (on_fb (d_pool w) i nvnc_fb_ref) as [p'|] eqn:Q; [|discriminate].
    cbn [bind] in S. injection S as <- <-. cbn [bind]. destruct (K eq_refl) as [K1 K2].
    eexists. split; [reflexivity|]. split; [exact K1|]. split; [exact K2|]. split; [reflexivity|]. intros [j|j]; reflexivity.
Qed.

Lemma call_hold L w f : J L w -> alive_f L f w -> snd (L f) <> Returned -> hold_of (snd (L f)) < fst (L f) ->
  exists w', call nvnc_fb_hold f w = Ok w' /\ J (fupd L f hold_s) w' /\ kept w w' /\ d_log w' = d_log w /\
             forall h, pts_of h w' = pts_of h w.
Proof.
  intros I H HR HL. destruct f as [i|i]; cbn [alive_f] in H.
  - own_alive I H. cbn [call]. rewrite Nb. unfold nvnc_fb_hold. rewrite OF.
    destruct (fb_ref (b_fb b) =? 0) eqn:Z0; [lia|]. cbn [bind]. eexists. split; [reflexivity|].
    apply own_call; [exact I|exact Nb| |cbn; congruence].
    unfold own_ok, hold_s, with_fb; cbn [fst snd b_fb b_owned b_side b_data fb_ref fb_hold fb_freed hold_of].
    repeat split; auto; try lia; try discriminate.
  - destruct (L (Pooled i)) as [r ph] eqn:E. cbn [fst snd] in *.
    destruct (pool_call L w i (FbHold i) hold_s r ph I E H) as (p & got & S & K).
    { intros u Nu. cbn [allowed]. rewrite Nu. assert (R : (0 <? r) = true) by lia. rewrite R. destruct ph; [| |congruence]; cbn [andb].
      - eexists. split; [reflexivity|]. f_equal. apply nth_ext_list. intros j. rewrite !update_nth. destruct (Nat.eqb_spec j i) as [->|]; [rewrite Nu|]; reflexivity.
      - eexists. split; [reflexivity|]. f_equal. apply nth_ext_list. intros j. rewrite !update_nth. destruct (Nat.eqb_spec j i) as [->|]; [rewrite Nu|]; reflexivity. }
    { discriminate. }
    cbn [pool_step] in S. cbn [call]. destruct (on_fb (d_pool w) i nvnc_fb_hold) as [p'|] eqn:Q; [|discriminate].
    cbn [bind] in S. injection S as <- <-. cbn [bind]. destruct (K eq_refl) as [K1 K2].
    eexists. split; [reflexivity|]. split; [exact K1|]. split; [exact K2|]. split; [reflexivity|]. intros [j|j]; reflexivity.
Qed.

Definition rel_ev (f : frame) (s : Z * phase) : list event :=
  match f with Own i => if hold_of (snd s) =? 1 then [Released i] else [] | Pooled _ => [] end.
Definition rel_pts (f : frame) (s : Z * phase) (h : frame) (p : option Z) : option Z :=
  if feqb h f && (hold_of (snd s) =? 1) then None else p.

Lemma call_release L w f : J L w -> alive_f L f w -> 0 < hold_of (snd (L f)) ->
  exists w', release f w = Ok w' /\ J (fupd L f (rel_s f)) w' /\ kept w w' /\
             d_log w' = d_log w ++ rel_ev f (L f) /\ d_side w' = d_side w /\
             forall h, pts_of h w' = rel_pts f (L f) h (pts_of h w).
Proof.
  intros I H HL. destruct f as [i|i]; cbn [alive_f] in H.
  - own_alive I H. cbn [release]. rewrite Nb. unfold nvnc_fb_release. rewrite OF.
    destruct (fb_ref (b_fb b) =? 0) eqn:Z0; [lia|]. rewrite OH. cbn [rel_ev].
    assert (Q : (hold_of (snd (L (Own i))) - 1 =? 0) = (hold_of (snd (L (Own i))) =? 1)) by lia. rewrite Q.
    destruct (hold_of (snd (L (Own i))) =? 1) eqn:H1; cbn [bind fst snd].
    + set (x := mk_fb _ _ _ _ _).
      set (b' := mk_buffer x _ _ None _ _ _).
      eexists. split; [reflexivity|].
      split; [|split; [|split; [|split]]].
      * constructor; cbn [d_bufs d_pool d_alive d_side set_bufs say].
        -- intros j c. rewrite put_buf_nth. unfold fupd. cbn [feqb]. destruct (Nat.eqb_spec j i) as [->|Nj].
           ++ rewrite Nb. intros E. injection E as <-. unfold own_ok, rel_s, b', x. rewrite H1. cbn.
              repeat split; auto; try lia; discriminate.
           ++ intros E. apply (j_own _ _ I _ _ E).
        -- intros j. rewrite put_buf_nth. unfold fupd. cbn [feqb]. destruct (Nat.eqb_spec j i) as [->|Nj].
           ++ rewrite Nb. discriminate.
           ++ apply (j_out _ _ I).
        -- exact (j_pool _ _ I).
        -- intros j. rewrite (j_side _ _ I j), put_buf_nth. destruct (Nat.eqb_spec j i) as [->|Nj]; [|reflexivity].
           rewrite Nb. split; intros (c & E & A1 & A2); injection E as <-; [exists b'|exists b]; cbn in *; auto.
      * constructor; try reflexivity; [|exact (fun H => H)].
        intros j. cbn [d_bufs set_bufs say]. rewrite put_buf_nth. destruct (Nat.eqb_spec j i) as [->|Nj]; [rewrite Nb; reflexivity|reflexivity].
      * reflexivity.
      * reflexivity.
      * intros [j|j]; unfold rel_pts; rewrite H1; cbn; [|reflexivity]. rewrite put_buf_nth.
        destruct (Nat.eqb_spec j i) as [->|Nj]; [rewrite Nb; reflexivity|reflexivity].
    + rewrite app_nil_r. eexists. split; [reflexivity|].
      match goal with |- J _ ?w' /\ _ => destruct (own_call L w i b (mk_fb (fb_ref (b_fb b)) (hold_of (snd (L (Own i))) - 1) false (fb_released (b_fb b)) (fb_geo (b_fb b))) (rel_s (Own i)) I Nb) as (A1 & A2 & A3 & A4) end.
      * unfold own_ok, rel_s, with_fb. rewrite H1. cbn. repeat split; auto; try lia; discriminate.
      * cbn. congruence.
      * split; [exact A1|]. split; [exact A2|]. split; [exact A3|]. split; [reflexivity|]. intros h. unfold rel_pts.
        rewrite H1, andb_false_r. apply A4.
  - destruct (L (Pooled i)) as [r ph] eqn:E. cbn [fst snd] in *.
    destruct (pool_call L w i (FbRelease i) (rel_s (Pooled i)) r ph I E H) as (p & got & S & K).
    { intros u Nu. cbn [allowed]. rewrite Nu. assert (R : (0 <? r) = true) by lia. rewrite R.
      destruct ph as [|n|]; cbn in HL; try lia. cbn [andb]. eexists. split; [reflexivity|].
      f_equal. apply nth_ext_list. intros j. rewrite !update_nth. destruct (Nat.eqb_spec j i) as [->|]; [rewrite Nu|]; reflexivity. }
    { discriminate. }
    cbn [pool_step] in S. cbn [release]. destruct (release_to_pool (d_pool w) i) as [p'|] eqn:Q; [|discriminate].
    cbn [bind] in S. injection S as <- <-. cbn [bind]. destruct (K eq_refl) as [K1 K2].
    eexists. split; [reflexivity|]. split; [exact K1|]. split; [exact K2|]. split; [symmetry; apply app_nil_r|]. split; [reflexivity|].
    intros [j|j]; unfold rel_pts; cbn; [reflexivity|]. destruct (_ && _); reflexivity.
Qed.

Definition stuck (w : world) : Prop := d_alive w = false /\ d_side w <> [].

Lemma call_unref L w f : J L w -> alive_f L f w -> hold_of (snd (L f)) < fst (L f) ->
  match unref f w with
  | Fault e => e = UseAfterFree /\ stuck w
  | Ok w' => J (fupd L f unref_s) w' /\ kept w w' /\ d_log w' = d_log w /\ forall h, pts_of h w' = pts_of h w
  end.
Proof.
  intros I H HL. destruct f as [i|i]; cbn [alive_f] in H.
  - own_alive I H. unfold unref. cbn [call]. rewrite Nb. unfold nvnc_fb_unref. rewrite OF.
    destruct (fb_ref (b_fb b) =? 0) eqn:Z0; [lia|]. cbn [bind].
    set (x := mk_fb _ _ _ _ _). set (w1 := set_bufs _ w).
    assert (N1 : nth_error (d_bufs w1) i = Some (with_fb x b)).
    { cbn. rewrite put_buf_nth, Nat.eqb_refl, Nb. reflexivity. }
    rewrite N1. unfold with_fb at 1 2. cbn [b_fb b_side].
    assert (OK1 : own_ok (with_fb x b) (unref_s (L (Own i)))).
    { unfold own_ok, unref_s, with_fb, x. cbn. repeat split; auto; try lia. }
    assert (PT : forall h, pts_of h w1 = pts_of h w).
    { intros [j|j]; cbn; [|reflexivity]. rewrite put_buf_nth. destruct (Nat.eqb_spec j i) as [->|Nj]; [rewrite Nb; reflexivity|reflexivity]. }
    assert (SH : forall j, option_map shape (nth_error (d_bufs w1) j) = option_map shape (nth_error (d_bufs w) j)).
    { intros j. cbn. rewrite put_buf_nth. destruct (Nat.eqb_spec j i) as [->|Nj]; [rewrite Nb; reflexivity|reflexivity]. }
    assert (JJ : forall w2, d_bufs w2 = d_bufs w1 -> d_pool w2 = d_pool w -> d_alive w2 = d_alive w ->
      (forall j, In j (d_side w2) <-> exists b, nth_error (d_bufs w1) j = Some b /\ b_side b = true /\ fb_freed (b_fb b) = false) ->
      J (fupd L (Own i) unref_s) w2).
    { intros w2 E1 E2 E3 E4. constructor; rewrite ?E1, ?E2, ?E3.
      - intros j c. cbn [w1 d_bufs set_bufs]. unfold w1. cbn [d_bufs set_bufs]. rewrite put_buf_nth. unfold fupd. cbn [feqb]. destruct (Nat.eqb_spec j i) as [->|Nj].
        + rewrite Nb. intros E. injection E as <-. exact OK1.
        + intros E. apply (j_own _ _ I _ _ E).
      - intros j. unfold w1. cbn [d_bufs set_bufs]. rewrite put_buf_nth. unfold fupd. cbn [feqb]. destruct (Nat.eqb_spec j i) as [->|Nj].
        + rewrite Nb. discriminate.
        + apply (j_out _ _ I).
      - exact (j_pool _ _ I).
      - exact E4. }
    destruct (fb_freed x && b_side b) eqn:Fr.
    + apply andb_true_iff in Fr as [Fx Fs]. unfold side_remove. change (d_side w1) with (d_side w). change (d_alive w1) with (d_alive w).
      assert (In0 : In i (d_side w)). { apply (j_side _ _ I). exists b. rewrite OF. auto. }
      destruct (d_side w) as [|j0 rest] eqn:Ds; [contradiction|].
      assert (Dn : d_side w <> []) by congruence. rewrite <- Ds.
      destruct (Nat.eqb j0 i && negb (d_alive w)) eqn:Bad.
      * apply andb_true_iff in Bad as [_ Bad]. split; [reflexivity|]. split; [destruct (d_alive w); [discriminate|reflexivity]|exact Dn].
      * split; [|split; [|split; [reflexivity|exact PT]]].
        -- apply JJ; try reflexivity. intros j. cbn [set_side d_side]. rewrite filter_In, (j_side _ _ I j).
           unfold w1. cbn [d_bufs set_bufs]. rewrite put_buf_nth. destruct (Nat.eqb_spec j i) as [->|Nj].
           ++ split; [intros [_ X]; discriminate|]. rewrite Nb. intros (c & E & _ & F). injection E as <-. change (fb_freed x = false) in F. congruence.
           ++ cbn [negb]. split; [intros [X _]; exact X|intros X; split; [exact X|reflexivity]].
        -- constructor; try reflexivity; [exact SH|]. intros X. congruence.
    + split; [|split; [|split; [reflexivity|exact PT]]].
      * apply JJ; try reflexivity. intros j. change (d_side w1) with (d_side w). rewrite (j_side _ _ I j).
        unfold w1. cbn [d_bufs set_bufs]. rewrite put_buf_nth. destruct (Nat.eqb_spec j i) as [->|Nj]; [|reflexivity]. rewrite Nb.
        split; intros (c & E & A1 & A2); injection E as <-.
        -- exists (with_fb x b). cbn. split; [reflexivity|]. split; [exact A1|]. rewrite A1, andb_true_r in Fr. exact Fr.
        -- exists b. cbn in A1. split; [reflexivity|]. split; [exact A1|]. congruence.
      * constructor; try reflexivity; [exact SH|exact (fun X => X)].
  - destruct (L (Pooled i)) as [r ph] eqn:E. cbn [fst snd] in *.
    destruct (pool_call L w i (FbUnref i) unref_s r ph I E H) as (p & got & S & K).
    { intros u Nu. cbn [allowed]. rewrite Nu. assert (R : (0 <? r) = true) by lia. rewrite R. eexists. split; reflexivity. }
    { discriminate. }
    cbn [pool_step] in S. unfold unref. cbn [call]. destruct (on_fb (d_pool w) i nvnc_fb_unref) as [p'|] eqn:Q; [|discriminate].
    cbn [bind] in S. injection S as <- <-. cbn [bind]. destruct (K eq_refl) as [K1 K2].
    split; [exact K1|]. split; [exact K2|]. split; [reflexivity|]. intros [j|j]; reflexivity.
Qed.

(** ** Taking and giving back a frame *)

Lemma J_ext L L' w : (forall f, L f = L' f) -> J L w -> J L' w.
Proof.
  intros E I. constructor.
  - intros i b N. rewrite <- E. apply (j_own _ _ I _ _ N).
  - intros i N. rewrite <- E. apply (j_out _ _ I _ N).
  - destruct (j_pool _ _ I) as (u & A & B & C). exists u. split; [exact A|]. split; [exact B|]. intros i. rewrite <- E. apply C.
  - exact (j_side _ _ I).
Qed.

Lemma J_same L w w' : d_bufs w' = d_bufs w -> d_pool w' = d_pool w -> d_alive w' = d_alive w -> d_side w' = d_side w ->
  J L w -> J L w'.
Proof. intros E1 E2 E3 E4 I. constructor; rewrite ?E1, ?E2, ?E3, ?E4; apply I. Qed.

Lemma alive_pos L w f : J L w -> 0 < fst (L f) -> alive_f L f w.
Proof.
  intros I H. destruct f as [i|i]; cbn; [|exact H]. destruct (nth_error (d_bufs w) i) as [b|] eqn:N.
  - exists b. split; [reflexivity|]. destruct (b_owned b); cbn [oz]; lia.
  - rewrite (j_out _ _ I _ N) in H. cbn in H. lia.
Qed.

Definition take_s (s : Z * phase) := (fst s + 1, Held (hold_of (snd s) + 1)).
Definition drop_s (f : frame) (s : Z * phase) := unref_s (rel_s f s).

Lemma take_ok L w f : J L w -> alive_f L f w -> snd (L f) <> Returned -> hold_of (snd (L f)) <= fst (L f) ->
  exists w', (let* w := call nvnc_fb_ref f w in call nvnc_fb_hold f w) = Ok w' /\ J (fupd L f take_s) w' /\ kept w w' /\
             d_log w' = d_log w /\ forall h, pts_of h w' = pts_of h w.
Proof.
  intros I A R HL. destruct (call_ref L w f I A) as (w1 & E1 & I1 & K1 & L1 & P1). rewrite E1. cbn [bind].
  destruct (call_hold (fupd L f ref_s) w1 f I1) as (w2 & E2 & I2 & K2 & L2 & P2).
  - apply (alive_pos _ _ _ I1). rewrite fupd_same. cbn. pose proof (J_nonneg L w f I). lia.
  - rewrite fupd_same. exact R.
  - rewrite fupd_same. cbn. lia.
  - exists w2. split; [exact E2|]. split; [|split; [exact (kept_trans _ _ _ K1 K2)|split; [congruence|intros h; rewrite P2; apply P1]]].
    refine (J_ext _ _ _ _ I2). intros g.
    unfold fupd. destruct (feqb_spec g f) as [->|]; reflexivity.
Qed.

Lemma drop_ok L w f : J L w -> alive_f L f w -> 0 < hold_of (snd (L f)) <= fst (L f) ->
  match (let* w := release f w in unref f w) with
  | Fault e => e = UseAfterFree /\ stuck w
  | Ok w' => J (fupd L f (drop_s f)) w' /\ kept w w' /\ d_log w' = d_log w ++ rel_ev f (L f) /\
             forall h, pts_of h w' = rel_pts f (L f) h (pts_of h w)
  end.
Proof.
  intros I A H. destruct (call_release L w f I A (proj1 H)) as (w1 & E1 & I1 & K1 & L1 & S1 & P1). rewrite E1. cbn [bind].
  pose proof (call_unref (fupd L f (rel_s f)) w1 f I1) as Q.
  assert (A1 : alive_f (fupd L f (rel_s f)) f w1) by (apply (alive_pos _ _ _ I1); rewrite fupd_same; cbn; lia).
  assert (H1 : hold_of (snd (fupd L f (rel_s f) f)) < fst (fupd L f (rel_s f) f)).
  { rewrite fupd_same. unfold rel_s. cbn [fst snd]. destruct (hold_of (snd (L f)) =? 1) eqn:X; [destruct f; cbn; lia|cbn; lia]. }
  specialize (Q A1 H1). destruct (unref f w1) as [w2|e].
  - destruct Q as (I2 & K2 & L2 & P2). split; [|split; [exact (kept_trans _ _ _ K1 K2)|split; [congruence|intros h; rewrite P2; apply P1]]].
    refine (J_ext _ _ _ _ I2). intros g.
    unfold fupd. destruct (feqb_spec g f) as [->|]; reflexivity.
  - destruct Q as [-> [Q1 Q2]]. split; [reflexivity|]. split; [rewrite <- (k_alive _ _ K1); exact Q1|]. rewrite S1 in Q2. exact Q2.
Qed.

Definition old_L (L : ledger) (w : world) : ledger :=
  match d_shown w with Some g => fupd L g (drop_s g) | None => L end.
Definition old_ev (L : ledger) (w : world) : list event :=
  match d_shown w with Some g => rel_ev g (L g) | None => [] end.
Definition old_pts (L : ledger) (w : world) (h : frame) (p : option Z) : option Z :=
  match d_shown w with Some g => rel_pts g (L g) h p | None => p end.

Lemma old_ok L w : J L w -> (forall g, d_shown w = Some g -> 0 < hold_of (snd (L g)) <= fst (L g)) -> d_alive w = true ->
  exists w', match d_shown w with Some old => let* w := release old w in unref old w | None => Ok w end = Ok w' /\
    J (old_L L w) w' /\ kept w w' /\ d_log w' = d_log w ++ old_ev L w /\
    forall h, pts_of h w' = old_pts L w h (pts_of h w).
Proof.
  intros I S A. unfold old_L, old_ev, old_pts. destruct (d_shown w) as [g|] eqn:E.
  - specialize (S g eq_refl). assert (Ag : alive_f L g w) by (apply alive_pos; [exact I|lia]).
    pose proof (drop_ok L w g I Ag S) as Q. destruct (let* w0 := release g w in unref g w0) as [w'|e].
    + exists w'. split; [reflexivity|]. exact Q.
    + destruct Q as [_ [Q _]]. congruence.
  - exists w. rewrite app_nil_r. auto using kept_refl.
Qed.

Lemma alive_shape L L' f w w' : (forall i, option_map shape (nth_error (d_bufs w') i) = option_map shape (nth_error (d_bufs w) i)) ->
  fst (L' f) = fst (L f) -> alive_f L f w -> alive_f L' f w'.
Proof.
  intros K E. destruct f as [i|i]; cbn; [|lia]. intros (b & N & P).
  pose proof (K i) as Sh. rewrite N in Sh. destruct (nth_error (d_bufs w') i) as [b'|] eqn:N'; [|discriminate].
  exists b'. split; [reflexivity|]. unfold shape in Sh. cbn in Sh. assert (O : b_owned b' = b_owned b) by congruence. rewrite O, E. exact P.
Qed.

Lemma on_done_ok L w n f : J L w -> (forall g, d_shown w = Some g -> 0 < hold_of (snd (L g)) <= fst (L g)) -> d_alive w = true ->
  alive_f (old_L L w) f w -> snd (old_L L w f) <> Returned -> hold_of (snd (old_L L w f)) <= fst (old_L L w f) ->
  exists w', on_done n f w = Ok w' /\ J (fupd (old_L L w) f take_s) w' /\ kept (set_shown (Some f) w) w' /\
    d_log w' = d_log w ++ old_ev L w ++ [Show n f (old_pts L w f (pts_of f w))].
Proof.
  intros I S A Af R H. unfold on_done. rewrite A. cbn [negb].
  destruct (old_ok L w I S A) as (w1 & E1 & I1 & K1 & L1 & P1). rewrite E1. cbn [bind].
  assert (I2 : J (old_L L w) (set_shown (Some f) w1)) by (apply (J_same _ w1); auto).
  assert (A2 : alive_f (old_L L w) f (set_shown (Some f) w1)).
  { apply (alive_shape (old_L L w) (old_L L w) f w); auto. apply (k_shape _ _ K1). }
  destruct (take_ok _ _ f I2 A2 R H) as (w3 & E3 & I3 & K3 & L3 & P3).
  destruct (call nvnc_fb_ref f (set_shown (Some f) w1)) as [w2|] eqn:E2; [|discriminate]. cbn [bind] in E3 |- *. rewrite E3. cbn [bind].
  eexists. split; [reflexivity|]. split; [apply (J_same _ w3); auto|].
  assert (K4 : kept (set_shown (Some f) w) (set_shown (Some f) w1)).
  { destruct K1. constructor; auto. }
  assert (K5 := kept_trans _ _ _ K4 K3). split; [destruct K5; constructor; auto|].
  cbn [say d_log]. rewrite L3. cbn [set_shown d_log]. rewrite L1, <- app_assoc. f_equal. f_equal. rewrite P3.
  change (pts_of f (set_shown (Some f) w1)) with (pts_of f w1). rewrite P1. reflexivity.
Qed.

Lemma work_free_ok L w k : J L w -> 0 < hold_of (snd (L (Own (k_src k)))) <= fst (L (Own (k_src k))) ->
  hold_of (snd (L (Pooled (k_dst k)))) < fst (L (Pooled (k_dst k))) ->
  match work_free k w with
  | Fault e => e = UseAfterFree /\ stuck w
  | Ok w' => J (fupd (fupd L (Own (k_src k)) (drop_s (Own (k_src k)))) (Pooled (k_dst k)) unref_s) w' /\ kept w w' /\
             d_log w' = d_log w ++ rel_ev (Own (k_src k)) (L (Own (k_src k)))
  end.
Proof.
  intros I H1 H2. unfold work_free.
  assert (A1 : alive_f L (Own (k_src k)) w) by (apply alive_pos; [exact I|lia]).
  pose proof (drop_ok L w _ I A1 H1) as Q. destruct (release (Own (k_src k)) w) as [w1|e]; cbn [bind] in Q |- *; [|exact Q].
  destruct (unref (Own (k_src k)) w1) as [w2|e]; cbn [bind]; [|exact Q]. destruct Q as (I2 & K2 & L2 & P2).
  pose proof (call_unref _ w2 (Pooled (k_dst k)) I2) as Q.
  assert (E : fupd L (Own (k_src k)) (drop_s (Own (k_src k))) (Pooled (k_dst k)) = L (Pooled (k_dst k))) by reflexivity.
  rewrite E in Q. pose proof (J_nonneg _ _ (Pooled (k_dst k)) I).
  assert (A2 : alive_f (fupd L (Own (k_src k)) (drop_s (Own (k_src k)))) (Pooled (k_dst k)) w2) by (apply (alive_pos _ _ _ I2); rewrite E; lia).
  specialize (Q A2 H2).
  destruct (unref (Pooled (k_dst k)) w2) as [w3|e] eqn:U.
  - destruct Q as (I3 & K3 & L3 & _). split; [exact I3|]. split; [exact (kept_trans _ _ _ K2 K3)|congruence].
  - exfalso. revert U. unfold unref. cbn [call]. destruct Q as [-> [Qa Qb]]. intros U.
    destruct (call_ref _ w2 (Pooled (k_dst k)) I2 A2) as (wx & Ex & _). cbn [call] in Ex.
    unfold on_fb in *. destruct (nth_error (w_heap (d_pool w2)) (k_dst k)) as [x|]; [|discriminate].
    unfold nvnc_fb_ref, nvnc_fb_unref in *. destruct (fb_freed x); cbn in *; discriminate.
Qed.

(** ** The invariant *)

Definition b2 (f g : frame) : Z := oz (feqb f g).
Definition kw (f : frame) (k : work) : Z := b2 f (Own (k_src k)) + b2 f (Pooled (k_dst k)).
Definition su (f : frame) (w : world) : Z := match d_shown w with Some g => b2 f g | None => 0 end.
Definition eu (f : frame) (w : world) : Z := wsum (b2 f) (d_users w).
Definition ku (f : frame) (w : world) : Z := wsum (kw f) (d_works w).
Definition hu (f : frame) (w : world) : Z := su f w + eu f w.

Lemma b2_range f g : 0 <= b2 f g <= 1. Proof. unfold b2, oz. destruct (feqb f g); lia. Qed.
Lemma b2_refl f : b2 f f = 1. Proof. unfold b2. rewrite feqb_refl. reflexivity. Qed.
Lemma b2_neq f g : f <> g -> b2 f g = 0. Proof. unfold b2. destruct (feqb_spec f g); [contradiction|reflexivity]. Qed.
Lemma kw_nonneg f k : 0 <= kw f k.
Proof. unfold kw. pose proof (b2_range f (Own (k_src k))). pose proof (b2_range f (Pooled (k_dst k))). lia. Qed.
Lemma su_range f w : 0 <= su f w <= 1. Proof. unfold su. destruct (d_shown w); [apply b2_range|lia]. Qed.
Lemma eu_nonneg f w : 0 <= eu f w. Proof. apply wsum_nonneg. intros x. apply b2_range. Qed.
Lemma ku_nonneg f w : 0 <= ku f w. Proof. apply wsum_nonneg. intros x. apply kw_nonneg. Qed.

Definition fair1 (f : frame) (s : Z * phase) (h k : Z) : Prop :=
  match f with
  | Own _ => fst s = h + k /\ hold_of (snd s) = h + k
  | Pooled _ => fst s = h + k /\ hold_of (snd s) = h /\ (0 < k -> k = 1 /\ snd s = Acquired) /\ (snd s = Returned -> fst s = 0)
  end.
Definition fair (L : ledger) (h k : frame -> Z) : Prop := forall f, fair1 f (L f) (h f) (k f).

Definition D (w : world) : Prop :=
  (exists L, J L w /\ fair L (fun f => hu f w) (fun f => ku f w)) /\ (d_alive w = false -> d_shown w = None).

Lemma fair_ext L h k h' k' : (forall f, h f = h' f) -> (forall f, k f = k' f) -> fair L h k -> fair L h' k'.
Proof. intros E1 E2 F f. rewrite <- E1, <- E2. apply F. Qed.

Lemma fair_drop L h k g : fair L h k -> 0 <= k g -> (0 < h g \/ (0 <= h g /\ 0 < k g /\ exists i, g = Own i)) ->
  fair (fupd L g (drop_s g)) (fun f => if 0 <? h g then h f - b2 f g else h f) (fun f => if 0 <? h g then k f else k f - b2 f g).
Proof.
  intros F Hk Hh f. pose proof (F f) as Ff. unfold fupd. destruct (feqb_spec f g) as [->|N].
  - rewrite !b2_refl. destruct g as [i|i]; cbn [fair1] in *.
    + destruct Ff as [A B]. unfold drop_s, unref_s, rel_s. cbn [fst snd].
      destruct (hold_of (snd (L (Own i))) =? 1) eqn:H1; cbn [hold_of]; destruct (0 <? h (Own i)) eqn:H0; lia.
    + assert (P : 0 < h (Pooled i)) by (destruct Hh as [X|(_ & _ & j & X)]; [exact X|discriminate]).
      destruct (0 <? h (Pooled i)) eqn:H0; [|lia]. destruct Ff as (A & B & C & E).
      assert (K0 : k (Pooled i) = 0).
      { destruct (Z.eq_dec (k (Pooled i)) 0) as [X|X]; [exact X|]. destruct (C ltac:(lia)) as [_ Q]. rewrite Q in B. cbn in B. lia. }
      unfold drop_s, unref_s, rel_s. cbn [fst snd].
      destruct (hold_of (snd (L (Pooled i))) =? 1) eqn:H1; cbn [hold_of]; repeat split; try lia; discriminate.
  - rewrite !b2_neq by congruence. destruct (0 <? h g); rewrite ?Z.sub_0_r; exact Ff.
Qed.

Lemma fair_shown L w g : J L w -> fair L (fun f => hu f w) (fun f => ku f w) -> d_shown w = Some g ->
  0 < hold_of (snd (L g)) <= fst (L g).
Proof.
  intros I F E. specialize (F g). assert (S1 : su g w = 1) by (unfold su; rewrite E; apply b2_refl).
  pose proof (eu_nonneg g w). pose proof (ku_nonneg g w). unfold hu in F. destruct g as [i|i]; cbn [fair1] in F; lia.
Qed.

Lemma fair_user L w g : J L w -> fair L (fun f => hu f w) (fun f => ku f w) -> In g (d_users w) ->
  0 < hold_of (snd (L g)) <= fst (L g).
Proof.
  intros I F E. specialize (F g). assert (S1 : 1 <= eu g w).
  { rewrite <- (b2_refl g). apply (wsum_in (b2 g)); [intros x; apply b2_range|exact E]. }
  pose proof (su_range g w). pose proof (ku_nonneg g w). unfold hu in F. destruct g as [i|i]; cbn [fair1] in F; lia.
Qed.

Lemma fair_old L w : J L w -> fair L (fun f => hu f w) (fun f => ku f w) ->
  fair (old_L L w) (fun f => eu f w) (fun f => ku f w).
Proof.
  intros I F. unfold old_L. destruct (d_shown w) as [g|] eqn:E.
  - pose proof (fair_drop L _ _ g F (ku_nonneg g w)) as Q. cbn beta in Q.
    assert (P : 0 < hu g w) by (unfold hu, su; rewrite E, b2_refl; pose proof (eu_nonneg g w); lia).
    specialize (Q (or_introl P)). destruct (0 <? hu g w) eqn:X; [|lia]. revert Q. apply fair_ext; intros f; [|reflexivity].
    unfold hu, su. rewrite E. lia.
  - revert F. apply fair_ext; intros f; [|reflexivity]. unfold hu, su. rewrite E. lia.
Qed.

Lemma old_not_returned L w i : J L w -> snd (L (Own i)) <> Returned -> snd (old_L L w (Own i)) <> Returned.
Proof.
  intros I H. unfold old_L. destruct (d_shown w) as [g|]; [|exact H]. unfold fupd. destruct (feqb_spec (Own i) g) as [<-|]; [|exact H].
  unfold drop_s, unref_s, rel_s. cbn [fst snd]. destruct (_ =? 1); discriminate.
Qed.

Lemma J_own_phase L w i : J L w -> snd (L (Own i)) <> Returned.
Proof.
  intros I. destruct (nth_error (d_bufs w) i) as [b|] eqn:N.
  - apply (j_own _ _ I _ _ N).
  - rewrite (j_out _ _ I _ N). discriminate.
Qed.

(** The log of one step as it concerns the buffers of the application. *)
Definition rz (i : nat) (l : list event) : Z := Z.of_nat (releases i l).
Lemma rz_app i l m : rz i (l ++ m) = rz i l + rz i m.
Proof. unfold rz. induction l as [|[j|n f p] l IH]; cbn [app releases]; [lia|destruct (Nat.eqb i j); lia|exact IH]. Qed.
Lemma shows_app l m : shows (l ++ m) = shows l ++ shows m.
Proof. induction l as [|[j|n f p] l IH]; cbn [app shows]; [reflexivity|exact IH|f_equal; exact IH]. Qed.
Definition uz (i : nat) (w : world) : Z := hu (Own i) w + ku (Own i) w.
Lemma rz_ev i g s : rz i (rel_ev g s) = if feqb (Own i) g && (hold_of (snd s) =? 1) then 1 else 0.
Proof.
  destruct g as [j|j]; cbn [rel_ev feqb]; [|reflexivity]. destruct (hold_of (snd s) =? 1); cbn [rz releases andb].
  - unfold rz. cbn [releases]. destruct (Nat.eqb i j); reflexivity.
  - rewrite andb_false_r. reflexivity.
Qed.
Lemma shows_ev g s : shows (rel_ev g s) = [].
Proof. destruct g as [j|j]; cbn; [destruct (_ =? 1); reflexivity|reflexivity]. Qed.

Definition moved (w w' : world) (special : nat -> Prop) (new : list nat) : Prop :=
  D w' /\ exists l, d_log w' = d_log w ++ l /\
    (forall i, ~ special i -> rz i l = if (0 <? uz i w) && (uz i w' =? 0) then 1 else 0) /\
    Permutation (pending w' ++ shows l) (pending w ++ new).

Lemma rz0 (a b : Z) : 0 <= a <= b -> 0 = if (0 <? a) && (b =? 0) then 1 else 0.
Proof. intros H. destruct (0 <? a) eqn:Q1, (b =? 0) eqn:Q2; cbn; lia. Qed.

Lemma uz_nonneg i w : 0 <= uz i w.
Proof. unfold uz, hu. pose proof (su_range (Own i) w). pose proof (eu_nonneg (Own i) w). pose proof (ku_nonneg (Own i) w). lia. Qed.

Lemma fair_take_own L h k i : fair L h k -> fair (fupd L (Own i) take_s) (fun f => h f + b2 f (Own i)) k.
Proof.
  intros F f. specialize (F f). unfold fupd. destruct (feqb_spec f (Own i)) as [->|N].
  - rewrite b2_refl. cbn in *. lia.
  - rewrite b2_neq, Z.add_0_r by exact N. exact F.
Qed.

Lemma feed_upright w i b n : D w -> d_alive w = true -> nth_error (d_bufs w) i = Some b -> b_owned b = true ->
  exists w', on_done n (Own i) w = Ok w' /\
    moved w w' (fun j => j = i /\ d_shown w = Some (Own i)) [n] /\
    d_works w' = d_works w /\ d_fed w' = d_fed w /\ d_alive w' = true /\
    (exists l, d_log w' = d_log w ++ l ++ [Show n (Own i) (if (match d_shown w with Some g => feqb (Own i) g | None => false end) && (uz i w =? 1) then None else b_pts b)] /\ shows l = []) /\
    (d_side w = [] -> d_side w' = []).
Proof.
  intros [(L & I & F) DA] A Nb O. pose proof (j_own _ _ I _ _ Nb) as OK. pose proof (fair_old L w I F) as FO.
  destruct (on_done_ok L w n (Own i) I (fun g => fair_shown L w g I F) A) as (w' & E & I' & K & Lg).
  - cbn. exists b. split; [exact Nb|]. rewrite O. cbn [oz]. pose proof (FO (Own i)) as [X _].
    pose proof (eu_nonneg (Own i) w). pose proof (ku_nonneg (Own i) w). lia.
  - apply old_not_returned; [exact I|]. exact (J_own_phase L w i I).
  - destruct (FO (Own i)) as [X Y]. lia.
  - exists w'. split; [exact E|].
    assert (FN : fair (fupd (old_L L w) (Own i) take_s) (fun f => hu f w') (fun f => ku f w')).
    { generalize (fair_take_own _ _ _ i FO). apply fair_ext; intros f.
      - unfold hu, su, eu. rewrite (k_shown _ _ K), (k_users _ _ K). cbn [d_shown d_users set_shown]. lia.
      - unfold ku. rewrite (k_works _ _ K). reflexivity. }
    split; [split|split; [exact (k_works _ _ K)|split; [exact (k_fed _ _ K)|split; [rewrite (k_alive _ _ K); exact A|]]]].
    + split; [exists (fupd (old_L L w) (Own i) take_s); auto|]. intros X. rewrite (k_alive _ _ K) in X. cbn in X. congruence.
    + eexists. split; [exact Lg|]. split.
      * intros j Sp. rewrite rz_app. change (rz j [Show n (Own i) _]) with 0.
        assert (U' : uz j w' = uz j w - su (Own j) w + b2 (Own j) (Own i)).
        { unfold uz, hu, su, eu, ku. rewrite (k_shown _ _ K), (k_users _ _ K), (k_works _ _ K). cbn [d_shown d_users d_works set_shown]. lia. }
        unfold old_ev. destruct (d_shown w) as [g|] eqn:Sg.
        -- rewrite rz_ev. unfold su in U'. rewrite Sg in U'. unfold b2 at 1 in U'.
           destruct (feqb_spec (Own j) g) as [<-|Ng]; cbn [andb oz] in *.
           ++ destruct (F (Own j)) as [_ X]. fold (uz j w) in X. rewrite X.
              assert (j <> i) by (intros ->; apply Sp; auto). rewrite b2_neq in U' by congruence.
              pose proof (uz_nonneg j w). destruct (uz j w =? 1) eqn:Q1, (0 <? uz j w) eqn:Q2, (uz j w' =? 0) eqn:Q3; cbn; lia.
           ++ pose proof (b2_range (Own j) (Own i)). destruct (0 <? uz j w) eqn:Q2, (uz j w' =? 0) eqn:Q3; cbn; lia.
        -- cbn [rz releases]. unfold su in U'. rewrite Sg in U'. pose proof (b2_range (Own j) (Own i)).
           change (rz j []) with 0. destruct (0 <? uz j w) eqn:Q2, (uz j w' =? 0) eqn:Q3; cbn; lia.
      * unfold pending. rewrite (k_works _ _ K). cbn [d_works set_shown]. rewrite shows_app.
        assert (X : shows (old_ev L w) = []) by (unfold old_ev; destruct (d_shown w); [apply shows_ev|reflexivity]).
        rewrite X. reflexivity.
    + split; [|exact (k_side _ _ K)]. exists (old_ev L w). split.
      * rewrite Lg. f_equal. f_equal. f_equal. f_equal. cbn [pts_of]. rewrite Nb. unfold old_pts. destruct (d_shown w) as [g|]; [|reflexivity].
        unfold rel_pts. destruct (feqb_spec (Own i) g) as [<-|]; [|reflexivity]. destruct (F (Own i)) as [_ X]. rewrite X. reflexivity.
      * unfold old_ev; destruct (d_shown w); [apply shows_ev|reflexivity].
Qed.

Lemma encode_ok w f : D w -> d_alive w = true -> d_shown w = Some f ->
  exists w', (let* w := call nvnc_fb_ref f w in let* w := call nvnc_fb_hold f w in Ok (set_users (d_users w ++ [f]) w)) = Ok w' /\
    moved w w' (fun _ => False) [] /\ d_works w' = d_works w /\ d_fed w' = d_fed w /\ d_alive w' = true /\ d_log w' = d_log w /\ (d_side w = [] -> d_side w' = []).
Proof.
  intros [(L & I & F) DA] A S. pose proof (fair_shown L w f I F S) as Hs.
  destruct (take_ok L w f I) as (w1 & E1 & I1 & K1 & L1 & P1).
  - apply alive_pos; [exact I|lia].
  - intros X. rewrite X in Hs. cbn in Hs. lia.
  - lia.
  - destruct (call nvnc_fb_ref f w) as [w0|]; [|discriminate]. cbn [bind] in E1 |- *. rewrite E1. cbn [bind].
    eexists. split; [reflexivity|].
    set (w' := set_users _ w1).
    assert (HU : forall g, hu g w' = hu g w + b2 g f).
    { intros g. unfold hu, su, eu, w'. cbn [d_shown d_users set_users]. rewrite (k_shown _ _ K1), (k_users _ _ K1), wsum_app, wsum_cons. cbn [wsum fold_right]. lia. }
    assert (KU : forall g, ku g w' = ku g w).
    { intros g. unfold ku, w'. cbn [d_works set_users]. rewrite (k_works _ _ K1). reflexivity. }
    split; [split|split; [exact (k_works _ _ K1)|split; [exact (k_fed _ _ K1)|split; [|split; [exact L1|exact (k_side _ _ K1)]]]]].
    + split; [|intros X; cbn in X; rewrite (k_alive _ _ K1) in X; congruence].
      exists (fupd L f take_s). split; [apply (J_same _ w1); auto|]. intros g. rewrite HU, KU.
      unfold fupd. destruct (feqb_spec g f) as [->|N]; [|rewrite b2_neq, Z.add_0_r by exact N; apply F].
      rewrite b2_refl. pose proof (F f) as Ff. destruct f as [j|j]; cbn in *; [lia|]. destruct Ff as (X1 & X2 & X3 & X4).
      split; [lia|]. split; [lia|]. split; [|discriminate]. intros Kp. destruct (X3 Kp) as [_ Q]. rewrite Q in Hs. cbn in Hs. lia.
    + exists []. split; [rewrite app_nil_r; exact L1|]. split.
      * intros j _. change (rz j []) with 0. unfold uz. rewrite HU, KU. pose proof (b2_range (Own j) f). pose proof (uz_nonneg j w). unfold uz in *.
        destruct (0 <? _) eqn:Q1, (_ =? 0) eqn:Q2; cbn; lia.
      * unfold pending, w'. cbn [d_works set_users]. rewrite (k_works _ _ K1). reflexivity.
    + cbn. rewrite (k_alive _ _ K1). exact A.
Qed.

Lemma encoded_ok w n f : D w -> nth_error (d_users w) n = Some f ->
  match (let* w := release f (set_users (without n (d_users w)) w) in unref f w) with
  | Fault e => e = UseAfterFree /\ stuck w
  | Ok w' => moved w w' (fun _ => False) [] /\ d_works w' = d_works w /\ d_fed w' = d_fed w /\ d_alive w' = d_alive w /\ (d_side w = [] -> d_side w' = []) /\
             exists l, d_log w' = d_log w ++ l /\ shows l = []
  end.
Proof.
  intros [(L & I & F) DA] S. set (w0 := set_users _ w).
  assert (I0 : J L w0) by (apply (J_same _ w); auto).
  pose proof (fair_user L w f I F (nth_error_In _ _ S)) as Hs.
  assert (Hp : 0 < fst (L f)) by lia.
  pose proof (drop_ok L w0 f I0 (alive_pos L w0 f I0 Hp) Hs) as Q.
  destruct (let* w := release f w0 in unref f w) as [w'|e]; [|exact Q]. destruct Q as (I1 & K1 & L1 & _).
  assert (HU : forall g, hu g w' = hu g w - b2 g f).
  { intros g. unfold hu, su, eu. rewrite (k_shown _ _ K1), (k_users _ _ K1). unfold w0. cbn [d_users d_shown set_users].
    rewrite (wsum_without (b2 g) _ _ _ S). lia. }
  assert (KU : forall g, ku g w' = ku g w) by (intros g; unfold ku; rewrite (k_works _ _ K1); reflexivity).
  assert (EU : 1 <= hu f w). { unfold hu. pose proof (su_range f w). assert (1 <= eu f w); [|lia]. rewrite <- (b2_refl f).
    apply (wsum_in (b2 f)); [intros x; apply b2_range|exact (nth_error_In _ _ S)]. }
  split; [split|split; [exact (k_works _ _ K1)|split; [exact (k_fed _ _ K1)|split; [exact (k_alive _ _ K1)|split; [exact (k_side _ _ K1)|]]]]].
  - split; [|intros X; rewrite (k_alive _ _ K1) in X; rewrite (k_shown _ _ K1); exact (DA X)].
    exists (fupd L f (drop_s f)). split; [exact I1|].
    assert (EU0 : 0 < hu f w) by lia.
    pose proof (fair_drop L _ _ f F (ku_nonneg f w) (or_introl EU0)) as FD. cbn beta in FD.
    destruct (0 <? hu f w) eqn:Z0; [|lia]. revert FD. apply fair_ext; intros g; [symmetry; apply HU|symmetry; apply KU].
  - exists (rel_ev f (L f)). split; [exact L1|]. split.
    + intros j _. rewrite rz_ev. unfold uz. rewrite HU, KU. unfold b2 at 1. pose proof (uz_nonneg j w) as Uj. unfold uz in Uj.
      destruct (feqb_spec (Own j) f) as [<-|N]; cbn [andb oz].
      * destruct (F (Own j)) as [_ X]. rewrite X. destruct (_ =? 1) eqn:Q1, (0 <? _) eqn:Q2, (_ =? 0) eqn:Q3; cbn; lia.
      * destruct (0 <? _) eqn:Q2, (_ =? 0) eqn:Q3; cbn; lia.
    + unfold pending. rewrite (k_works _ _ K1), shows_ev. reflexivity.
  - exists (rel_ev f (L f)). split; [exact L1|apply shows_ev].
Qed.

Lemma perm_without {A} (g : A -> nat) l n k : nth_error l n = Some k -> Permutation (map g (without n l) ++ [g k]) (map g l).
Proof.
  intros E. destruct (without_split l n k E) as (a & b & -> & ->). rewrite !map_app. cbn [map]. rewrite <- app_assoc.
  apply Permutation_app_head. apply Permutation_sym, Permutation_cons_append.
Qed.

Lemma done_ok w n k : D w -> nth_error (d_works w) n = Some k -> d_alive w = true ->
  exists w', (let* w := on_done (k_no k) (Pooled (k_dst k)) (set_works (without n (d_works w)) w) in work_free k w) = Ok w' /\
    moved w w' (fun _ => False) [] /\ d_works w' = without n (d_works w) /\ d_fed w' = d_fed w /\ d_alive w' = true /\
    (exists l m, d_log w' = d_log w ++ l ++ [Show (k_no k) (Pooled (k_dst k)) None] ++ m /\ shows l = [] /\ shows m = []) /\
    d_shown w' = Some (Pooled (k_dst k)) /\ (d_side w = [] -> d_side w' = []).
Proof.
  intros [(L & I & F) DA] N A. set (w0 := set_works _ w).
  assert (I0 : J L w0) by (apply (J_same _ w); auto). pose proof (fair_old L w I F) as FO.
  assert (KW : forall f, kw f k <= ku f w).
  { intros f. apply (wsum_in (kw f)); [intros x; apply kw_nonneg|exact (nth_error_In _ _ N)]. }
  assert (Ks : kw (Own (k_src k)) k = 1) by (unfold kw; rewrite b2_refl, b2_neq by discriminate; lia).
  assert (Kd : kw (Pooled (k_dst k)) k = 1) by (unfold kw; rewrite b2_refl, b2_neq by discriminate; lia).
  pose proof (KW (Own (k_src k))) as KWs. pose proof (KW (Pooled (k_dst k))) as KWd.
  pose proof (FO (Pooled (k_dst k))) as Fd. cbn [fair1] in Fd. destruct Fd as (Fd1 & Fd2 & Fd3 & Fd4).
  destruct (Fd3 ltac:(lia)) as [Fd5 Fd6].
  assert (E0 : eu (Pooled (k_dst k)) w = 0) by (rewrite <- Fd2, Fd6; reflexivity).
  destruct (on_done_ok L w0 (k_no k) (Pooled (k_dst k)) I0 (fun g => fair_shown L w g I F) A) as (w1 & E1 & I1 & K1 & L1).
  - cbn. change (old_L L w0) with (old_L L w). lia.
  - change (old_L L w0) with (old_L L w). rewrite Fd6. discriminate.
  - change (old_L L w0) with (old_L L w). lia.
  - rewrite E1. cbn [bind]. change (old_L L w0) with (old_L L w) in *. change (old_ev L w0) with (old_ev L w) in *.
    change (d_log w0) with (d_log w) in *.
    pose proof (FO (Own (k_src k))) as [Fs1 Fs2]. pose proof (eu_nonneg (Own (k_src k)) w) as EN.
    set (L' := fupd (old_L L w) (Pooled (k_dst k)) take_s) in *.
    assert (Ls : L' (Own (k_src k)) = old_L L w (Own (k_src k))) by reflexivity.
    assert (Ld : L' (Pooled (k_dst k)) = (2, Held 1)).
    { unfold L'. rewrite fupd_same. unfold take_s. rewrite Fd1, Fd6, E0, Fd5. reflexivity. }
    pose proof (work_free_ok L' w1 k I1) as Q. rewrite Ls, Ld in Q. specialize (Q ltac:(lia) ltac:(cbn; lia)).
    destruct (work_free k w1) as [w2|e]; [|destruct Q as [_ [Q _]]; rewrite (k_alive _ _ K1) in Q; cbn in Q; congruence].
    destruct Q as (I2 & K2 & L2). exists w2. split; [reflexivity|].
    assert (HU : forall f, hu f w2 = b2 f (Pooled (k_dst k)) + eu f w).
    { intros f. unfold hu, su, eu. rewrite (k_shown _ _ K2), (k_users _ _ K2), (k_shown _ _ K1), (k_users _ _ K1). reflexivity. }
    assert (KU : forall f, ku f w2 = ku f w - kw f k).
    { intros f. unfold ku. rewrite (k_works _ _ K2), (k_works _ _ K1). unfold w0. cbn [d_works set_shown set_works]. apply (wsum_without (kw f)). exact N. }
    assert (WK : d_works w2 = without n (d_works w)) by (rewrite (k_works _ _ K2), (k_works _ _ K1); reflexivity).
    assert (AL : d_alive w2 = true) by (rewrite (k_alive _ _ K2), (k_alive _ _ K1); exact A).
    assert (SO : shows (old_ev L w) = []) by (unfold old_ev; destruct (d_shown w); [apply shows_ev|reflexivity]).
    split; [split|].
    + split; [|intros X; congruence]. eexists. split; [exact I2|]. intros [j|j]; rewrite HU, KU.
      * unfold fupd at 1. cbn [feqb]. unfold fupd. destruct (feqb_spec (Own j) (Own (k_src k))) as [E|Nj].
        -- injection E as ->. rewrite Ls. cbn [fair1]. rewrite Ks, b2_neq by discriminate.
           unfold drop_s, unref_s, rel_s. cbn [fst snd]. destruct (hold_of _ =? 1) eqn:H1; cbn [hold_of]; lia.
        -- unfold kw. rewrite !b2_neq by (discriminate || exact Nj). rewrite Z.add_0_l, Z.sub_0_r. exact (FO (Own j)).
      * unfold fupd at 1. destruct (feqb_spec (Pooled j) (Pooled (k_dst k))) as [E|Nj].
        -- injection E as ->. unfold fupd at 1. cbn [feqb]. rewrite Ld, b2_refl, Kd, E0, Fd5. cbn. repeat split; try lia; discriminate.
        -- unfold fupd at 1. cbn [feqb]. unfold kw. rewrite !b2_neq by (discriminate || exact Nj). rewrite Z.add_0_l, Z.sub_0_r.
           unfold L', fupd. destruct (feqb_spec (Pooled j) (Pooled (k_dst k))) as [E|_]; [contradiction|]. exact (FO (Pooled j)).
    + eexists. split; [rewrite L2, L1, <- app_assoc; reflexivity|]. split.
      * intros j _. rewrite !rz_app. change (rz j [Show _ _ _]) with 0. rewrite rz_ev.
        assert (U' : uz j w2 = uz j w - su (Own j) w - b2 (Own j) (Own (k_src k))).
        { unfold uz. rewrite HU, KU. unfold hu, kw. rewrite !(b2_neq (Own j) (Pooled _)) by discriminate. lia. }
        assert (UB : su (Own j) w + b2 (Own j) (Own (k_src k)) <= uz j w).
        { pose proof (KW (Own j)) as X. unfold kw in X. rewrite !(b2_neq (Own j) (Pooled _)) in X by discriminate.
          unfold uz, hu. pose proof (eu_nonneg (Own j) w). lia. }
        assert (RO : rz j (old_ev L w) = if (su (Own j) w =? 1) && (uz j w =? 1) then 1 else 0).
        { unfold old_ev, su. destruct (d_shown w) as [g|]; [|reflexivity]. rewrite rz_ev. unfold b2.
          destruct (feqb_spec (Own j) g) as [<-|]; cbn [oz andb]; [|reflexivity]. destruct (F (Own j)) as [_ X].
          fold (uz j w) in X. rewrite X. reflexivity. }
        rewrite RO. pose proof (su_range (Own j) w). unfold b2 in U', UB.
        destruct (feqb_spec (Own j) (Own (k_src k))) as [E|Nj]; cbn [oz andb] in *.
        -- injection E as <-. assert (X : hold_of (snd (old_L L w (Own j))) = uz j w - su (Own j) w).
           { destruct (FO (Own j)) as [_ X]. rewrite X. unfold uz, hu. lia. }
           rewrite X. destruct (su (Own j) w =? 1) eqn:Q1, (uz j w =? 1) eqn:Q2, (_ - _ =? 1) eqn:Q3, (0 <? uz j w) eqn:Q4, (uz j w2 =? 0) eqn:Q5; cbn; lia.
        -- destruct (su (Own j) w =? 1) eqn:Q1, (uz j w =? 1) eqn:Q2, (0 <? uz j w) eqn:Q4, (uz j w2 =? 0) eqn:Q5; cbn; lia.
      * rewrite !shows_app, SO, shows_ev. cbn [shows app]. rewrite app_nil_r. unfold pending. rewrite WK. apply perm_without. exact N.
    + split; [exact WK|]. split; [rewrite (k_fed _ _ K2), (k_fed _ _ K1); reflexivity|]. split; [exact AL|].
      split; [|split; [rewrite (k_shown _ _ K2), (k_shown _ _ K1); reflexivity|intros X; apply (k_side _ _ K2), (k_side _ _ K1), X]].
      exists (old_ev L w), (rel_ev (Own (k_src k)) (old_L L w (Own (k_src k)))). split; [|split; [exact SO|apply shows_ev]].
      rewrite L2, L1, <- !app_assoc. f_equal. f_equal. f_equal. f_equal. unfold old_pts. destruct (d_shown w0) as [g|]; [|reflexivity].
      unfold rel_pts. cbn. destruct (_ && _); reflexivity.
Qed.

(** ** The resampler's pool *)

Lemma J_resize L w g : J L w -> d_alive w = true -> exists p, pool_resize (d_pool w) g = Ok p /\ J L (set_pool p w).
Proof.
  intros I A. destruct (j_pool _ _ I) as (u & U & Up & Ul). rewrite A in Up. cbn in Up.
  destruct (step_inv _ _ (Resize g) U) as (p & got & S & _ & Si).
  { cbn. rewrite Up. discriminate. }
  cbn [pool_step] in S. destruct (pool_resize (d_pool w) g) as [p'|]; [|discriminate]. cbn [bind] in S. injection S as <- <-.
  exists p'. split; [reflexivity|]. specialize (Si (mk_u (u_pool u) g (u_fbs u))). cbn [allowed] in Si. rewrite Up in Si. specialize (Si eq_refl).
  constructor; cbn [set_pool d_bufs d_pool d_alive d_side].
  - exact (j_own _ _ I).
  - exact (j_out _ _ I).
  - eexists. split; [exact Si|]. cbn. rewrite A. split; [reflexivity|exact Ul].
  - exact (j_side _ _ I).
Qed.

Lemma J_acquire L w : J L w -> d_alive w = true -> (forall i, snd (L (Pooled i)) = Returned -> fst (L (Pooled i)) = 0) ->
  exists p j, pool_acquire (d_pool w) = Ok (p, j) /\ snd (L (Pooled j)) = Returned /\
    J (fupd L (Pooled j) (fun _ => (1, Acquired))) (set_pool p w).
Proof.
  intros I A R. destruct (j_pool _ _ I) as (u & U & Up & Ul). rewrite A in Up. cbn in Up.
  destruct (step_inv _ _ Acquire U) as (p & got & S & G & Si).
  { cbn. lia. }
  destruct (G eq_refl) as (j & x & -> & _ & _ & _ & _ & Hj).
  cbn [pool_step] in S. destruct (pool_acquire (d_pool w)) as [[p' j']|]; [|discriminate]. cbn [bind fst snd] in S. injection S as <- <-.
  exists p', j'. split; [reflexivity|].
  assert (Rj : snd (L (Pooled j')) = Returned).
  { destruct (Ul j') as [X|[_ X]]; [|rewrite X; reflexivity]. destruct Hj as [->|[r Y]].
    - assert (nth_error (u_fbs u) (length (u_fbs u)) = None) by (apply nth_error_None; lia). congruence.
    - rewrite X in Y. injection Y as Y. rewrite Y. reflexivity. }
  split; [exact Rj|].
  constructor; cbn [set_pool d_bufs d_pool d_alive d_side].
  - exact (j_own _ _ I).
  - exact (j_out _ _ I).
  - cbn [allowed] in Si. rewrite Up in Si. cbn [Z.ltb] in Si. change (0 <? 1) with true in Si. cbn match in Si.
    destruct (Nat.eqb_spec j' (length (u_fbs u))) as [E|Nj].
    + specialize (Si _ eq_refl). eexists. split; [exact Si|]. cbn [u_pool u_fbs]. rewrite A. split; [reflexivity|]. intros i.
      unfold fupd. cbn [feqb]. destruct (Nat.eqb_spec i j') as [->|Ni].
      * left. subst j'. rewrite nth_error_app2, Nat.sub_diag by lia. reflexivity.
      * destruct (Nat.lt_ge_cases i (length (u_fbs u))) as [Hi|Hi].
        -- rewrite nth_error_app1 by exact Hi. apply Ul.
        -- right. split; [apply nth_error_None; rewrite app_length; cbn; lia|].
           destruct (Ul i) as [X|[_ X]]; [|exact X]. assert (nth_error (u_fbs u) i = None) by (apply nth_error_None; lia). congruence.
    + specialize (Si _ eq_refl). eexists. split; [exact Si|]. cbn [u_pool u_fbs]. rewrite A. split; [reflexivity|]. intros i.
      unfold fupd. cbn [feqb]. rewrite update_nth. destruct (Nat.eqb_spec i j') as [->|Ni]; [|apply Ul].
      left. destruct Hj as [X|[r Y]]; [contradiction|]. rewrite Y. cbn. destruct (Ul j') as [X|[X _]]; [|congruence].
      pose proof (R j' Rj) as R0. rewrite Y in X. injection X as X. rewrite <- X in R0. cbn in R0. subst r. reflexivity.
  - exact (j_side _ _ I).
Qed.

(** A buffer of the application changes in what is not counted. *)
Lemma J_put L w i b b' g side : J L w -> nth_error (d_bufs w) i = Some b -> own_ok b' (g (L (Own i))) ->
  (forall j, In j side <-> In j (d_side w) \/ (j = i /\ b_side b' = true)) ->
  (b_side b = true -> b_side b' = true) -> fb_freed (b_fb b') = false -> fb_freed (b_fb b) = false ->
  J (fupd L (Own i) g) (set_side side (set_bufs (put_buf (d_bufs w) i b') w)).
Proof.
  intros I N O S Sd F F0. constructor; cbn [d_bufs d_pool d_alive d_side set_bufs set_side].
  - intros j c. rewrite put_buf_nth. unfold fupd. cbn [feqb]. destruct (Nat.eqb_spec j i) as [->|Nj].
    + rewrite N. intros E. injection E as <-. exact O.
    + intros E. apply (j_own _ _ I _ _ E).
  - intros j. rewrite put_buf_nth. unfold fupd. cbn [feqb]. destruct (Nat.eqb_spec j i) as [->|Nj].
    + rewrite N. discriminate.
    + apply (j_out _ _ I).
  - exact (j_pool _ _ I).
  - intros j. rewrite S, (j_side _ _ I j), put_buf_nth. destruct (Nat.eqb_spec j i) as [->|Nj].
    + rewrite N. split.
      * intros [(c & E & A1 & A2)|[_ A1]]; exists b'; [injection E as <-|]; auto.
      * intros (c & E & A1 & A2). injection E as <-. right. auto.
    + split; [intros [X|[X _]]; [exact X|contradiction]|auto].
Qed.

Lemma feed_rotated w i b o n : D w -> d_alive w = true -> nth_error (d_bufs w) i = Some b -> b_owned b = true -> b_upright b = false ->
  exists w', resampler_feed i b o n w = Ok w' /\
    moved w w' (fun j => j = i /\ o = NotStarted) (match o with Started => [n] | _ => [] end) /\
    d_fed w' = d_fed w /\ d_alive w' = true /\
    (exists d, d_works w' = d_works w ++ match o with Started => [mk_work n i d] | _ => [] end) /\
    (exists l, d_log w' = d_log w ++ l /\ shows l = []).
Proof.
  intros [(L & I & F) DA] A Nb O Up. unfold resampler_feed. rewrite Up.
  destruct (J_resize L w (b_geo b) I A) as (p & Ep & Ip). rewrite Ep. cbn [bind].
  destruct o as [| |].
  all: cycle 1.
  - (* NoMemory *)
    eexists. split; [reflexivity|]. split; [|split; [reflexivity|split; [exact A|split; [exists 0%nat; cbn; rewrite app_nil_r; reflexivity|exists []; cbn; rewrite app_nil_r; auto]]]].
    split; [split; [exists L; auto|exact DA]|]. exists []. cbn [set_pool d_log]. rewrite app_nil_r. split; [reflexivity|]. split.
    + intros j _. change (rz j []) with 0. change (uz j (set_pool p w)) with (uz j w). destruct (0 <? uz j w) eqn:Q1, (uz j w =? 0) eqn:Q2; cbn; lia.
    + reflexivity.
  - (* the rest *)
    shelve.
  - shelve.
  Unshelve.
  all: destruct (J_acquire L (set_pool p w) Ip A (fun j => proj2 (proj2 (proj2 (F (Pooled j)))))) as (p2 & d & Ed & Rd & I2);
    rewrite Ed; cbn [bind fst snd];
    set (w2 := set_pool p2 (set_pool p w)) in *;
    set (L2 := fupd L (Pooled d) (fun _ => (1, Acquired))) in *;
    pose proof (j_own _ _ I _ _ Nb) as (OR & OH & OF & OL & ON & OP & OD);
    assert (NF : fb_freed (b_fb b) = false) by (rewrite OF; apply Z.eqb_neq; rewrite O in OR; cbn [oz] in OR; lia);
    set (w3 := if b_data b then w2 else _);
    assert (I3 : J L2 w3 /\ d_works w3 = d_works w /\ d_users w3 = d_users w /\ d_shown w3 = d_shown w /\ d_alive w3 = d_alive w /\
                 d_log w3 = d_log w /\ d_fed w3 = d_fed w /\ exists b', nth_error (d_bufs w3) i = Some b' /\ b_owned b' = true).
  { unfold w3. destruct (b_data b) eqn:Bd; [split; [exact I2|repeat split; auto; exists b; auto]|].
    split; [|repeat split; auto; eexists; cbn [d_bufs set_side set_bufs]; rewrite put_buf_nth, Nat.eqb_refl; cbn [w2 d_bufs set_pool]; unfold w2; cbn [d_bufs set_pool]; rewrite Nb; split; [reflexivity|exact O]].
    refine (J_ext _ _ _ _ (J_put L2 w2 i b _ (fun s => s) _ I2 Nb _ _ _ _ NF)).
    - intros f. unfold fupd. destruct (feqb f (Own i)); reflexivity.
    - unfold own_ok. cbn [b_fb b_owned b_side b_data]. change (L2 (Own i)) with (L (Own i)). repeat split; auto.
    - intros j. cbn [In b_side]. change (d_side w2) with (d_side w). split; [intros [->|X]; auto|intros [X|[-> _]]; auto].
    - auto.
    - exact NF. }
  2: { unfold w3. destruct (b_data b) eqn:Bd; [split; [exact I2|repeat split; auto; exists b; auto]|].
    split; [|repeat split; auto; eexists; cbn [d_bufs set_side set_bufs]; rewrite put_buf_nth, Nat.eqb_refl; unfold w2; cbn [d_bufs set_pool]; rewrite Nb; split; [reflexivity|exact O]].
    refine (J_ext _ _ _ _ (J_put L2 w2 i b _ (fun s => s) _ I2 Nb _ _ _ _ NF)).
    - intros f. unfold fupd. destruct (feqb f (Own i)); reflexivity.
    - unfold own_ok. cbn [b_fb b_owned b_side b_data]. change (L2 (Own i)) with (L (Own i)). repeat split; auto.
    - intros j. cbn [In b_side]. change (d_side w2) with (d_side w). split; [intros [->|X]; auto|intros [X|[-> _]]; auto].
    - auto.
    - exact NF. }
  all: destruct I3 as (I3 & W3 & U3 & S3 & A3 & G3 & F3 & b' & N3 & O3);
    destruct (take_ok L2 w3 (Own i) I3) as (w4 & E4 & I4 & K4 & G4 & _);
    [cbn; exists b'; split; [exact N3|]; rewrite O3; change (L2 (Own i)) with (L (Own i)); cbn [oz]; lia
    |exact OP|change (L2 (Own i)) with (L (Own i)); lia|];
    destruct (call nvnc_fb_ref (Own i) w3) as [wr|]; [|discriminate]; cbn [bind] in E4 |- *; rewrite E4; cbn [bind];
    assert (Fd : L (Pooled d) = (0, Returned)) by (rewrite (surjective_pairing (L (Pooled d))), Rd; f_equal; apply (F (Pooled d)); exact Rd);
    pose proof (F (Pooled d)) as FFd; rewrite Fd in FFd; cbn in FFd; destruct FFd as (FF1 & FF2 & _);
    assert (FF3 : hu (Pooled d) w = 0 /\ ku (Pooled d) w = 0) by lia; destruct FF3 as [FF3 FF4].
  2: { (* Started *)
    eexists. split; [reflexivity|]. set (k := mk_work n i d). set (w5 := set_works _ w4).
    assert (HU : forall f, hu f w5 = hu f w) by (intros f; unfold hu, su, eu, w5; cbn [d_shown d_users set_works]; rewrite (k_shown _ _ K4), (k_users _ _ K4), S3, U3; reflexivity).
    assert (KU : forall f, ku f w5 = ku f w + kw f k).
    { intros f. unfold ku, w5. cbn [d_works set_works]. rewrite (k_works _ _ K4), W3, wsum_app, wsum_cons. cbn [wsum fold_right]. lia. }
    assert (WK : d_works w5 = d_works w ++ [k]) by (unfold w5; cbn [d_works set_works]; rewrite (k_works _ _ K4), W3; reflexivity).
    assert (LG : d_log w5 = d_log w) by (unfold w5; cbn [d_log set_works]; congruence).
    split; [split|].
    + split; [|intros X; unfold w5 in *; cbn [d_alive d_shown set_works] in *; rewrite (k_alive _ _ K4) in X; congruence].
      eexists. split; [apply (J_same _ w4); [..|exact I4]; reflexivity|]. intros f. rewrite HU, KU. unfold kw. cbn [k k_src k_dst].
      destruct f as [j|j].
      * unfold fupd. destruct (feqb_spec (Own j) (Own i)) as [E|Nj].
        -- injection E as ->. rewrite b2_refl, b2_neq by discriminate. change (L2 (Own i)) with (L (Own i)).
           pose proof (F (Own i)) as [X Y]. cbn [fair1 take_s fst snd hold_of]. lia.
        -- rewrite !b2_neq by (discriminate || exact Nj). rewrite !Z.add_0_r. exact (F (Own j)).
      * unfold fupd. cbn [feqb]. unfold L2, fupd. destruct (feqb_spec (Pooled j) (Pooled d)) as [E|Nj].
        -- injection E as ->. rewrite b2_refl, b2_neq by discriminate. rewrite FF3, FF4. cbn. repeat split; try lia; discriminate.
        -- rewrite !b2_neq by (discriminate || exact Nj). rewrite !Z.add_0_r. exact (F (Pooled j)).
    + exists []. rewrite app_nil_r. split; [exact LG|]. split.
      * intros j _. change (rz j []) with 0. unfold uz. rewrite HU, KU. pose proof (kw_nonneg (Own j) k). pose proof (uz_nonneg j w). unfold uz in *.
        apply rz0. lia.
      * unfold pending. rewrite WK, map_app. cbn [shows app map k_no]. rewrite app_nil_r. reflexivity.
    + split; [unfold w5; cbn [d_fed set_works]; rewrite (k_fed _ _ K4); exact F3|]. split; [unfold w5; cbn [d_alive set_works]; rewrite (k_alive _ _ K4); congruence|].
      split; [exists d; exact WK|]. exists []. rewrite app_nil_r. auto.
  }
  { (* NotStarted *)
    set (k := mk_work n i d). set (L4 := fupd L2 (Own i) take_s) in *.
    pose proof (F (Own i)) as [Fi1 Fi2]. pose proof (uz_nonneg i w) as Un. unfold uz in Un.
    assert (Li : L4 (Own i) = take_s (L (Own i))) by (unfold L4; rewrite fupd_same; reflexivity).
    assert (Ld : L4 (Pooled d) = (1, Acquired)) by (unfold L4, L2, fupd; cbn [feqb]; rewrite Nat.eqb_refl; reflexivity).
    pose proof (work_free_ok L4 w4 k I4) as Q. cbn [k_src k_dst k] in Q. rewrite Li, Ld in Q.
    specialize (Q ltac:(cbn [take_s fst snd hold_of]; lia) ltac:(cbn; lia)).
    destruct (work_free k w4) as [w5|e]; [|destruct Q as [_ [Q _]]; rewrite (k_alive _ _ K4) in Q; congruence].
    destruct Q as (I5 & K5 & L5). exists w5. split; [reflexivity|].
    assert (HU : forall f, hu f w5 = hu f w) by (intros f; unfold hu, su, eu; rewrite (k_shown _ _ K5), (k_users _ _ K5), (k_shown _ _ K4), (k_users _ _ K4), S3, U3; reflexivity).
    assert (WK : d_works w5 = d_works w) by (rewrite (k_works _ _ K5), (k_works _ _ K4); exact W3).
    assert (KU : forall f, ku f w5 = ku f w) by (intros f; unfold ku; rewrite WK; reflexivity).
    assert (AL : d_alive w5 = true) by (rewrite (k_alive _ _ K5), (k_alive _ _ K4); congruence).
    assert (LG : d_log w5 = d_log w ++ rel_ev (Own i) (take_s (L (Own i)))) by (rewrite L5, G4, G3; reflexivity).
    split; [split|].
    + split; [|congruence]. eexists. split; [exact I5|]. intros f. rewrite HU, KU. destruct f as [j|j].
      * unfold fupd at 1. cbn [feqb]. unfold fupd at 1. destruct (feqb_spec (Own j) (Own i)) as [E|Nj].
        -- injection E as ->. rewrite Li. unfold drop_s, unref_s, rel_s, take_s. cbn [fair1 fst snd hold_of].
           destruct (hold_of (snd (L (Own i))) + 1 =? 1) eqn:H1; cbn [hold_of]; lia.
        -- unfold L4, fupd. destruct (feqb_spec (Own j) (Own i)) as [E|_]; [contradiction|]. exact (F (Own j)).
      * unfold fupd at 1. destruct (feqb_spec (Pooled j) (Pooled d)) as [E|Nj].
        -- injection E as ->. unfold fupd at 1. cbn [feqb]. rewrite Ld, FF3, FF4. cbn. repeat split; try lia; discriminate.
        -- unfold fupd at 1. cbn [feqb]. unfold L4, L2, fupd. cbn [feqb]. destruct (Nat.eqb_spec j d) as [->|_]; [congruence|]. exact (F (Pooled j)).
    + eexists. split; [exact LG|]. split.
      * intros j Sp. rewrite rz_ev. unfold uz. rewrite HU, KU. destruct (feqb_spec (Own j) (Own i)) as [E|Nj].
        -- injection E as ->. exfalso. apply Sp. auto.
        -- pose proof (uz_nonneg j w). unfold uz in *. cbn [andb]. apply rz0. lia.
      * unfold pending. rewrite WK, shows_ev. reflexivity.
    + split; [rewrite (k_fed _ _ K5), (k_fed _ _ K4); exact F3|]. split; [exact AL|]. split; [exists 0%nat; rewrite app_nil_r; exact WK|].
      eexists. split; [exact LG|apply shows_ev].
  }
Qed.

Lemma still w w' special : (forall f, hu f w' = hu f w) -> d_works w' = d_works w -> d_log w' = d_log w -> D w' -> moved w w' special [].
Proof.
  intros HU WK LG HD. split; [exact HD|]. exists []. rewrite app_nil_r. split; [exact LG|]. split.
  - intros j _. change (rz j []) with 0. unfold uz, ku. rewrite HU, WK. apply rz0. pose proof (uz_nonneg j w). unfold uz, ku in *. lia.
  - unfold pending. rewrite WK. reflexivity.
Qed.

Lemma set_side_same w : set_side (d_side w) w = w. Proof. destruct w; reflexivity. Qed.

Lemma set_pts_ok w i b p : D w -> nth_error (d_bufs w) i = Some b -> b_owned b = true ->
  moved w (set_bufs (put_buf (d_bufs w) i (mk_buffer (b_fb b) (b_upright b) (b_geo b) (Some p) (b_data b) (b_side b) (b_owned b))) w) (fun _ => False) [].
Proof.
  intros [(L & I & F) DA] Nb O. apply still; try reflexivity. split; [|exact DA]. exists L. split; [|exact F].
  pose proof (j_own _ _ I _ _ Nb) as (OR & OH & OF & OL & ON & OP & OD).
  assert (NF : fb_freed (b_fb b) = false) by (rewrite OF; apply Z.eqb_neq; rewrite O in OR; cbn [oz] in OR; lia).
  set (b' := mk_buffer _ _ _ _ _ _ _). set (w1 := set_bufs _ w).
  rewrite <- (set_side_same w1). refine (J_ext _ _ _ _ (J_put L w i b b' (fun s => s) (d_side w) I Nb _ _ _ NF NF)).
  - intros f. unfold fupd. destruct (feqb f (Own i)); reflexivity.
  - unfold own_ok. cbn. auto 10.
  - intros j. split; [auto|]. intros [X|[-> X]]; [exact X|]. apply (j_side _ _ I). exists b. auto.
  - auto.
Qed.

Lemma drop_buf_ok w i b : D w -> nth_error (d_bufs w) i = Some b -> b_owned b = true ->
  match unref (Own i) (set_bufs (put_buf (d_bufs w) i (mk_buffer (b_fb b) (b_upright b) (b_geo b) (b_pts b) (b_data b) (b_side b) false)) w) with
  | Fault e => e = UseAfterFree /\ stuck w
  | Ok w' => moved w w' (fun _ => False) [] /\ d_works w' = d_works w /\ d_fed w' = d_fed w /\ d_alive w' = d_alive w /\ d_log w' = d_log w /\
             (d_side w = [] -> d_side w' = [])
  end.
Proof.
  intros [(L & I & F) DA] Nb O. pose proof (j_own _ _ I _ _ Nb) as (OR & OH & OF & OL & ON & OP & OD).
  assert (NF : fb_freed (b_fb b) = false) by (rewrite OF; apply Z.eqb_neq; rewrite O in OR; cbn [oz] in OR; lia).
  set (b' := mk_buffer _ _ _ _ _ _ false). set (w1 := set_bufs _ w).
  assert (I1 : J (fupd L (Own i) ref_s) w1).
  { rewrite <- (set_side_same w1). refine (J_put L w i b b' ref_s (d_side w) I Nb _ _ _ NF NF).
    - unfold own_ok, ref_s. cbn [fst snd b' b_fb b_owned b_side b_data oz]. rewrite O in OR. cbn [oz] in OR. repeat split; auto; lia.
    - intros j. split; [auto|]. intros [X|[-> X]]; [exact X|]. apply (j_side _ _ I). exists b. auto.
    - auto. }
  pose proof (J_nonneg L w (Own i) I) as Nn. pose proof (call_unref _ w1 (Own i) I1) as Q. rewrite fupd_same in Q.
  assert (A1 : alive_f (fupd L (Own i) ref_s) (Own i) w1) by (apply (alive_pos _ _ _ I1); rewrite fupd_same; cbn; lia).
  assert (H1 : hold_of (snd (ref_s (L (Own i)))) < fst (ref_s (L (Own i)))) by (cbn; lia).
  specialize (Q A1 H1). destruct (unref (Own i) w1) as [w2|e]; [|exact Q]. destruct Q as (I2 & K2 & L2 & _).
  split; [|split; [exact (k_works _ _ K2)|split; [exact (k_fed _ _ K2)|split; [exact (k_alive _ _ K2)|split; [exact L2|exact (k_side _ _ K2)]]]]].
  assert (HU : forall f, hu f w2 = hu f w) by (intros f; unfold hu, su, eu; rewrite (k_shown _ _ K2), (k_users _ _ K2); reflexivity).
  apply still; [exact HU|exact (k_works _ _ K2)|exact L2|].
  split; [|rewrite (k_alive _ _ K2), (k_shown _ _ K2); exact DA].
  exists L. split.
  - refine (J_ext _ _ _ _ I2). intros f. unfold fupd. destruct (feqb_spec f (Own i)) as [->|]; [|reflexivity].
    unfold unref_s, ref_s. cbn [fst snd]. rewrite (surjective_pairing (L (Own i))) at 3. f_equal. lia.
  - revert F. apply fair_ext; intros f; [symmetry; apply HU|unfold ku; rewrite (k_works _ _ K2); reflexivity].
Qed.

Lemma create_ok w up g data : D w ->
  moved w (set_bufs (d_bufs w ++ [mk_buffer (fb_fresh g) up g None data false true]) w) (fun _ => False) [].
Proof.
  intros [(L & I & F) DA]. apply still; try reflexivity. split; [|exact DA]. exists L. split; [|exact F].
  set (b := mk_buffer _ _ _ _ _ _ _).
  assert (Nn : forall i, nth_error (d_bufs w ++ [b]) i = if Nat.eqb i (length (d_bufs w)) then Some b else nth_error (d_bufs w) i).
  { intros i. destruct (Nat.eqb_spec i (length (d_bufs w))) as [->|N].
    - rewrite nth_error_app2, Nat.sub_diag by lia. reflexivity.
    - destruct (Nat.lt_ge_cases i (length (d_bufs w))) as [H|H]; [apply nth_error_app1; exact H|].
      rewrite (proj2 (nth_error_None (d_bufs w) i)) by lia. apply nth_error_None. rewrite app_length. cbn. lia. }
  assert (E0 : nth_error (d_bufs w) (length (d_bufs w)) = None) by (apply nth_error_None; lia).
  constructor; cbn [set_bufs d_bufs d_pool d_alive d_side].
  - intros i c. rewrite Nn. destruct (Nat.eqb_spec i (length (d_bufs w))) as [->|N]; [|apply (j_own _ _ I)].
    intros E. injection E as <-. rewrite (j_out _ _ I _ E0). unfold own_ok. cbn. repeat split; try lia; discriminate.
  - intros i. rewrite Nn. destruct (Nat.eqb_spec i (length (d_bufs w))) as [->|N]; [discriminate|apply (j_out _ _ I)].
  - exact (j_pool _ _ I).
  - intros i. rewrite Nn, (j_side _ _ I i). destruct (Nat.eqb_spec i (length (d_bufs w))) as [->|N]; [|reflexivity].
    split; intros (c & E & A1 & _); [congruence|]. injection E as <-. discriminate.
Qed.

Lemma gone_ok w : D w -> d_alive w = true ->
  exists w', step Gone w = Ok w' /\ moved w w' (fun _ => False) [] /\ d_works w' = d_works w /\ d_fed w' = d_fed w /\ d_alive w' = false /\
    (d_side w = [] -> d_side w' = []) /\ exists l, d_log w' = d_log w ++ l /\ shows l = [].
Proof.
  intros [(L & I & F) DA] A. cbn [step]. rewrite A.
  destruct (old_ok L w I (fun g => fair_shown L w g I F) A) as (w1 & E1 & I1 & K1 & L1 & _). rewrite E1. cbn [bind].
  pose proof (fair_old L w I F) as FO.
  assert (I2 : J (old_L L w) (set_shown None w1)) by (apply (J_same _ w1); auto).
  destruct (j_pool _ _ I2) as (u & U & Up & Ul).
  assert (A1 : d_alive (set_shown None w1) = true) by (cbn; rewrite (k_alive _ _ K1); exact A). rewrite A1 in Up. cbn [oz] in Up.
  destruct (step_inv _ _ PoolUnref U) as (p & got & S & _ & Si).
  { cbn. rewrite Up. discriminate. }
  cbn [pool_step] in S. destruct (pool_unref (d_pool (set_shown None w1))) as [p'|]; [|discriminate]. cbn [bind] in S |- *. injection S as <- <-.
  eexists. split; [reflexivity|]. set (w' := set_alive false _).
  cbn [allowed] in Si. rewrite Up in Si. specialize (Si _ eq_refl).
  assert (SO : shows (old_ev L w) = []) by (unfold old_ev; destruct (d_shown w); [apply shows_ev|reflexivity]).
  assert (HU : forall f, hu f w' = eu f w) by (intros f; unfold hu, su, eu, w'; cbn [d_shown d_users set_alive set_pool set_shown]; rewrite (k_users _ _ K1); lia).
  assert (KU : forall f, ku f w' = ku f w) by (intros f; unfold ku, w'; cbn [d_works set_alive set_pool set_shown]; rewrite (k_works _ _ K1); reflexivity).
  split; [|split; [exact (k_works _ _ K1)|split; [exact (k_fed _ _ K1)|split; [reflexivity|split; [exact (k_side _ _ K1)|exists (old_ev L w); auto]]]]].
  split; [split; [|reflexivity]|].
  - exists (old_L L w). split.
    + constructor; unfold w'; cbn [d_bufs d_pool d_alive d_side set_alive set_pool set_shown].
      * exact (j_own _ _ I1).
      * exact (j_out _ _ I1).
      * eexists. split; [exact Si|]. cbn. split; [reflexivity|exact Ul].
      * exact (j_side _ _ I1).
    + revert FO. apply fair_ext; intros f; [symmetry; apply HU|symmetry; apply KU].
  - exists (old_ev L w). split; [exact L1|]. split.
    + intros j _. assert (U' : uz j w' = uz j w - su (Own j) w) by (unfold uz; rewrite HU, KU; unfold hu; lia).
      pose proof (uz_nonneg j w) as Uj. unfold old_ev. unfold su in U'. destruct (d_shown w) as [g|].
      * rewrite rz_ev. unfold b2 in U'. destruct (feqb_spec (Own j) g) as [<-|]; cbn [andb oz] in *.
        -- destruct (F (Own j)) as [_ X]. fold (uz j w) in X. rewrite X.
           destruct (uz j w =? 1) eqn:Q1, (0 <? uz j w) eqn:Q2, (uz j w' =? 0) eqn:Q3; cbn; lia.
        -- apply rz0. lia.
      * change (rz j []) with 0. apply rz0. lia.
    + unfold pending, w'. cbn [d_works set_alive set_pool set_shown]. rewrite (k_works _ _ K1), SO. reflexivity.
Qed.

(** ** All steps *)

Lemma owned_some i w b : owned i w = Some b -> nth_error (d_bufs w) i = Some b /\ b_owned b = true.
Proof.
  unfold owned. destruct (nth_error (d_bufs w) i) as [c|]; [|discriminate]. destruct (b_owned c) eqn:O; [|discriminate].
  intros E. injection E as <-. auto.
Qed.

Lemma moved_refl w sp : D w -> moved w w sp [].
Proof. intros H. apply still; auto. Qed.

Lemma moved_weaken w w' (p q : nat -> Prop) new : (forall i, p i -> q i) -> moved w w' p new -> moved w w' q new.
Proof. intros H [A (l & B & C & E)]. split; [exact A|]. exists l. split; [exact B|]. split; [|exact E]. intros i N. apply C. auto. Qed.

Lemma step_D a w : D w ->
  match step a w with
  | Fault e => e = UseAfterFree /\ d_alive w = false /\ (d_works w <> [] \/ d_side w <> [])
  | Ok w' => moved w w' (odd_feed a w) (accepted a w) /\
      (d_fed w <= d_fed w')%nat /\ (accepted a w <> [] -> d_fed w' = S (d_fed w)) /\
      (d_alive w = false -> d_alive w' = false /\ (d_works w = [] -> d_works w' = []) /\ (d_side w = [] -> d_side w' = [])) /\
      (a <> Gone -> d_alive w' = d_alive w)
  end.
Proof.
  intros HD. destruct a as [up g data|i p|i o|n| |n|i|]; cbn [step].
  - split; [apply (moved_weaken _ _ (fun _ => False)); [tauto|apply create_ok; exact HD]|]. cbn. repeat split; auto; congruence.
  - destruct (owned i w) as [b|] eqn:Ow.
    + apply owned_some in Ow as [Nb O]. split; [apply (moved_weaken _ _ (fun _ => False)); [tauto|apply set_pts_ok; assumption]|]. cbn. repeat split; auto; congruence.
    + split; [apply moved_refl, HD|]. cbn. repeat split; auto; congruence.
  - cbn [accepted odd_feed]. destruct (owned i w) as [b|] eqn:Ow.
    2: { split; [apply moved_refl, HD|]. repeat split; auto; congruence. }
    destruct (d_alive w) eqn:A.
    2: { split; [apply moved_refl, HD|]. repeat split; auto; congruence. }
    apply owned_some in Ow as [Nb O]. set (w0 := set_fed _ w).
    assert (D0 : D w0). { destruct HD as [(L & I & F) DA]. split; [exists L; split; [apply (J_same _ w); auto|exact F]|exact DA]. }
    unfold resampler_feed. destruct (b_upright b) eqn:Up.
    + destruct (feed_upright w0 i b (d_fed w) D0 A Nb O) as (w' & E & M & W & Fd & A' & _ & _). rewrite E.
      split; [apply (moved_weaken _ _ (fun j => j = i /\ d_shown w0 = Some (Own i)) _ [d_fed w]); [intros j [-> X]; cbn; auto|exact M]|].
      split; [rewrite Fd; cbn; lia|]. split; [intros _; exact Fd|]. split; [congruence|congruence].
    + pose proof (feed_rotated w0 i b o (d_fed w) D0 A Nb O Up) as (w' & E & M & Fd & A' & _). unfold resampler_feed in E. rewrite Up in E. rewrite E.
      split; [apply (moved_weaken _ _ (fun j => j = i /\ o = NotStarted)); [intros j [-> X]; cbn; auto|exact M]|].
      split; [rewrite Fd; cbn; lia|]. split; [intros _; exact Fd|]. split; [congruence|congruence].
  - destruct (nth_error (d_works w) n) as [k|] eqn:N.
    + destruct (d_alive w) eqn:A.
      * destruct (done_ok w n k HD N A) as (w' & E & M & W & Fd & A' & _). rewrite E.
        split; [exact M|]. split; [lia|]. split; [cbn; congruence|]. split; congruence.
      * unfold on_done. cbn [set_works d_alive]. rewrite A. cbn. split; [reflexivity|]. split; [reflexivity|]. left. intros X. rewrite X in N. destruct n; discriminate.
    + split; [apply moved_refl, HD|]. cbn. repeat split; auto; congruence.
  - destruct (d_alive w) eqn:A.
    2: { split; [apply moved_refl, HD|]. cbn. repeat split; auto; congruence. }
    destruct (d_shown w) as [f|] eqn:Sh.
    2: { split; [apply moved_refl, HD|]. cbn. repeat split; auto; congruence. }
    destruct (encode_ok w f HD A Sh) as (w' & E & M & W & Fd & A' & _). rewrite E.
    split; [exact M|]. split; [lia|]. split; [cbn; congruence|]. split; congruence.
  - destruct (nth_error (d_users w) n) as [f|] eqn:N.
    + pose proof (encoded_ok w n f HD N) as Q. destruct (let* w0 := release f (set_users (without n (d_users w)) w) in unref f w0) as [w'|e].
      * destruct Q as (M & W & Fd & A' & Sd & _). split; [exact M|]. split; [lia|]. split; [cbn; congruence|]. split; [|congruence].
        intros X. split; [congruence|]. split; [congruence|exact Sd].
      * destruct Q as [-> [Q1 Q2]]. auto.
    + split; [apply moved_refl, HD|]. cbn. repeat split; auto; congruence.
  - destruct (owned i w) as [b|] eqn:Ow.
    + apply owned_some in Ow as [Nb O]. pose proof (drop_buf_ok w i b HD Nb O) as Q.
      destruct (unref (Own i) _) as [w'|e].
      * destruct Q as (M & W & Fd & A' & _ & Sd). split; [exact M|]. split; [lia|]. split; [cbn; congruence|]. split; [|congruence].
        intros X. split; [congruence|]. split; [congruence|exact Sd].
      * destruct Q as [-> [Q1 Q2]]. auto.
    + split; [apply moved_refl, HD|]. cbn. repeat split; auto; congruence.
  - destruct (d_alive w) eqn:A.
    + destruct (gone_ok w HD A) as (w' & E & M & W & Fd & A' & Sd & _). cbn [step] in E. rewrite A in E. rewrite E.
      split; [exact M|]. split; [lia|]. split; [cbn; congruence|]. split; [congruence|]. intros X. contradiction.
    + split; [apply moved_refl, HD|]. cbn. repeat split; auto; congruence.
Qed.

Lemma D0 : D world0.
Proof.
  split; [|reflexivity]. exists (fun f => match f with Own _ => (0, Acquired) | Pooled _ => (0, Returned) end). split.
  - constructor.
    + intros [|i] b E; discriminate.
    + reflexivity.
    + exists (mk_u 1 (0, 0, 0, 0) []). split; [exact (runs_inv (0, 0, 0, 0) _ _ (start _))|]. split; [reflexivity|]. intros i. right. destruct i; auto.
    + intros i. split; [contradiction|]. intros (b & E & _). destruct i; discriminate.
  - intros [i|i]; cbn; repeat split; try reflexivity; try lia; discriminate.
Qed.

Lemma run_D l : forall w w', D w -> run l w = Ok w' -> D w'.
Proof.
  induction l as [|a l IH]; intros w w' H E; cbn [run] in E; [injection E as <-; exact H|].
  pose proof (step_D a w H) as Q. destruct (step a w) as [w1|e]; [|discriminate]. cbn [bind] in E. apply (IH w1 w'); [apply Q|exact E].
Qed.

(** ** In the words of the specification *)

Lemma uz_in_use i w : 0 < uz i w <-> in_use i w.
Proof.
  unfold uz, hu, in_use. split.
  - intros H. destruct (Z_lt_dec 0 (su (Own i) w)) as [S|S].
    + left. unfold su in S. destruct (d_shown w) as [g|]; [|lia]. unfold b2 in S. destruct (feqb_spec (Own i) g) as [E|]; [congruence|cbn in S; lia].
    + right. destruct (Z_lt_dec 0 (eu (Own i) w)) as [S1|S1].
      * left. apply wsum_pos in S1 as (f & I & P). unfold b2 in P. destruct (feqb_spec (Own i) f) as [E|]; [congruence|cbn in P; lia].
      * right. assert (P : 0 < ku (Own i) w) by lia. apply wsum_pos in P as (k & I & P). exists k. split; [exact I|].
        unfold kw in P. rewrite (b2_neq (Own i) (Pooled (k_dst k))) in P by discriminate. unfold b2 in P. destruct (feqb_spec (Own i) (Own (k_src k))) as [E|]; [congruence|cbn in P; lia].
  - pose proof (su_range (Own i) w). pose proof (eu_nonneg (Own i) w). pose proof (ku_nonneg (Own i) w).
    intros [S|[S|(k & S & E)]].
    + unfold su. rewrite S, b2_refl. lia.
    + assert (1 <= eu (Own i) w); [|lia]. rewrite <- (b2_refl (Own i)). apply (wsum_in (b2 (Own i))); [intros x; apply b2_range|exact S].
    + assert (1 <= ku (Own i) w); [|lia].
      assert (K : kw (Own i) k = 1) by (unfold kw; rewrite E, b2_refl, b2_neq by discriminate; lia).
      rewrite <- K. apply (wsum_in (kw (Own i))); [intros x; apply kw_nonneg|exact S].
Qed.

Lemma step_releases a w w' i : D w -> step a w = Ok w' -> ~ odd_feed a w i ->
  exists l, d_log w' = d_log w ++ l /\
    (in_use i w /\ ~ in_use i w' -> releases i l = 1%nat) /\
    (~ (in_use i w /\ ~ in_use i w') -> releases i l = 0%nat).
Proof.
  intros HD E N. pose proof (step_D a w HD) as Q. rewrite E in Q. destruct Q as [[_ (l & Lg & R & _)] _].
  exists l. split; [exact Lg|]. specialize (R i N). unfold rz in R. rewrite <- !uz_in_use. pose proof (uz_nonneg i w').
  destruct (0 <? uz i w) eqn:Q1, (uz i w' =? 0) eqn:Q2; cbn [andb] in R; split; intros; lia.
Qed.

Lemma freed_exactly w i b : D w -> nth_error (d_bufs w) i = Some b ->
  fb_freed (b_fb b) = true <-> b_owned b = false /\ ~ in_use i w.
Proof.
  intros [(L & I & F) _] Nb. pose proof (j_own _ _ I _ _ Nb) as (OR & _ & OF & _). destruct (F (Own i)) as [X _]. fold (uz i w) in X.
  rewrite <- uz_in_use, OF, OR, X, Z.eqb_eq. pose proof (uz_nonneg i w). destruct (b_owned b); cbn [oz]; split; intros H0.
  - lia.
  - destruct H0; discriminate.
  - split; [reflexivity|lia].
  - lia.
Qed.

(** *** Leaving in peace *)
Definition peace (w : world) : Prop := d_alive w = false -> d_works w = [] /\ d_side w = [].

Lemma side_freed w : D w -> (forall i b, nth_error (d_bufs w) i = Some b -> b_side b = true -> fb_freed (b_fb b) = true) -> d_side w = [].
Proof.
  intros [(L & I & _) _] H. destruct (d_side w) as [|i l] eqn:E; [reflexivity|]. exfalso.
  assert (X : In i (d_side w)) by (rewrite E; left; reflexivity). apply (j_side _ _ I) in X as (b & Nb & Sb & Fb). rewrite (H i b Nb Sb) in Fb. discriminate.
Qed.

Lemma calm_step a w w' : D w -> peace w -> calm a w -> step a w = Ok w' -> peace w'.
Proof.
  intros HD P C E A'. pose proof (step_D a w HD) as Q. rewrite E in Q. destruct Q as (_ & _ & _ & Dead & Same).
  destruct (d_alive w) eqn:A.
  - destruct a; try (rewrite Same in A' by discriminate; discriminate).
    destruct C as [C1 C2]. destruct (gone_ok w HD A) as (w1 & E1 & _ & W & _ & _ & Sd & _). rewrite E1 in E. injection E as <-.
    split; [congruence|]. apply Sd, side_freed; assumption.
  - destruct (Dead eq_refl) as (_ & H1 & H2). destruct (P A). auto.
Qed.

Lemma calm_ok l : forall w, D w -> peace w -> calm_run l w -> exists w', run l w = Ok w'.
Proof.
  induction l as [|a l IH]; intros w HD P C; [eexists; reflexivity|]. inversion C as [|? ? ? C1 C2]; subst. cbn [run].
  pose proof (step_D a w HD) as Q. destruct (step a w) as [w1|e] eqn:E; cbn [bind].
  - apply IH; [apply Q|exact (calm_step a w w1 HD P C1 E)|exact (C2 w1 eq_refl)].
  - destruct Q as (_ & A & [X|X]); destruct (P A); contradiction.
Qed.

Lemma fault_kind l : forall w e, D w -> run l w = Fault e -> e = UseAfterFree.
Proof.
  induction l as [|a l IH]; intros w e HD E; cbn [run] in E; [discriminate|]. pose proof (step_D a w HD) as Q.
  destruct (step a w) as [w1|e1]; cbn [bind] in E; [apply (IH w1 e); [apply Q|exact E]|]. injection E as <-. apply Q.
Qed.

(** *** Feeds and what is shown *)
Lemma accepted_run_perm l : forall w w', D w -> run l w = Ok w' ->
  Permutation (shows (d_log w') ++ pending w') (shows (d_log w) ++ pending w ++ accepted_run l w).
Proof.
  induction l as [|a l IH]; intros w w' HD E; cbn [run accepted_run] in *; [injection E as <-; rewrite app_nil_r; reflexivity|].
  pose proof (step_D a w HD) as Q. destruct (step a w) as [w1|e]; [|discriminate]. cbn [bind] in E.
  destruct Q as [[HD1 (m & Lg & _ & P)] _]. rewrite (IH w1 w' HD1 E), Lg, shows_app, <- !app_assoc.
  apply Permutation_app_head. rewrite !app_assoc. apply Permutation_app_tail. rewrite Permutation_app_comm. exact P.
Qed.

Lemma accepted_fed a w : accepted a w = [] \/ accepted a w = [d_fed w].
Proof. destruct a; cbn; auto. destruct (owned i w); auto. destruct (d_alive w); auto. destruct (b_upright b); auto. destruct o; auto. Qed.

Lemma accepted_run_ge l : forall w, D w -> forall n, In n (accepted_run l w) -> (d_fed w <= n)%nat.
Proof.
  induction l as [|a l IH]; intros w HD n I; cbn [accepted_run] in I; [contradiction|]. apply in_app_or in I as [I|I].
  - destruct (accepted_fed a w) as [X|X]; rewrite X in I; [contradiction|]. destruct I as [<-|[]]. lia.
  - pose proof (step_D a w HD) as Q. destruct (step a w) as [w1|e]; [|contradiction]. destruct Q as ([HD1 _] & Fd & _).
    specialize (IH w1 HD1 n I). lia.
Qed.

Lemma increasing_cons n l : increasing l -> (forall m, In m l -> (n < m)%nat) -> increasing (n :: l).
Proof.
  intros H G [|i] [|j] a b L E1 E2; cbn in E1, E2; try lia.
  - injection E1 as <-. apply G. exact (nth_error_In _ _ E2).
  - apply (H i j a b); auto. lia.
Qed.

Lemma accepted_run_increasing l : forall w, D w -> increasing (accepted_run l w).
Proof.
  induction l as [|a l IH]; intros w HD; cbn [accepted_run]; [intros [|i] j x y _ E; discriminate|].
  pose proof (step_D a w HD) as Q. destruct (step a w) as [w1|e].
  - destruct Q as ([HD1 _] & Fd & Nx & _). destruct (accepted_fed a w) as [X|X]; rewrite X; [apply IH, HD1|]. cbn [app].
    apply increasing_cons; [apply IH, HD1|]. intros m I. pose proof (accepted_run_ge l w1 HD1 m I). rewrite Nx in H by (rewrite X; discriminate). lia.
  - rewrite app_nil_r. destruct (accepted_fed a w) as [X|X]; rewrite X; [intros [|i] j x y _ E; discriminate|].
    apply increasing_cons; [intros [|i] j x y _ E; discriminate|contradiction].
Qed.

Lemma increasing_NoDup l : increasing l -> NoDup l.
Proof.
  induction l as [|n l IH]; intros H; constructor.
  - intros I. destruct (In_nth_error _ _ I) as [i E]. specialize (H 0%nat (S i) n n). cbn in H. specialize (H ltac:(lia) eq_refl E). lia.
  - apply IH. intros i j a b L E1 E2. apply (H (S i) (S j) a b); auto. lia.
Qed.

Lemma perm_short (l m : list nat) : Permutation l m -> (length m <= 1)%nat -> l = m.
Proof.
  intros P H. destruct m as [|x [|y m]]; [apply Permutation_nil; symmetry; exact P|apply Permutation_length_1_inv; symmetry; exact P|cbn in H; lia].
Qed.

Lemma patient_order l : forall w w', D w -> (length (pending w) <= 1)%nat -> patient_run l w -> run l w = Ok w' ->
  shows (d_log w') ++ pending w' = shows (d_log w) ++ pending w ++ accepted_run l w.
Proof.
  induction l as [|a l IH]; intros w w' HD LP PR E; cbn [run accepted_run] in *; [injection E as <-; rewrite app_nil_r; reflexivity|].
  inversion PR as [|? ? ? P1 P2]; subst.
  pose proof (step_D a w HD) as Q. destruct (step a w) as [w1|e] eqn:Es; [|discriminate]. cbn [bind] in E.
  destruct Q as [[HD1 (m & Lg & _ & P)] _]. 
  assert (SH : (length (pending w ++ accepted a w) <= 1)%nat).
  { rewrite app_length. destruct (accepted_fed a w) as [X|X]; rewrite X; cbn [length]; [lia|]. destruct a; try discriminate X.
    cbn in P1. unfold pending. rewrite P1. cbn. lia. }
  rewrite Permutation_app_comm in P. apply perm_short in P; [|exact SH].
  assert (L1 : (length (pending w1) <= 1)%nat) by (rewrite <- P, app_length in SH; lia).
  rewrite (IH w1 w' HD1 L1 (P2 w1 eq_refl) E), Lg, shows_app, <- !app_assoc. f_equal. rewrite !app_assoc. f_equal. exact P.
Qed.

Lemma increasing_prefix l m : increasing (l ++ m) -> increasing l.
Proof.
  intros H i j a b L E1 E2. apply (H i j a b L); rewrite nth_error_app1; auto; apply nth_error_Some; congruence.
Qed.

(** A calm run, by computation. *)
Definition calmb (a : op) (w : world) : bool :=
  match a with
  | Gone => match d_works w with [] => true | _ => false end && forallb (fun b => negb (b_side b) || fb_freed (b_fb b)) (d_bufs w)
  | _ => true
  end.
Fixpoint calm_runb (l : list op) (w : world) : bool :=
  match l with
  | [] => true
  | a :: l => calmb a w && match step a w with Ok w' => calm_runb l w' | Fault _ => true end
  end.
Lemma calm_runb_ok l : forall w, calm_runb l w = true -> calm_run l w.
Proof.
  induction l as [|a l IH]; intros w H; [constructor|]. cbn [calm_runb] in H. apply andb_true_iff in H as [H1 H2]. constructor.
  - destruct a; try exact I. cbn [calmb] in H1. apply andb_true_iff in H1 as [H1 H3]. split; [destruct (d_works w); [reflexivity|discriminate]|].
    intros i b E S. rewrite forallb_forall in H3. specialize (H3 b (nth_error_In _ _ E)). rewrite S in H3. exact H3.
  - intros w' E. rewrite E in H2. apply IH, H2.
Qed.
