From Verif Require Import Common CommonProofs Pixels_Model Cursor_Model Rate_Model Rate_Spec Rate_Proofs.

(** C125: the order of the ratings. *)

Theorem C125_ratings_order_formats : forall clients t simple simple' f m d a g n e b,
  deepest clients t ->
  has_format f d a -> layout_ok m -> (simple = true -> m = 0) ->
  has_format g e b -> layout_ok n -> (simple' = true -> n = 0) ->
  (above (nvnc_rate_pixel_format clients simple f m) (nvnc_rate_pixel_format clients simple' g n) <-> preferred t (d, a) (e, b)).
Proof.
  intros c t simple simple' f m d a g n e b T F M S G N S'. apply highest_deepest in T.
  rewrite (rating_value c simple f m d a F M S), (rating_value c simple' g n e b G N S'), T. assert (P := highest_pos c). rewrite T in P.
  destruct (fmt_facts f d a F) as (_ & _ & D & _). destruct (fmt_facts g e b G) as (_ & _ & E & _).
  unfold above, preferred. cbn [num den fst snd].
  destruct (d >=? t) eqn:Q, (e >=? t) eqn:R, a, b; split; intros H; intuition lia.
Qed.

Theorem C125_cursor_ratings_order_formats : forall clients t simple simple' f m d g n e,
  deepest clients t ->
  has_format f d true -> layout_ok m -> (simple = true -> m = 0) ->
  has_format g e true -> layout_ok n -> (simple' = true -> n = 0) ->
  (above (nvnc_rate_cursor_pixel_format clients simple f m) (nvnc_rate_cursor_pixel_format clients simple' g n) <-> preferred_cursor t d e).
Proof.
  intros c t simple simple' f m d g n e T F M S G N S'. apply highest_deepest in T.
  rewrite (cursor_rating_value c simple f m d F M S), (cursor_rating_value c simple' g n e G N S'), T. assert (P := highest_pos c). rewrite T in P.
  destruct (fmt_facts f d true F) as (_ & _ & D & _). destruct (fmt_facts g e true G) as (_ & _ & E & _).
  unfold above, preferred_cursor. cbn [num den].
  destruct (d >=? t) eqn:Q, (e >=? t) eqn:R; split; intros H; intuition lia.
Qed.

(* who takes a best one of many loses no colours that another one would have kept *)
Theorem C125_best_candidate_keeps_the_colours : forall clients t simple cands best,
  deepest clients t -> Forall (candidate_ok simple) cands -> In best cands ->
  (forall c, In c cands -> ~ above (nvnc_rate_pixel_format clients simple (c_format c) (c_modifier c))
                                   (nvnc_rate_pixel_format clients simple (c_format best) (c_modifier best))) ->
  (exists c, In c cands /\ t <= c_depth c) -> t <= c_depth best /\ forall c, In c cands -> t <= c_depth c -> c_depth best <= c_depth c.
Proof.
  intros clients t simple cands best T F B M (c & C & D). rewrite Forall_forall in F.
  assert (K : forall c, In c cands -> ~ preferred t (c_depth c, c_alpha c) (c_depth best, c_alpha best)).
  { intros x X P. apply (M x X). destruct (F x X) as (F1 & F2 & F3). destruct (F best B) as (B1 & B2 & B3).
    now apply (C125_ratings_order_formats clients t simple simple _ _ (c_depth x) (c_alpha x) _ _ (c_depth best) (c_alpha best)). }
  unfold preferred in K. cbn [fst snd] in K.
  assert (t <= c_depth best) by (specialize (K c C); lia). split; [assumption|].
  intros x X Y. specialize (K x X). lia.
Qed.

(* the 16 bit formats are announced with seven bits per colour: a client that takes the
   server's own format makes a deeper one than the server's preferred *)
Theorem C125_own_format_is_deep_enough_refuted : exists f p g,
  pixfmt_from_fourcc f = Some p /\ has_format f 12 false /\ has_format g 24 false /\
  above (nvnc_rate_pixel_format [p] true g 0) (nvnc_rate_pixel_format [p] true f 0).
Proof.
  exists (fourcc "XR12"), (mk_fmt 16 12 0 1 127 127 127 8 4 0), (fourcc "XR24"). split; [reflexivity|].
  split; [exists "XR12"%string; split; [cbn; tauto|reflexivity]|].
  split; [exists "XR24"%string; split; [cbn; tauto|reflexivity]|]. vm_compute. reflexivity.
Qed.

(** C126: what cannot be used is rated 0, all else is rated above 0 and at most 1. *)

Theorem C126_zero_for_unusable_only : forall clients simple format modifier,
  0 <= format < 2 ^ 32 -> 0 <= modifier < 2 ^ 64 ->
  let r := nvnc_rate_pixel_format clients simple format modifier in
  let usable := known_format format /\ layout_ok modifier /\ (simple = true -> modifier = 0) in
  (usable -> positive r) /\ (~ usable -> zero r) /\ at_most_one r.
Proof.
  intros c simple f m F M r usable.
  assert (U : usable <-> 0 < num r) by
   (unfold usable, r, nvnc_rate_pixel_format; destruct (simple && negb (m =? 0)) eqn:S;
    [ cbn [num]; split; [intros (_ & _ & X); destruct simple; [rewrite X in S by reflexivity|]; discriminate|lia]
    | rewrite (rate_positive f m (mk_flags false false) _ (highest_pos c) F M); cbn [need_alpha]; split;
      [ intros (X & Y & Z0); split; [|split; [exact Y|discriminate]];
        destruct X as (d & a & [X|(g & -> & X)]); destruct (fmt_facts _ _ _ X) as (? & _ & ? & ? & _); lia
      | intros (X & Y & _); split; [exact (depth_known f F X)|split; [exact Y|]];
        intros ->; destruct (m =? 0) eqn:E; [lia|discriminate] ] ]).
  assert (R : 0 <= num r <= den r /\ 0 < den r).
  { unfold r, nvnc_rate_pixel_format. destruct (_ && _); [cbn; lia|]. apply rate_range, highest_pos. }
  unfold positive, zero, at_most_one. split; [|split].
  - intros X. apply U in X. lia.
  - intros X. destruct (Z.eq_dec (num r) 0); [lia|]. exfalso. apply X, U. lia.
  - lia.
Qed.

Theorem C126_cursor_zero_for_unusable_only_partial : forall clients simple format modifier,
  0 <= format < 2 ^ 31 -> 0 <= modifier < 2 ^ 64 ->
  let r := nvnc_rate_cursor_pixel_format clients simple format modifier in
  let usable := (exists d, has_format format d true) /\ layout_ok modifier /\ (simple = true -> modifier = 0) in
  (usable -> positive r) /\ (~ usable -> zero r) /\ at_most_one r.
Proof.
  intros c simple f m F M r usable.
  assert (U : usable <-> 0 < num r) by
   (unfold usable, r, nvnc_rate_cursor_pixel_format; destruct (simple && negb (m =? 0)) eqn:S;
    [ cbn [num]; split; [intros (_ & _ & X); destruct simple; [rewrite X in S by reflexivity|]; discriminate|lia]
    | rewrite (rate_positive f m (mk_flags true false) _ (highest_pos c) ltac:(lia) M); cbn [need_alpha]; split;
      [ intros ((d & X) & Y & Z0); destruct (fmt_facts _ _ _ X) as (? & ? & ? & ? & _); split; [lia|split; [exact Y|auto]]
      | intros (X & Y & A); split; [|split; [exact Y|]];
        [ destruct (depth_known f ltac:(lia) X) as (d & a & [H|(g & -> & H)]); destruct (fmt_facts _ _ _ H) as (_ & A' & _ & _ & _ & G);
          [exists d; rewrite A' in A; rewrite <- (A eq_refl); exact H | unfold twin in F; lia]
        | intros ->; destruct (m =? 0) eqn:E; [lia|discriminate] ] ] ]).
  assert (R : 0 <= num r <= den r /\ 0 < den r).
  { unfold r, nvnc_rate_cursor_pixel_format. destruct (_ && _); [cbn; lia|]. apply rate_range, highest_pos. }
  unfold positive, zero, at_most_one. split; [|split].
  - intros X. apply U in X. lia.
  - intros X. destruct (Z.eq_dec (num r) 0); [lia|]. exfalso. apply X, U. lia.
  - lia.
Qed.

(* missing above: cursors of big-endian formats, whose alpha can be read but is not seen *)
Theorem C126_big_endian_cursor_refuted : exists f px, alpha_layout (twin f) <> None /\
  extract_alpha_mask [0] (twin f) px = extract_alpha_mask [0] f px /\
  positive (nvnc_rate_cursor_pixel_format [] true f 0) /\ zero (nvnc_rate_cursor_pixel_format [] true (twin f) 0).
Proof.
  exists (fourcc "AR24"), [0; 2 ^ 32 - 1]. split; [discriminate|]. split; [reflexivity|]. unfold positive, zero.
  split; vm_compute; repeat split; congruence.
Qed.

(* a rating above 0 is no promise that a buffer with a transform can be drawn: the server
   stops for want of a format, or because of the byte order *)
Theorem C126_usable_when_transformed_refuted : exists f g,
  positive (nvnc_rate_pixel_format [] true f 0) /\ pixman_format f = Ok false /\
  positive (nvnc_rate_pixel_format [] true g 0) /\ pixman_format g = Fault AssertFail.
Proof.
  exists (fourcc "RX30"), (twin (fourcc "XR24")). unfold positive. repeat split; vm_compute; congruence.
Qed.

(** Cases that meet the hypotheses. *)
Definition viewer : pixfmt := mk_fmt 16 16 0 1 31 63 31 11 5 0.

Example deepest_case : deepest [viewer; rgb332] 16.
Proof. apply highest_deepest. reflexivity. Qed.

Example order_case : has_format (fourcc "XR24") 24 false /\ has_format (fourcc "AR30") 30 true /\ has_format (fourcc "RX12") 12 false /\
  preferred 16 (24, false) (30, true) /\ preferred 16 (30, true) (12, false) /\
  layout_ok 0 /\ layout_ok (2 ^ 57 + 2 ^ 20) /\ ~ layout_ok (2 ^ 57 + 2 ^ 13).
Proof.
  split; [exists "XR24"%string; split; [cbn; tauto|reflexivity]|].
  split; [exists "AR30"%string; split; [cbn; tauto|reflexivity]|].
  split; [exists "RX12"%string; split; [cbn; tauto|reflexivity]|].
  unfold preferred, layout_ok. cbn [fst snd]. split; [lia|]. split; [lia|]. split; [auto|].
  split; [do 4 right; split; [reflexivity|split; reflexivity]|].
  intros H. destruct H as [H|[H|[H|[H|(H & H' & _)]]]]; discriminate.
Qed.

Example best_case : let cands := [mk_cand (fourcc "RX12") 0 12 false; mk_cand (fourcc "AR24") 0 24 true; mk_cand (fourcc "XR30") 0 30 false] in
  Forall (candidate_ok true) cands /\
  forall c, In c cands -> ~ above (nvnc_rate_pixel_format [viewer] true (c_format c) (c_modifier c))
                                  (nvnc_rate_pixel_format [viewer] true (fourcc "AR24") 0).
Proof.
  cbv zeta. split.
  - assert (K : forall n d a, In (n, (d, a)) formats -> candidate_ok true (mk_cand (fourcc n) 0 d a)).
    { intros n d a I. split; [exists n; auto|]. split; [now left|reflexivity]. }
    repeat (apply Forall_cons; [apply K; cbn; tauto|]). constructor.
  - intros c [<-|[<-|[<-|[]]]]; vm_compute; discriminate.
Qed.

Print Assumptions C125_ratings_order_formats.
Print Assumptions C125_cursor_ratings_order_formats.
Print Assumptions C125_best_candidate_keeps_the_colours.
Print Assumptions C125_own_format_is_deep_enough_refuted.
Print Assumptions C126_zero_for_unusable_only.
Print Assumptions C126_cursor_zero_for_unusable_only_partial.
Print Assumptions C126_big_endian_cursor_refuted.
Print Assumptions C126_usable_when_transformed_refuted.
