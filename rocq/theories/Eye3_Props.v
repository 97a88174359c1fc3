(** C148: from the application's pixels to those of a viewer, while the client changes
    between the Raw, ZRLE and Tight encodings. *)
From Verif Require Import Common CommonProofs Pixels_Model Pixels_Props Zrle_Model Zrle_Spec Zrle_Props Raw_Model Raw_Spec
  Tight_Model Tight_Spec Msg_Model Msg_Spec Msg_Proofs Upd_Spec Upd_Proofs Upd2_Proofs Upd3_Proofs Upd_Props
  Mirror_Spec Mirror_Proofs Mirror_Props Wire_Spec Wire_Proofs Eye_Spec Eye2_Spec Eye3_Spec Wire2_Proofs Wire3_Proofs
  Eye_Proofs Eye2_Proofs Eye3_Proofs Eye_Props Eye2_Props.
From Verif Require Tight_Props.

(** C142, C146 and C147 in one: each frame is made by any of the three encoders, the ZRLE
    and Tight encoders going on from where they were; the viewer's streams likewise. *)
Theorem C148_viewer_shows_picture :
  forall zstate istate deflate inflate synced, zlib_works zstate istate deflate inflate synced ->
  forall E fuel p src d seq e st e' (l : scene (list Z)) c v (P : Mirror_Spec.picture (list Z)) x y,
    0 <= bits_per_pixel src -> synced (fst e) st -> well_formed (snd e) -> streams_synced synced (snd e) [st; st; st; st] ->
    cursors (fun _ => viewer_of p) E -> cursor_shapes E ->
    watch _ (touched p) E fuel l (ready p d seq) (nothing_yet _) = Ok (c, v) ->
    orderly _ (touched p) E fuel l (ready p d seq) (nothing_yet _) = true ->
    made_run (touched p) (zstate * tenc zstate) (any_frame zstate deflate p src) E fuel l (ready p d seq) (nothing_yet _) e e' ->
    one_byte_leds (log c) -> steady _ l P -> holds x y d -> Forall (fun z => input_holds x y (fst z)) l ->
    (forall h, e_more E h = None) \/ count is_fence (log c) = 0 ->
    none_lost (log c) -> ~ Upd_Spec.covers (damage c) x y -> coming _ v = None ->
    exists ms, splits (fun _ => viewer_of p) [] (traffic (log c)) ms /\
      (on_screen istate inflate p st ms x y = None \/
       exists q, on_screen istate inflate p st ms x y = Some q /\ pixel_form p src (last_picture _ P l x y) q).
Proof.
  intros zstate istate deflate inflate synced ZW E fuel p src d seq e st e' l c v P x y B SZ WF SY CU SH W OR RF O1 ST H F N NL D C.
  destruct (watch_shown (viewer_of p) (viewer_prefix _ _) _ _ (full_still istate inflate _ _ _) (scr istate)
    (pixel_form p src) (touched p) _ (tight_wide p)
    (zstate * tenc zstate) _ (both_sync zstate istate synced) (fun z rg Q f z' s => any_made zstate istate deflate inflate synced ZW p src B z rg Q f z' s)
    True E fuel p d seq [] _ l c v (mk_view istate dark st [st; st; st; st]) e e' CU SH I eq_refl
    (fun _ => conj eq_refl (fun _ _ => eq_refl)) W OR NL RF (conj SZ (conj WF SY)) O1) as (ms & S0 & G).
  exists ms. split; [exact S0|]. specialize (G x y).
  destruct (C130_screen_shows_picture_partial _ (touched p) E fuel p d seq l c v P x y W ST OR H F N NL D C) as [K|K]; rewrite K in G.
  - left. apply G, I.
  - right. destruct G as (q & G2 & G1). exists q. auto.
Qed.
Print Assumptions C148_viewer_shows_picture.

Theorem C148_viewer_shows_marked :
  forall zstate istate deflate inflate synced, zlib_works zstate istate deflate inflate synced ->
  forall E fuel p src d seq e st e1 e2 (l0 : scene (list Z)) c0 v0 (l : scene (list Z)) c v (P : Mirror_Spec.picture (list Z)) x y,
    0 <= bits_per_pixel src -> synced (fst e) st -> well_formed (snd e) -> streams_synced synced (snd e) [st; st; st; st] ->
    cursors (fun _ => viewer_of p) E -> cursor_shapes E ->
    watch _ (touched p) E fuel l0 (ready p d seq) (nothing_yet _) = Ok (c0, v0) ->
    orderly _ (touched p) E fuel l0 (ready p d seq) (nothing_yet _) = true ->
    made_run (touched p) (zstate * tenc zstate) (any_frame zstate deflate p src) E fuel l0 (ready p d seq) (nothing_yet _) e e1 ->
    updating c0 = false -> Upd_Spec.covers (damage c0) x y ->
    watch _ (touched p) E fuel l c0 (nothing_yet _) = Ok (c, v) ->
    orderly _ (touched p) E fuel l c0 (nothing_yet _) = true ->
    made_run (touched p) (zstate * tenc zstate) (any_frame zstate deflate p src) E fuel l c0 (nothing_yet _) e1 e2 ->
    one_byte_leds (log c) -> steady _ l P -> holds x y d -> Forall (fun z => input_holds x y (fst z)) (l0 ++ l) ->
    (forall h, e_more E h = None) \/ count is_fence (log c) = 0 ->
    none_lost (log c) -> ~ Upd_Spec.covers (damage c) x y -> coming _ v = None ->
    exists ms q, splits (fun _ => viewer_of p) [] (traffic (log c)) ms /\
      on_screen istate inflate p st ms x y = Some q /\ pixel_form p src (last_picture _ P l x y) q.
Proof.
  intros zstate istate deflate inflate synced ZW E fuel p src d seq e st e1 e2 l0 c0 v0 l c v P x y B SZ WF SY CU SH W0 OR0 RF0 U M
    W OR RF O1 ST H F N NL D C. apply Forall_app in F as [F0 F].
  destruct (watch_shown2 (viewer_of p) (viewer_prefix _ _) _ _ (full_still istate inflate _ _ _) (scr istate)
    (pixel_form p src) (touched p) _ (tight_wide p)
    (zstate * tenc zstate) _ (both_sync zstate istate synced) (fun z rg Q f z' s => any_made zstate istate deflate inflate synced ZW p src B z rg Q f z' s)
    False E fuel p d seq l0 c0 v0 l c v (mk_view istate dark st [st; st; st; st]) e e1 e2 CU SH (fun x => x) (conj SZ (conj WF SY)) W0 OR0 RF0 W OR NL RF O1)
    as (ms & S0 & G).
  specialize (G x y).
  rewrite (C130_marked_pixel_is_shown_partial _ (touched p) E fuel p d seq (map fst l0) c0 l c v P x y) in G; auto.
  - destruct G as (q & G2 & G1). exists ms, q. auto.
  - eapply watch_run. exact W0.
  - apply Forall_map. exact F0.
Qed.
Print Assumptions C148_viewer_shows_marked.

(** The first frame Raw, the second ZRLE, the third Tight. *)
Definition mixed_story : scene (list Z) :=
  [(IRead (Some (encodings [0])), canvas 6); (IRead (Some [3; 0; 0; 0; 0; 0; 0; 3; 0; 2]), canvas 6); (IEncoded first, canvas 6);
   (IWritten, canvas 6);
   (IRead (Some (encodings [16])), canvas 6);
   (IDamage tiny [(1, 1, 3, 2)], canvas 7); (IRead (Some [3; 1; 0; 0; 0; 0; 0; 3; 0; 2]), canvas 7);
   (IEncoded zsecond, canvas 7); (IWritten, canvas 7);
   (IRead (Some (encodings [7])), canvas 7);
   (IDamage tiny [(0, 0, 3, 2)], canvas 7); (IRead (Some [3; 1; 0; 0; 0; 0; 0; 3; 0; 2]), canvas 7);
   (IEncoded tsecond, canvas 7); (IWritten, canvas 7)].
Definition mixed_wire : list (list Z) := [[0; 0; 0; 1] ++ f_data first; [0; 0; 0; 1] ++ f_data zsecond; [0; 0; 0; 1] ++ f_data tsecond].
Definition te_last : tenc unit := te_after [16; 33; 32; 66; 48; 99; 64; 132; 80; 165; 112; 231].

Example C148_case : exists c v,
  zlib_works unit unit id_z id_i (fun _ _ => True) /\ well_formed Tight_Props.fresh /\
  streams_synced (fun _ _ : unit => True) Tight_Props.fresh [tt; tt; tt; tt] /\
  watch _ (touched rgb565be) no_cursor 3 mixed_story start (nothing_yet _) = Ok (c, v) /\
  orderly _ (touched rgb565be) no_cursor 3 mixed_story start (nothing_yet _) = true /\
  made_run (touched rgb565be) _ (any_frame unit id_z rgb565be xrgb8888) no_cursor 3
    mixed_story start (nothing_yet _) (tt, Tight_Props.fresh) (tt, te_last) /\
  one_byte_leds (log c) /\ steady _ mixed_story (canvas 6) /\ none_lost (log c) /\ damage c = [] /\ coming _ v = None /\
  splits (fun _ => viewer_of rgb565be) [] (traffic (log c)) mixed_wire /\
  on_screen unit id_i rgb565be tt mixed_wire 2 1 = Some [112; 231] /\ on_screen unit id_i rgb565be tt mixed_wire 0 1 = Some [64; 132] /\
  on_screen unit id_i rgb565be tt mixed_wire 3 1 = None.
Proof.
  eexists _, _. split; [exact (proj1 C66_ex)|]. split; [apply Tight_Props.fresh_ok|]. split; [apply Tight_Props.fresh_ok|]. split; [vm_compute; reflexivity|].
  split; [vm_compute; reflexivity|]. split.
  { unfold mixed_story. cbn [made_run]. cbn [coming nothing_yet].
    do 2 (eexists; split; [reflexivity|]; next_input).
    eexists. split; [left; split; [exact first_frame|reflexivity]|]. next_input.
    do 4 (eexists; split; [reflexivity|]; next_input).
    exists (tt, Tight_Props.fresh). split; [right; left; split; [exact zsecond_frame|reflexivity]|]. next_input.
    do 4 (eexists; split; [reflexivity|]; next_input).
    exists (tt, te_last). split.
    { right; right; split; [|reflexivity]. apply (tight_case _ 7 0 tsecond); [auto|auto|reflexivity|vm_compute; reflexivity]. }
    next_input. eexists. split; [reflexivity|]. intros c H. reflexivity. }
  split; [intros b B; cbn [log] in B; repeat (destruct B as [B|B]; [discriminate B|]); destruct B|].
  split.
  { cbn [steady mixed_story]. do 5 (split; [auto|]). split; [|repeat (split; [auto|]); exact I].
    intros x y. destruct (canvas_changes x y) as [X|X]; [auto|right]. eexists _, _. split; [reflexivity|exact X]. }
  split; [cbn [log]; repeat (apply Forall_cons; [exact I|]); constructor|]. split; [reflexivity|]. split; [reflexivity|].
  split.
  { change (traffic _) with (concat mixed_wire). unfold mixed_wire. cbn [concat].
    repeat (apply s_message; [reflexivity|]). constructor. }
  split; [vm_compute; reflexivity|]. split; vm_compute; reflexivity.
Qed.

(** The second theorem: up to the change, and after it. *)
Example C148_marked_case : let b := firstn 6 mixed_story in let a := skipn 6 mixed_story in exists c0 v0 c v,
  watch _ (touched rgb565be) no_cursor 3 b start (nothing_yet _) = Ok (c0, v0) /\
  orderly _ (touched rgb565be) no_cursor 3 b start (nothing_yet _) = true /\
  made_run (touched rgb565be) _ (any_frame unit id_z rgb565be xrgb8888) no_cursor 3 b start (nothing_yet _) (tt, Tight_Props.fresh) (tt, Tight_Props.fresh) /\
  updating c0 = false /\ Upd_Spec.covers (damage c0) 2 1 /\
  watch _ (touched rgb565be) no_cursor 3 a c0 (nothing_yet _) = Ok (c, v) /\
  orderly _ (touched rgb565be) no_cursor 3 a c0 (nothing_yet _) = true /\
  made_run (touched rgb565be) _ (any_frame unit id_z rgb565be xrgb8888) no_cursor 3 a c0 (nothing_yet _) (tt, Tight_Props.fresh) (tt, te_last) /\
  steady _ a (canvas 7) /\ holds 2 1 tiny /\ damage c = [] /\ coming _ v = None.
Proof.
  cbv zeta. eexists _, _, _, _. split; [vm_compute; reflexivity|]. split; [vm_compute; reflexivity|]. split.
  { unfold mixed_story. cbn [firstn made_run]. cbn [coming nothing_yet].
    do 2 (eexists; split; [reflexivity|]; next_input).
    eexists. split; [left; split; [exact first_frame|reflexivity]|]. next_input.
    do 2 (eexists; split; [reflexivity|]; next_input). eexists. split; [reflexivity|]. intros c H. reflexivity. }
  split; [reflexivity|]. split; [constructor; lia|]. split; [vm_compute; reflexivity|]. split; [vm_compute; reflexivity|]. split.
  { unfold mixed_story. cbn [skipn made_run]. cbn [coming nothing_yet].
    eexists. split; [reflexivity|]. next_input.
    exists (tt, Tight_Props.fresh). split; [right; left; split; [exact zsecond_frame|reflexivity]|]. next_input.
    do 4 (eexists; split; [reflexivity|]; next_input).
    exists (tt, te_last). split.
    { right; right; split; [|reflexivity]. apply (tight_case _ 7 0 tsecond); [auto|auto|reflexivity|vm_compute; reflexivity]. }
    next_input. eexists. split; [reflexivity|]. intros c H. reflexivity. }
  split; [unfold mixed_story; cbn [skipn steady]; repeat (split; [auto|]); exact I|].
  split; [vm_compute; repeat split; congruence|]. split; reflexivity.
Qed.
