(** C146, C147: from the application's pixels to those of a viewer that reads the bytes,
    for the ZRLE and Tight encodings. *)
From Verif Require Import Common CommonProofs Pixels_Model Pixels_Props Zrle_Model Zrle_Spec Zrle_Props Raw_Model Raw_Spec
  Tight_Model Tight_Spec Msg_Model Msg_Spec Msg_Proofs Upd_Spec Upd_Proofs Upd2_Proofs Upd3_Proofs Upd_Props
  Mirror_Spec Mirror_Proofs Mirror_Props Wire_Spec Wire_Proofs Eye_Spec Eye2_Spec Wire2_Proofs Wire3_Proofs Eye_Proofs Eye2_Proofs Eye_Props.
From Verif Require Tight_Props.

(** C142 for ZRLE: a client with the format [p], frames of the ZRLE encoder, one zlib
    stream through all of them, with a zlib that works.  A pixel that is neither marked nor
    on its way is dark on the viewer's screen, or shows the conversion of the pixel the
    application shows there now. *)
Theorem C146_zrle_viewer_shows_picture :
  forall zstate istate deflate inflate synced, zlib_works zstate istate deflate inflate synced ->
  forall E fuel p src d seq zs st zs' (l : scene (list Z)) c v (P : Mirror_Spec.picture (list Z)) x y,
    0 <= bits_per_pixel src / 8 -> synced zs st ->
    cursors (fun _ => viewer_of p) E -> cursor_shapes E ->
    watch _ no_more E fuel l (ready p d seq) (nothing_yet _) = Ok (c, v) ->
    orderly _ no_more E fuel l (ready p d seq) (nothing_yet _) = true ->
    made_run no_more zstate (zrle_frame zstate deflate p src) E fuel l (ready p d seq) (nothing_yet _) zs zs' ->
    one_byte_leds (log c) -> steady _ l P -> holds x y d -> Forall (fun z => input_holds x y (fst z)) l ->
    (forall h, e_more E h = None) \/ count is_fence (log c) = 0 ->
    none_lost (log c) -> ~ Upd_Spec.covers (damage c) x y -> coming _ v = None ->
    exists ms, splits (fun _ => viewer_of p) [] (traffic (log c)) ms /\
      (on_screen istate inflate p st ms x y = None \/
       exists q, on_screen istate inflate p st ms x y = Some q /\
         pixel_to_cpixel (calc_bytes_per_cpixel p) p src (last_picture _ P l x y) 0 1 = Ok q).
Proof.
  intros zstate istate deflate inflate synced ZW E fuel p src d seq zs st zs' l c v P x y B SY CU SH W OR RF O1 ST H F N NL D C.
  destruct (watch_shown (viewer_of p) (viewer_prefix _ _) _ _ (full_still istate inflate _ _ _) (scr istate)
    (fun q c => pixel_to_cpixel (calc_bytes_per_cpixel p) p src q 0 1 = Ok c) no_more (fun _ _ _ => false) (fun _ _ _ _ _ => eq_refl)
    zstate _ (fun z s => synced z (zr istate s)) (fun z rg Q f z' s => zrle_made zstate istate deflate inflate synced ZW p src B z rg Q f z' s)
    True E fuel p d seq [] _ l c v (mk_view istate dark st [st; st; st; st]) zs zs' CU SH I eq_refl
    (fun _ => conj eq_refl (fun _ _ => eq_refl)) W OR NL RF SY O1) as (ms & S0 & G).
  exists ms. split; [exact S0|]. specialize (G x y).
  destruct (C130_screen_shows_picture_partial _ no_more E fuel p d seq l c v P x y W ST OR H F N NL D C) as [K|K]; rewrite K in G.
  - left. apply G, I.
  - right. destruct G as (q & G2 & G1). exists q. auto.
Qed.
Print Assumptions C146_zrle_viewer_shows_picture.

(** And from the moment a pixel was marked while no update was being made, it does show
    it: [l0] before, [l] after. *)
Theorem C146_zrle_viewer_shows_marked :
  forall zstate istate deflate inflate synced, zlib_works zstate istate deflate inflate synced ->
  forall E fuel p src d seq zs st zs1 zs2 (l0 : scene (list Z)) c0 v0 (l : scene (list Z)) c v (P : Mirror_Spec.picture (list Z)) x y,
    0 <= bits_per_pixel src / 8 -> synced zs st ->
    cursors (fun _ => viewer_of p) E -> cursor_shapes E ->
    watch _ no_more E fuel l0 (ready p d seq) (nothing_yet _) = Ok (c0, v0) ->
    orderly _ no_more E fuel l0 (ready p d seq) (nothing_yet _) = true ->
    made_run no_more zstate (zrle_frame zstate deflate p src) E fuel l0 (ready p d seq) (nothing_yet _) zs zs1 ->
    updating c0 = false -> Upd_Spec.covers (damage c0) x y ->
    watch _ no_more E fuel l c0 (nothing_yet _) = Ok (c, v) ->
    orderly _ no_more E fuel l c0 (nothing_yet _) = true ->
    made_run no_more zstate (zrle_frame zstate deflate p src) E fuel l c0 (nothing_yet _) zs1 zs2 ->
    one_byte_leds (log c) -> steady _ l P -> holds x y d -> Forall (fun z => input_holds x y (fst z)) (l0 ++ l) ->
    (forall h, e_more E h = None) \/ count is_fence (log c) = 0 ->
    none_lost (log c) -> ~ Upd_Spec.covers (damage c) x y -> coming _ v = None ->
    exists ms q, splits (fun _ => viewer_of p) [] (traffic (log c)) ms /\
      on_screen istate inflate p st ms x y = Some q /\
      pixel_to_cpixel (calc_bytes_per_cpixel p) p src (last_picture _ P l x y) 0 1 = Ok q.
Proof.
  intros zstate istate deflate inflate synced ZW E fuel p src d seq zs st zs1 zs2 l0 c0 v0 l c v P x y B SY CU SH W0 OR0 RF0 U M
    W OR RF O1 ST H F N NL D C. apply Forall_app in F as [F0 F].
  destruct (watch_shown2 (viewer_of p) (viewer_prefix _ _) _ _ (full_still istate inflate _ _ _) (scr istate)
    (fun q c => pixel_to_cpixel (calc_bytes_per_cpixel p) p src q 0 1 = Ok c) no_more (fun _ _ _ => false) (fun _ _ _ _ _ => eq_refl)
    zstate _ (fun z s => synced z (zr istate s)) (fun z rg Q f z' s => zrle_made zstate istate deflate inflate synced ZW p src B z rg Q f z' s)
    False E fuel p d seq l0 c0 v0 l c v (mk_view istate dark st [st; st; st; st]) zs zs1 zs2 CU SH (fun x => x) SY W0 OR0 RF0 W OR NL RF O1)
    as (ms & S0 & G).
  specialize (G x y).
  rewrite (C130_marked_pixel_is_shown_partial _ no_more E fuel p d seq (map fst l0) c0 l c v P x y) in G; auto.
  - destruct G as (q & G2 & G1). exists ms, q. auto.
  - eapply watch_run. exact W0.
  - apply Forall_map. exact F0.
Qed.
Print Assumptions C146_zrle_viewer_shows_marked.

(** C142 for Tight without JPEG, four zlib streams.  The frames show whole tiles, so also
    pixels that were not damaged; those show what the application showed when the frame was
    begun, and by the time it is there they are right or marked. *)
Theorem C147_tight_viewer_shows_picture :
  forall zstate istate deflate inflate synced, zlib_works zstate istate deflate inflate synced ->
  forall E fuel p src d seq te st te' (l : scene (list Z)) c v (P : Mirror_Spec.picture (list Z)) x y,
    0 <= bits_per_pixel src -> well_formed te -> streams_synced synced te [st; st; st; st] ->
    cursors (fun _ => viewer_of p) E -> cursor_shapes E ->
    watch _ (touched p) E fuel l (ready p d seq) (nothing_yet _) = Ok (c, v) ->
    orderly _ (touched p) E fuel l (ready p d seq) (nothing_yet _) = true ->
    made_run (touched p) (tenc zstate) (tight_frame zstate deflate p src) E fuel l (ready p d seq) (nothing_yet _) te te' ->
    one_byte_leds (log c) -> steady _ l P -> holds x y d -> Forall (fun z => input_holds x y (fst z)) l ->
    (forall h, e_more E h = None) \/ count is_fence (log c) = 0 ->
    none_lost (log c) -> ~ Upd_Spec.covers (damage c) x y -> coming _ v = None ->
    exists ms, splits (fun _ => viewer_of p) [] (traffic (log c)) ms /\
      (on_screen istate inflate p st ms x y = None \/
       exists q, on_screen istate inflate p st ms x y = Some q /\ tpixel p src (last_picture _ P l x y) = Ok q).
Proof.
  intros zstate istate deflate inflate synced ZW E fuel p src d seq te st te' l c v P x y B WF SY CU SH W OR RF O1 ST H F N NL D C.
  destruct (watch_shown (viewer_of p) (viewer_prefix _ _) _ _ (full_still istate inflate _ _ _) (scr istate)
    (fun q c => tpixel p src q = Ok c) (touched p) _ (tight_wide p)
    (tenc zstate) _ (tight_sync zstate istate synced) (fun z rg Q f z' s => tight_made zstate istate deflate inflate synced ZW p src B z rg Q f z' s)
    True E fuel p d seq [] _ l c v (mk_view istate dark st [st; st; st; st]) te te' CU SH I eq_refl
    (fun _ => conj eq_refl (fun _ _ => eq_refl)) W OR NL RF (conj WF SY) O1) as (ms & S0 & G).
  exists ms. split; [exact S0|]. specialize (G x y).
  destruct (C130_screen_shows_picture_partial _ (touched p) E fuel p d seq l c v P x y W ST OR H F N NL D C) as [K|K]; rewrite K in G.
  - left. apply G, I.
  - right. destruct G as (q & G2 & G1). exists q. auto.
Qed.
Print Assumptions C147_tight_viewer_shows_picture.

Theorem C147_tight_viewer_shows_marked :
  forall zstate istate deflate inflate synced, zlib_works zstate istate deflate inflate synced ->
  forall E fuel p src d seq te st te1 te2 (l0 : scene (list Z)) c0 v0 (l : scene (list Z)) c v (P : Mirror_Spec.picture (list Z)) x y,
    0 <= bits_per_pixel src -> well_formed te -> streams_synced synced te [st; st; st; st] ->
    cursors (fun _ => viewer_of p) E -> cursor_shapes E ->
    watch _ (touched p) E fuel l0 (ready p d seq) (nothing_yet _) = Ok (c0, v0) ->
    orderly _ (touched p) E fuel l0 (ready p d seq) (nothing_yet _) = true ->
    made_run (touched p) (tenc zstate) (tight_frame zstate deflate p src) E fuel l0 (ready p d seq) (nothing_yet _) te te1 ->
    updating c0 = false -> Upd_Spec.covers (damage c0) x y ->
    watch _ (touched p) E fuel l c0 (nothing_yet _) = Ok (c, v) ->
    orderly _ (touched p) E fuel l c0 (nothing_yet _) = true ->
    made_run (touched p) (tenc zstate) (tight_frame zstate deflate p src) E fuel l c0 (nothing_yet _) te1 te2 ->
    one_byte_leds (log c) -> steady _ l P -> holds x y d -> Forall (fun z => input_holds x y (fst z)) (l0 ++ l) ->
    (forall h, e_more E h = None) \/ count is_fence (log c) = 0 ->
    none_lost (log c) -> ~ Upd_Spec.covers (damage c) x y -> coming _ v = None ->
    exists ms q, splits (fun _ => viewer_of p) [] (traffic (log c)) ms /\
      on_screen istate inflate p st ms x y = Some q /\ tpixel p src (last_picture _ P l x y) = Ok q.
Proof.
  intros zstate istate deflate inflate synced ZW E fuel p src d seq te st te1 te2 l0 c0 v0 l c v P x y B WF SY CU SH W0 OR0 RF0 U M
    W OR RF O1 ST H F N NL D C. apply Forall_app in F as [F0 F].
  destruct (watch_shown2 (viewer_of p) (viewer_prefix _ _) _ _ (full_still istate inflate _ _ _) (scr istate)
    (fun q c => tpixel p src q = Ok c) (touched p) _ (tight_wide p)
    (tenc zstate) _ (tight_sync zstate istate synced) (fun z rg Q f z' s => tight_made zstate istate deflate inflate synced ZW p src B z rg Q f z' s)
    False E fuel p d seq l0 c0 v0 l c v (mk_view istate dark st [st; st; st; st]) te te1 te2 CU SH (fun x => x) (conj WF SY) W0 OR0 RF0 W OR NL RF O1)
    as (ms & S0 & G).
  specialize (G x y).
  rewrite (C130_marked_pixel_is_shown_partial _ (touched p) E fuel p d seq (map fst l0) c0 l c v P x y) in G; auto.
  - destruct G as (q & G2 & G1). exists ms, q. auto.
  - eapply watch_run. exact W0.
  - apply Forall_map. exact F0.
Qed.
Print Assumptions C147_tight_viewer_shows_marked.

(** The buffer and the client of C142's case, with the identity for zlib. *)
Definition look_story (e : Z) (f1 f2 : frame) : scene (list Z) :=
  [(IRead (Some (encodings [e])), canvas 6); (IRead (Some [3; 0; 0; 0; 0; 0; 0; 3; 0; 2]), canvas 6); (IEncoded f1, canvas 6);
   (IWritten, canvas 6);
   (IDamage tiny [(1, 1, 3, 2)], canvas 7); (IRead (Some [3; 1; 0; 0; 0; 0; 0; 3; 0; 2]), canvas 7);
   (IEncoded f2, canvas 7); (IWritten, canvas 7)].
Lemma look_steady e f1 f2 : steady _ (look_story e f1 f2) (canvas 6).
Proof.
  cbn [steady look_story]. do 4 (split; [auto|]). split; [|repeat (split; [auto|]); exact I].
  intros x y. destruct (canvas_changes x y) as [X|X]; [auto|right]. eexists _, _. split; [reflexivity|exact X].
Qed.
Lemma pixel_there k x y : k = 6 \/ k = 7 -> 0 <= x < 3 -> 0 <= y < 2 -> get (pixels k) ((y * 3 + x) * (bits_per_pixel xrgb8888 / 8)) (bits_per_pixel xrgb8888 / 8) = Ok (canvas k x y).
Proof.
  intros K X Y. assert (Y' : y = 0 \/ y = 1) by lia. assert (X' : x = 0 \/ x = 1 \/ x = 2) by lia.
  destruct K as [->| ->], Y' as [->| ->], X' as [->|[->| ->]]; vm_compute; reflexivity.
Qed.

Definition zfirst : frame := mk_frame 1 3 2 None
  [0; 0; 0; 0; 0; 3; 0; 2; 0; 0; 0; 16; 0; 0; 0; 13; 0; 16; 33; 32; 66; 48; 99; 64; 132; 80; 165; 96; 198].
Definition zsecond : frame := mk_frame 1 3 2 None [0; 1; 0; 1; 0; 2; 0; 1; 0; 0; 0; 16; 0; 0; 0; 5; 0; 80; 165; 112; 231].
Definition zwire : list (list Z) := [[0; 0; 0; 1] ++ f_data zfirst; [0; 0; 0; 1] ++ f_data zsecond].
Definition id_z : unit -> list Z -> bool -> unit * list Z := fun s p _ => (s, p).
Definition id_i : unit -> list Z -> unit * list Z := fun s p => (s, p).

Lemma zfirst_frame : zrle_frame unit id_z rgb565be xrgb8888 tt [(0, 0, 3, 2)] (canvas 6) zfirst tt.
Proof.
  exists (pixels 6), 3, [mk_box 0 0 3 2], (mk_box 0 0 3 2).
  split; [vm_compute; reflexivity|]. split; [repeat constructor; vm_compute; congruence|]. split; [cbn; lia|]. split; [vm_compute; reflexivity|].
  assert (Q : forall x y, Upd_Spec.covers [(0, 0, 3, 2)] x y -> 0 <= x < 3 /\ 0 <= y < 2).
  { intros x y H. inversion H as [? ? K|? ? K]; subst; [lia|inversion K]. }
  split.
  - intros x y. split.
    + intros H. apply Q in H. exists (mk_box 0 0 3 2). split; [left; reflexivity|]. cbn. lia.
    + intros (b & [<-|[]] & X & Y). constructor. cbn in *. lia.
  - intros x y H. apply Q in H. apply pixel_there; tauto.
Qed.
Lemma zsecond_frame : zrle_frame unit id_z rgb565be xrgb8888 tt [(1, 1, 3, 2)] (canvas 7) zsecond tt.
Proof.
  exists (pixels 7), 3, [mk_box 1 1 3 2], (mk_box 1 1 3 2).
  split; [vm_compute; reflexivity|]. split; [repeat constructor; vm_compute; congruence|]. split; [cbn; lia|]. split; [vm_compute; reflexivity|].
  assert (Q : forall x y, Upd_Spec.covers [(1, 1, 3, 2)] x y -> 1 <= x < 3 /\ 1 <= y < 2).
  { intros x y H. inversion H as [? ? K|? ? K]; subst; [lia|inversion K]. }
  split.
  - intros x y. split.
    + intros H. apply Q in H. exists (mk_box 1 1 3 2). split; [left; reflexivity|]. cbn. lia.
    + intros (b & [<-|[]] & X & Y). constructor. cbn in *. lia.
  - intros x y H. apply Q in H. apply pixel_there; [auto|lia|lia].
Qed.

Example C146_case : exists c v,
  zlib_works unit unit id_z id_i (fun _ _ => True) /\
  watch _ no_more no_cursor 3 (look_story 16 zfirst zsecond) start (nothing_yet _) = Ok (c, v) /\
  orderly _ no_more no_cursor 3 (look_story 16 zfirst zsecond) start (nothing_yet _) = true /\
  made_run no_more unit (zrle_frame unit id_z rgb565be xrgb8888) no_cursor 3 (look_story 16 zfirst zsecond) start (nothing_yet _) tt tt /\
  one_byte_leds (log c) /\ steady _ (look_story 16 zfirst zsecond) (canvas 6) /\ none_lost (log c) /\ damage c = [] /\ coming _ v = None /\
  splits (fun _ => viewer_of rgb565be) [] (traffic (log c)) zwire /\
  on_screen unit id_i rgb565be tt zwire 2 1 = Some [112; 231] /\ on_screen unit id_i rgb565be tt zwire 0 1 = Some [64; 132] /\
  on_screen unit id_i rgb565be tt zwire 3 1 = None.
Proof.
  eexists _, _. split; [exact (proj1 C66_ex)|]. split; [vm_compute; reflexivity|].
  split; [vm_compute; reflexivity|]. split.
  { unfold look_story. cbn [made_run]. cbn [coming nothing_yet].
    exists tt. split; [reflexivity|]. intros c1 H1. vm_compute in H1. apply ok_inj in H1. subst c1.
    exists tt. split; [reflexivity|]. intros c2 H2. vm_compute in H2. apply ok_inj in H2. subst c2.
    exists tt. split; [exact zfirst_frame|]. intros c3 H3. vm_compute in H3. apply ok_inj in H3. subst c3.
    exists tt. split; [reflexivity|]. intros c4 H4. vm_compute in H4. apply ok_inj in H4. subst c4.
    exists tt. split; [reflexivity|]. intros c5 H5. vm_compute in H5. apply ok_inj in H5. subst c5.
    exists tt. split; [reflexivity|]. intros c6 H6. vm_compute in H6. apply ok_inj in H6. subst c6.
    exists tt. split; [exact zsecond_frame|]. intros c7 H7. vm_compute in H7. apply ok_inj in H7. subst c7.
    exists tt. split; [reflexivity|]. intros c8 H8. reflexivity. }
  split; [intros b B; cbn [log] in B; repeat (destruct B as [B|B]; [discriminate B|]); destruct B|].
  split; [apply look_steady|].
  split; [cbn [log]; repeat (apply Forall_cons; [exact I|]); constructor|]. split; [reflexivity|]. split; [reflexivity|].
  split.
  { change (traffic _) with (concat zwire). unfold zwire. cbn [concat].
    repeat (apply s_message; [reflexivity|]). constructor. }
  split; [vm_compute; reflexivity|]. split; vm_compute; reflexivity.
Qed.

(** Tight: the second frame shows all six pixels, although three are damaged. *)
Definition tfirst : frame := mk_frame 1 3 2 None
  [0; 0; 0; 0; 0; 3; 0; 2; 0; 0; 0; 7; 0; 12; 16; 33; 32; 66; 48; 99; 64; 132; 80; 165; 96; 198].
Definition tsecond : frame := mk_frame 1 3 2 None
  [0; 0; 0; 0; 0; 3; 0; 2; 0; 0; 0; 7; 0; 12; 16; 33; 32; 66; 48; 99; 64; 132; 80; 165; 112; 231].
Definition twire : list (list Z) := [[0; 0; 0; 1] ++ f_data tfirst; [0; 0; 0; 1] ++ f_data tsecond].
Definition te_after (l : list Z) : tenc unit := mk_te 3 2 1 1 [mk_tt Ready 0 l] [tt; tt; tt; tt].

Lemma tight_case te k x0 f l :
  k = 6 \/ k = 7 -> x0 = 0 \/ x0 = 1 -> f_rects f = 1 ->
  tight_encode id_z Tight_Props.no_tj true te (Tight_Props.frame_of (pixels k) 3 rgb565be) 0 0 3 2 [mk_box x0 x0 3 2] (Tight_Props.in_turn 3 2) =
    Ok (te_after l, f_data f, f_rects f) ->
  tight_frame unit id_z rgb565be xrgb8888 te [(x0, x0, 3, 2)] (canvas k) f (te_after l).
Proof.
  intros K X0 N H. eexists _, _, _, 3, 2, _, _. split; [exact H|]. split; [reflexivity|]. split; [reflexivity|]. split; [reflexivity|].
  split; [right; right; left; reflexivity|]. split.
  { intros gx gy X Y. assert (gx = 0) by lia. assert (gy = 0) by lia. subst. vm_compute. discriminate. }
  split; [lia|]. split; [lia|]. split; [apply Tight_Props.in_turn_ok|]. split; [lia|]. split.
  - intros x y C. inversion C as [? ? Q|? ? Q]; subst; [|inversion Q]. split; [lia|]. split; [lia|].
    exists (mk_box x0 x0 3 2). split; [left; reflexivity|]. cbn. lia.
  - intros x y X Y. apply pixel_there; assumption.
Qed.

Example C147_case : exists c v,
  well_formed Tight_Props.fresh /\ streams_synced (fun _ _ : unit => True) Tight_Props.fresh [tt; tt; tt; tt] /\
  watch _ (touched rgb565be) no_cursor 3 (look_story 7 tfirst tsecond) start (nothing_yet _) = Ok (c, v) /\
  orderly _ (touched rgb565be) no_cursor 3 (look_story 7 tfirst tsecond) start (nothing_yet _) = true /\
  (exists te, made_run (touched rgb565be) (tenc unit) (tight_frame unit id_z rgb565be xrgb8888) no_cursor 3
    (look_story 7 tfirst tsecond) start (nothing_yet _) Tight_Props.fresh te) /\
  one_byte_leds (log c) /\ steady _ (look_story 7 tfirst tsecond) (canvas 6) /\ none_lost (log c) /\ damage c = [] /\ coming _ v = None /\
  splits (fun _ => viewer_of rgb565be) [] (traffic (log c)) twire /\
  on_screen unit id_i rgb565be tt twire 2 1 = Some [112; 231] /\ on_screen unit id_i rgb565be tt twire 0 1 = Some [64; 132] /\
  on_screen unit id_i rgb565be tt twire 3 1 = None.
Proof.
  eexists _, _. split; [apply Tight_Props.fresh_ok|]. split; [apply Tight_Props.fresh_ok|]. split; [vm_compute; reflexivity|].
  split; [vm_compute; reflexivity|]. split.
  { exists (te_after [16; 33; 32; 66; 48; 99; 64; 132; 80; 165; 112; 231]). unfold look_story. cbn [made_run]. cbn [coming nothing_yet].
    exists Tight_Props.fresh. split; [reflexivity|]. intros c1 H1. vm_compute in H1. apply ok_inj in H1. subst c1.
    exists Tight_Props.fresh. split; [reflexivity|]. intros c2 H2. vm_compute in H2. apply ok_inj in H2. subst c2.
    exists (te_after [16; 33; 32; 66; 48; 99; 64; 132; 80; 165; 96; 198]).
    split; [apply (tight_case Tight_Props.fresh 6 0 tfirst); [auto|auto|reflexivity|vm_compute; reflexivity]|].
    intros c3 H3. vm_compute in H3. apply ok_inj in H3. subst c3.
    eexists. split; [reflexivity|]. intros c4 H4. vm_compute in H4. apply ok_inj in H4. subst c4.
    eexists. split; [reflexivity|]. intros c5 H5. vm_compute in H5. apply ok_inj in H5. subst c5.
    eexists. split; [reflexivity|]. intros c6 H6. vm_compute in H6. apply ok_inj in H6. subst c6.
    exists (te_after [16; 33; 32; 66; 48; 99; 64; 132; 80; 165; 112; 231]).
    split; [apply (tight_case _ 7 1 tsecond); [auto|auto|reflexivity|vm_compute; reflexivity]|].
    intros c7 H7. vm_compute in H7. apply ok_inj in H7. subst c7.
    eexists. split; [reflexivity|]. intros c8 H8. reflexivity. }
  split; [intros b B; cbn [log] in B; repeat (destruct B as [B|B]; [discriminate B|]); destruct B|].
  split; [apply look_steady|].
  split; [cbn [log]; repeat (apply Forall_cons; [exact I|]); constructor|]. split; [reflexivity|]. split; [reflexivity|].
  split.
  { change (traffic _) with (concat twire). unfold twire. cbn [concat].
    repeat (apply s_message; [reflexivity|]). constructor. }
  split; [vm_compute; reflexivity|]. split; vm_compute; reflexivity.
Qed.

(** The second theorems: the change marks the pixel when nothing is being sent. *)
Definition before (e : Z) (f1 f2 : frame) : scene (list Z) := firstn 5 (look_story e f1 f2).
Definition after (e : Z) (f1 f2 : frame) : scene (list Z) := skipn 5 (look_story e f1 f2).
Lemma after_steady e f1 f2 : steady _ (after e f1 f2) (canvas 7).
Proof. unfold after, look_story. cbn [skipn steady]. repeat (split; [auto|]). exact I. Qed.

Ltac next_input := let c := fresh "c" in let H := fresh "H" in intros c H; vm_compute in H; apply ok_inj in H; subst c.

Example C146_marked_case : exists c0 v0 c v,
  watch _ no_more no_cursor 3 (before 16 zfirst zsecond) start (nothing_yet _) = Ok (c0, v0) /\
  orderly _ no_more no_cursor 3 (before 16 zfirst zsecond) start (nothing_yet _) = true /\
  made_run no_more unit (zrle_frame unit id_z rgb565be xrgb8888) no_cursor 3 (before 16 zfirst zsecond) start (nothing_yet _) tt tt /\
  updating c0 = false /\ Upd_Spec.covers (damage c0) 2 1 /\
  watch _ no_more no_cursor 3 (after 16 zfirst zsecond) c0 (nothing_yet _) = Ok (c, v) /\
  orderly _ no_more no_cursor 3 (after 16 zfirst zsecond) c0 (nothing_yet _) = true /\
  made_run no_more unit (zrle_frame unit id_z rgb565be xrgb8888) no_cursor 3 (after 16 zfirst zsecond) c0 (nothing_yet _) tt tt /\
  steady _ (after 16 zfirst zsecond) (canvas 7) /\
  holds 2 1 tiny /\ damage c = [] /\ coming _ v = None.
Proof.
  eexists _, _, _, _. split; [vm_compute; reflexivity|]. split; [vm_compute; reflexivity|]. split.
  { unfold before, look_story. cbn [firstn made_run]. cbn [coming nothing_yet].
    do 2 (exists tt; split; [reflexivity|]; next_input). exists tt. split; [exact zfirst_frame|]. next_input.
    exists tt. split; [reflexivity|]. next_input. exists tt. split; [reflexivity|]. intros c H. reflexivity. }
  split; [reflexivity|]. split; [constructor; lia|]. split; [vm_compute; reflexivity|]. split; [vm_compute; reflexivity|]. split.
  { unfold after, look_story. cbn [skipn made_run]. cbn [coming nothing_yet].
    exists tt. split; [reflexivity|]. next_input. exists tt. split; [exact zsecond_frame|]. next_input.
    exists tt. split; [reflexivity|]. intros c H. reflexivity. }
  split; [apply after_steady|]. split; [vm_compute; repeat split; congruence|]. split; reflexivity.
Qed.

Example C147_marked_case : exists c0 v0 c v te1 te2,
  watch _ (touched rgb565be) no_cursor 3 (before 7 tfirst tsecond) start (nothing_yet _) = Ok (c0, v0) /\
  orderly _ (touched rgb565be) no_cursor 3 (before 7 tfirst tsecond) start (nothing_yet _) = true /\
  made_run (touched rgb565be) _ (tight_frame unit id_z rgb565be xrgb8888) no_cursor 3 (before 7 tfirst tsecond) start (nothing_yet _) Tight_Props.fresh te1 /\
  updating c0 = false /\ Upd_Spec.covers (damage c0) 2 1 /\
  watch _ (touched rgb565be) no_cursor 3 (after 7 tfirst tsecond) c0 (nothing_yet _) = Ok (c, v) /\
  orderly _ (touched rgb565be) no_cursor 3 (after 7 tfirst tsecond) c0 (nothing_yet _) = true /\
  made_run (touched rgb565be) _ (tight_frame unit id_z rgb565be xrgb8888) no_cursor 3 (after 7 tfirst tsecond) c0 (nothing_yet _) te1 te2 /\
  steady _ (after 7 tfirst tsecond) (canvas 7) /\
  holds 2 1 tiny /\ damage c = [] /\ coming _ v = None.
Proof.
  eexists _, _, _, _, (te_after [16; 33; 32; 66; 48; 99; 64; 132; 80; 165; 96; 198]), (te_after [16; 33; 32; 66; 48; 99; 64; 132; 80; 165; 112; 231]).
  split; [vm_compute; reflexivity|]. split; [vm_compute; reflexivity|]. split.
  { unfold before, look_story. cbn [firstn made_run]. cbn [coming nothing_yet].
    do 2 (exists Tight_Props.fresh; split; [reflexivity|]; next_input). exists (te_after [16; 33; 32; 66; 48; 99; 64; 132; 80; 165; 96; 198]).
    split; [apply (tight_case Tight_Props.fresh 6 0 tfirst); [auto|auto|reflexivity|vm_compute; reflexivity]|]. next_input.
    eexists. split; [reflexivity|]. next_input. eexists. split; [reflexivity|]. intros c H. reflexivity. }
  split; [reflexivity|]. split; [constructor; lia|]. split; [vm_compute; reflexivity|]. split; [vm_compute; reflexivity|]. split.
  { unfold after, look_story. cbn [skipn made_run]. cbn [coming nothing_yet].
    eexists. split; [reflexivity|]. next_input.
    eexists. split; [apply (tight_case _ 7 1 tsecond); [auto|auto|reflexivity|vm_compute; reflexivity]|]. next_input.
    eexists. split; [reflexivity|]. intros c H. reflexivity. }
  split; [apply after_steady|]. split; [vm_compute; repeat split; congruence|]. split; reflexivity.
Qed.
