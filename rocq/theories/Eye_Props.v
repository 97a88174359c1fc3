(** C142: from the application's pixels to those of a viewer that reads the bytes. *)
From Verif Require Import Common CommonProofs Pixels_Model Pixels_Props Zrle_Model Zrle_Spec Raw_Model Raw_Spec Raw_Proofs
  Msg_Model Msg_Spec Msg_Proofs Upd_Spec Upd_Proofs Upd2_Proofs Upd3_Proofs Upd_Props Mirror_Spec Mirror_Proofs Mirror_Props
  Wire_Spec Wire_Proofs Eye_Spec Wire2_Proofs Wire3_Proofs Eye_Proofs.

(** A client with the format [p] and the Raw encoding, the application drawing in the
    format [src].  The bytes sent are whole messages; a viewer that draws their rectangles
    shows at each pixel that is neither marked nor on its way either nothing, or the
    conversion of the pixel the application shows there now.  The inputs are those for
    which C130 and C141 hold: no frame is refused by the encoder or thrown away, no LED
    state is sent in four bytes, buffers are at most 32767 by 32767, and no fence is
    requested or nothing has arrived when one is answered. *)
Theorem C142_raw_viewer_shows_picture :
  forall E fuel p src d seq tsize (l : scene (list Z)) c v (P : Mirror_Spec.picture (list Z)) x y,
    let size := Z.to_nat (bits_per_pixel p / 8) in
    cursors (fun _ => viewer size tsize) E -> cursor_shapes E ->
    watch _ no_more E fuel l (ready p d seq) (nothing_yet _) = Ok (c, v) ->
    orderly _ no_more E fuel l (ready p d seq) (nothing_yet _) = true ->
    raw_frames E fuel p src l (ready p d seq) (nothing_yet _) ->
    one_byte_leds (log c) -> steady _ l P -> holds x y d -> Forall (fun z => input_holds x y (fst z)) l ->
    (forall h, e_more E h = None) \/ count is_fence (log c) = 0 ->
    none_lost (log c) -> ~ covers (damage c) x y -> coming _ v = None ->
    exists ms, splits (fun _ => viewer size tsize) [] (traffic (log c)) ms /\
      (shown size tsize ms x y = None \/
       exists q, shown size tsize ms x y = Some q /\
         pixel_to_cpixel (bits_per_pixel p / 8) p src (last_picture _ P l x y) 0 1 = Ok q).
Proof.
  intros E fuel p src d seq tsize l c v P x y size CU SH W OR RF O1 ST H F N NL D C.
  destruct (raw_shown p src tsize True E fuel p d seq [] _ l c v CU SH I eq_refl (fun _ => eq_refl) W OR NL RF O1) as (ms & S0 & G).
  exists ms. split; [exact S0|]. specialize (G x y).
  destruct (C130_screen_shows_picture_partial _ no_more E fuel p d seq l c v P x y W ST OR H F N NL D C) as [K|K]; rewrite K in G.
  - left. apply G, I.
  - right. destruct G as (q & G2 & G1). exists q. auto.
Qed.
Print Assumptions C142_raw_viewer_shows_picture.

(** And from the moment a pixel was marked while no update was being made, it does show
    it: [l0] before, [l] after. *)
Theorem C142_raw_viewer_shows_marked :
  forall E fuel p src d seq tsize l0 c0 (l : scene (list Z)) c v (P : Mirror_Spec.picture (list Z)) x y,
    let size := Z.to_nat (bits_per_pixel p / 8) in
    cursors (fun _ => viewer size tsize) E -> cursor_shapes E ->
    proper (fun _ => viewer size tsize) E fuel (fun _ => None) (ready p d seq) (map Inp l0) ->
    run E fuel (ready p d seq) l0 = Ok c0 -> Forall (input_holds x y) l0 ->
    updating c0 = false -> covers (damage c0) x y ->
    watch _ no_more E fuel l c0 (nothing_yet _) = Ok (c, v) ->
    orderly _ no_more E fuel l c0 (nothing_yet _) = true ->
    raw_frames E fuel p src l c0 (nothing_yet _) ->
    one_byte_leds (log c) -> steady _ l P -> holds x y d -> Forall (fun z => input_holds x y (fst z)) l ->
    (forall h, e_more E h = None) \/ count is_fence (log c) = 0 ->
    none_lost (log c) -> ~ covers (damage c) x y -> coming _ v = None ->
    exists ms q, splits (fun _ => viewer size tsize) [] (traffic (log c)) ms /\
      shown size tsize ms x y = Some q /\
      pixel_to_cpixel (bits_per_pixel p / 8) p src (last_picture _ P l x y) 0 1 = Ok q.
Proof.
  intros E fuel p src d seq tsize l0 c0 l c v P x y size CU SH PR R F0 U M W OR RF O1 ST H F N NL D C.
  destruct (raw_shown p src tsize False E fuel p d seq l0 c0 l c v CU SH PR R (fun x => match x with end) W OR NL RF O1) as (ms & S0 & G).
  specialize (G x y).
  rewrite (C130_marked_pixel_is_shown_partial _ no_more E fuel p d seq l0 c0 l c v P x y R F0 U M W ST OR H F N NL D C) in G.
  destruct G as (q & G2 & G1). exists ms, q. auto.
Qed.
Print Assumptions C142_raw_viewer_shows_marked.

(** A 3 by 2 buffer of 32 bits per pixel and a client of 16; the application changes one
    pixel after the first frame; the viewer gets the second frame. *)
Definition canvas (k : Z) : Mirror_Spec.picture (list Z) := fun x y =>
  let v := if (x =? 2) && (y =? 1) then k else 1 + x + 3 * y in [8 * v; 4 * v; 16 * v; 0].
Definition pixels (k : Z) : list Z := concat (map (fun v => [8 * v; 4 * v; 16 * v; 0]) [1; 2; 3; 4; 5; k]).
Definition tiny : fb := mk_fb 3 2 false.
Definition first : frame := mk_frame 1 3 2 None
  [0; 0; 0; 0; 0; 3; 0; 2; 0; 0; 0; 0; 16; 33; 32; 66; 48; 99; 64; 132; 80; 165; 96; 198].
Definition second : frame := mk_frame 1 3 2 None
  [0; 1; 0; 1; 0; 2; 0; 1; 0; 0; 0; 0; 80; 165; 112; 231].
Definition paint_story : scene (list Z) :=
  [(IRead (Some (encodings [0])), canvas 6); (IRead (Some [3; 0; 0; 0; 0; 0; 0; 3; 0; 2]), canvas 6); (IEncoded first, canvas 6);
   (IWritten, canvas 6);
   (IDamage tiny [(1, 1, 3, 2)], canvas 7); (IRead (Some [3; 1; 0; 0; 0; 0; 0; 3; 0; 2]), canvas 7);
   (IEncoded second, canvas 7); (IWritten, canvas 7)].

Lemma canvas_changes x y : canvas 7 x y = canvas 6 x y \/ covers [(1, 1, 3, 2)] x y.
Proof. unfold canvas. destruct ((x =? 2) && (y =? 1)) eqn:B; [|auto]. right. constructor. lia. Qed.

Lemma first_frame : raw_frame rgb565be xrgb8888 [(0, 0, 3, 2)] (canvas 6) first.
Proof.
  exists (pixels 6), 3, [mk_box 0 0 3 2], (mk_box 0 0 3 2).
  split; [vm_compute; reflexivity|]. split; [repeat constructor; vm_compute; congruence|]. split; [cbn; lia|].
  split.
  - intros x y. split.
    + intros H. inversion H as [? ? K|? ? K]; subst; [|inversion K]. exists (mk_box 0 0 3 2). split; [left; reflexivity|]. cbn. lia.
    + intros (b & [<-|[]] & X & Y). constructor. cbn in *. lia.
  - intros x y H. inversion H as [? ? K|? ? K]; subst; [|inversion K].
    assert (Y : y = 0 \/ y = 1) by lia. assert (X : x = 0 \/ x = 1 \/ x = 2) by lia.
    destruct Y as [->| ->], X as [->|[->| ->]]; vm_compute; reflexivity.
Qed.
Lemma second_frame : raw_frame rgb565be xrgb8888 [(1, 1, 3, 2)] (canvas 7) second.
Proof.
  exists (pixels 7), 3, [mk_box 1 1 3 2], (mk_box 1 1 3 2).
  split; [vm_compute; reflexivity|]. split; [repeat constructor; vm_compute; congruence|]. split; [cbn; lia|].
  split.
  - intros x y. split.
    + intros H. inversion H as [? ? K|? ? K]; subst; [|inversion K]. exists (mk_box 1 1 3 2). split; [left; reflexivity|]. cbn. lia.
    + intros (b & [<-|[]] & X & Y). constructor. cbn in *. lia.
  - intros x y H. inversion H as [? ? K|? ? K]; subst; [|inversion K].
    assert (Y : y = 1) by lia. assert (X : x = 1 \/ x = 2) by lia.
    destruct X as [->| ->]; rewrite Y; vm_compute; reflexivity.
Qed.

Definition no_cursor : env :=
  mk_env false false None (fun _ => 0) (fun _ _ _ => false) (fun _ _ => None)
    (fun _ _ => true) (fun _ => true) (fun _ => false) (fun _ => ([], None)) none.
Definition start : client := ready rgb565be tiny 0.
Definition wire : list (list Z) := [[0; 0; 0; 1] ++ f_data first; [0; 0; 0; 1] ++ f_data second].

Example C142_case : exists c v,
  cursors (fun _ => viewer 2 3) no_cursor /\ cursor_shapes no_cursor /\
  watch _ no_more no_cursor 3 paint_story start (nothing_yet _) = Ok (c, v) /\
  orderly _ no_more no_cursor 3 paint_story start (nothing_yet _) = true /\
  raw_frames no_cursor 3 rgb565be xrgb8888 paint_story start (nothing_yet _) /\
  one_byte_leds (log c) /\ steady _ paint_story (canvas 6) /\ none_lost (log c) /\ damage c = [] /\ coming _ v = None /\
  splits (fun _ => viewer 2 3) [] (traffic (log c)) wire /\
  shown 2 3 wire 2 1 = Some [112; 231] /\ shown 2 3 wire 0 1 = Some [64; 132] /\ shown 2 3 wire 3 1 = None.
Proof.
  eexists _, _. split; [intros l f d [=]|]. split; [intros l f d [=]|]. split; [vm_compute; reflexivity|].
  split; [vm_compute; reflexivity|]. split.
  { cbn [raw_frames paint_story]. cbn [coming nothing_yet].
    split; [exact I|]. intros c1 H1. vm_compute in H1. apply ok_inj in H1. subst c1.
    split; [exact I|]. intros c2 H2. vm_compute in H2. apply ok_inj in H2. subst c2.
    split; [exact first_frame|]. intros c3 H3. vm_compute in H3. apply ok_inj in H3. subst c3.
    split; [exact I|]. intros c4 H4. vm_compute in H4. apply ok_inj in H4. subst c4.
    split; [exact I|]. intros c5 H5. vm_compute in H5. apply ok_inj in H5. subst c5.
    split; [exact I|]. intros c6 H6. vm_compute in H6. apply ok_inj in H6. subst c6.
    split; [exact second_frame|]. intros c7 H7. vm_compute in H7. apply ok_inj in H7. subst c7.
    split; [exact I|]. intros c8 H8. exact I. }
  split; [intros b B; cbn [log] in B; repeat (destruct B as [B|B]; [discriminate B|]); destruct B|].
  split.
  { cbn [steady paint_story]. do 4 (split; [auto|]). split; [|repeat (split; [auto|]); exact I].
    intros x y. destruct (canvas_changes x y) as [X|X]; [auto|right]. eexists _, _. split; [reflexivity|exact X]. }
  split; [cbn [log]; repeat (apply Forall_cons; [exact I|]); constructor|]. split; [reflexivity|]. split; [reflexivity|].
  split.
  { change (traffic _) with (concat wire). unfold wire. cbn [concat].
    repeat (apply s_message; [reflexivity|]). constructor. }
  split; [vm_compute; reflexivity|]. split; vm_compute; reflexivity.
Qed.
