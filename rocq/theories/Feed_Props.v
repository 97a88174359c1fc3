(** C155: from the buffers the application feeds to the display to the viewer's screen. *)
From Verif Require Import Common CommonProofs Pixels_Model Pixels_Props Zrle_Model Zrle_Spec Zrle_Props Raw_Model Raw_Spec
  Tight_Model Tight_Spec Transform_Model Transform_Spec Refinery_Model Refinery_Spec Refinery_Props Turn_Model Turn_Spec Turn_Proofs Turn_Props
  Msg_Model Msg_Spec Msg_Proofs Upd_Spec Upd_Props Mirror_Spec Mirror_Proofs Mirror_Props Wire_Spec Eye_Spec Eye2_Spec Eye3_Spec
  Eye_Props Eye2_Props Eye3_Props Feed_Model Feed_Spec Feed_Proofs.
From Verif Require Tight_Props.

(** C51, C137, C130 and C148 in one.  The application has fed the buffers [before] to the
    display, and feeds more while the client sends messages, frames are encoded and written
    and so on ([hs]), [l] being the inputs this comes to for the client.  The damage goes
    through the refinery, the buffers are turned, frames are skipped while one is on its way
    and are made by any of the three encoders; then what the viewer makes of the bytes is, at
    any place, the pixel of the newest buffer fed that is seen there. *)
Theorem C155_viewer_sees_what_is_fed :
  forall zstate istate deflate inflate synced, zlib_works zstate istate deflate inflate synced ->
  forall xxh rects_of pool before n r outs P hs src f fs, keeps_points rects_of ->
    feeds xxh rects_of (map fr_fed before) = Ok (r, outs) -> shows before P ->
    well_fed xxh src (all_fed before hs) -> all_fed before hs = f :: fs ->
  exists l, staged xxh rects_of pool r n P hs = Ok l /\
  forall E fuel p d seq e st e' c v x y,
    synced (fst e) st -> well_formed (snd e) -> streams_synced synced (snd e) [st; st; st; st] ->
    cursors (fun _ => viewer_of p) E -> cursor_shapes E ->
    watch _ (touched p) E fuel l (ready p d seq) (nothing_yet _) = Ok (c, v) ->
    orderly _ (touched p) E fuel l (ready p d seq) (nothing_yet _) = true ->
    made_run (touched p) (zstate * tenc zstate) (any_frame zstate deflate p src) E fuel l (ready p d seq) (nothing_yet _) e e' ->
    one_byte_leds (log c) -> holds x y d -> Forall (fun z => input_holds x y (fst z)) l -> Turn_Spec.inside f x y ->
    (forall h, e_more E h = None) \/ count is_fence (log c) = 0 ->
    none_lost (log c) -> ~ Upd_Spec.covers (damage c) x y -> coming _ v = None ->
    exists ms, splits (fun _ => viewer_of p) [] (traffic (log c)) ms /\
      (on_screen istate inflate p st ms x y = None \/
       exists q s, on_screen istate inflate p st ms x y = Some q /\ pixfmt_from_fourcc (fr_format f) = Some s /\
         pixel_form p s (snd (Turn_Spec.pixel f x y)) q).
Proof.
  intros zstate istate deflate inflate synced ZW xxh rects_of pool before n r outs P hs src f fs K F S W A.
  destruct (staged_steady xxh rects_of pool src K hs before n r outs P W F S) as (l & L & St & La). rewrite A in W, La.
  pose proof (newest_format _ _ _ _ W) as Fm. exists l. split; [exact L|].
  intros E fuel p d seq e st e' c v x y S1 S2 S3 C1 C2 Wa Or Ma One H Hi I Fe NL D Co.
  destruct (C148_viewer_shows_picture zstate istate deflate inflate synced ZW E fuel p src d seq e st e' l c v P x y (has_bits _ _ Fm)
    S1 S2 S3 C1 C2 Wa Or Ma One St H Hi Fe NL D Co) as (ms & M & [G|(q & G & Px)]); exists ms; (split; [exact M|]); [now left|right].
  exists q, src. rewrite <- (La x y I). auto.
Qed.
Print Assumptions C155_viewer_sees_what_is_fed.

(** And it is seen without fail where the client has been told of a change since it asked for
    frames at all. *)
Theorem C155_viewer_sees_what_is_marked :
  forall zstate istate deflate inflate synced, zlib_works zstate istate deflate inflate synced ->
  forall xxh rects_of pool before n r outs P hs0 hs src f fs, keeps_points rects_of ->
    feeds xxh rects_of (map fr_fed before) = Ok (r, outs) -> shows before P ->
    well_fed xxh src (all_fed before (hs0 ++ hs)) -> all_fed before (hs0 ++ hs) = f :: fs ->
  exists l0 l, staged xxh rects_of pool r n P (hs0 ++ hs) = Ok (l0 ++ l) /\ length l0 = length hs0 /\
  forall E fuel p d seq e st e1 e2 c0 v0 c v x y,
    synced (fst e) st -> well_formed (snd e) -> streams_synced synced (snd e) [st; st; st; st] ->
    cursors (fun _ => viewer_of p) E -> cursor_shapes E ->
    watch _ (touched p) E fuel l0 (ready p d seq) (nothing_yet _) = Ok (c0, v0) ->
    orderly _ (touched p) E fuel l0 (ready p d seq) (nothing_yet _) = true ->
    made_run (touched p) (zstate * tenc zstate) (any_frame zstate deflate p src) E fuel l0 (ready p d seq) (nothing_yet _) e e1 ->
    updating c0 = false -> Upd_Spec.covers (damage c0) x y ->
    watch _ (touched p) E fuel l c0 (nothing_yet _) = Ok (c, v) ->
    orderly _ (touched p) E fuel l c0 (nothing_yet _) = true ->
    made_run (touched p) (zstate * tenc zstate) (any_frame zstate deflate p src) E fuel l c0 (nothing_yet _) e1 e2 ->
    one_byte_leds (log c) -> holds x y d -> Forall (fun z => input_holds x y (fst z)) (l0 ++ l) -> Turn_Spec.inside f x y ->
    (forall h, e_more E h = None) \/ count is_fence (log c) = 0 ->
    none_lost (log c) -> ~ Upd_Spec.covers (damage c) x y -> coming _ v = None ->
    exists ms q s, splits (fun _ => viewer_of p) [] (traffic (log c)) ms /\
      on_screen istate inflate p st ms x y = Some q /\ pixfmt_from_fourcc (fr_format f) = Some s /\
      pixel_form p s (snd (Turn_Spec.pixel f x y)) q.
Proof.
  intros zstate istate deflate inflate synced ZW xxh rects_of pool before n r outs P hs0 hs src f fs K F S W A.
  destruct (staged_steady xxh rects_of pool src K (hs0 ++ hs) before n r outs P W F S) as (ll & L & St & La). rewrite A in W, La.
  pose proof (newest_format _ _ _ _ W) as Fm.
  pose proof (staged_length _ _ _ _ _ _ _ _ L) as Le. rewrite app_length in Le.
  exists (firstn (length hs0) ll), (skipn (length hs0) ll). rewrite firstn_skipn. split; [exact L|].
  split; [rewrite firstn_length; lia|].
  rewrite <- (firstn_skipn (length hs0) ll) in St, La. apply steady_app in St. rewrite last_app in La.
  intros E fuel p d seq e st e1 e2 c0 v0 c v x y S1 S2 S3 C1 C2 Wa0 Or0 Ma0 Up Mk Wa Or Ma One H Hi I Fe NL D Co.
  rewrite <- (firstn_skipn (length hs0) ll) in Hi.
  destruct (C148_viewer_shows_marked zstate istate deflate inflate synced ZW E fuel p src d seq e st e1 e2 _ c0 v0 _ c v _ x y (has_bits _ _ Fm)
    S1 S2 S3 C1 C2 Wa0 Or0 Ma0 Up Mk Wa Or Ma One St H Hi Fe NL D Co) as (ms & q & M & G & Px).
  exists ms, q, src. rewrite <- (La x y I). auto.
Qed.
Print Assumptions C155_viewer_sees_what_is_marked.

(** A case: buffers of 3 by 2 pixels that are seen upside down.  The first pixel of the
    buffer, which is the last one seen, changes; the application says so. *)
Definition turned (k : Z) (d : list Zrle_Model.box) : Turn_Model.frame :=
  Turn_Model.mk_frame R180 (fourcc "XR24")
    (mk_fed true (mk_pic 3 2 3 4 (concat (rev (map (fun v => [8 * v; 4 * v; 16 * v; 0]) [1; 2; 3; 4; 5; k])))) d).
Definition old_frame := turned 6 [mk_box 0 0 3 2].
Definition new_frame := turned 7 [mk_box 0 0 1 1].
Definition told : list happening :=
  [Else (IRead (Some (encodings [0]))); Else (IRead (Some [3; 0; 0; 0; 0; 0; 0; 3; 0; 2])); Else (IEncoded first); Else IWritten; Fed new_frame].
Definition asked (f : Msg_Model.frame) : list happening :=
  [Else (IRead (Some [3; 1; 0; 0; 0; 0; 0; 3; 0; 2])); Else (IEncoded f); Else IWritten].
Definition again : Msg_Model.frame := mk_frame 1 3 2 None
  [0; 0; 0; 0; 0; 3; 0; 2; 0; 0; 0; 0; 16; 33; 32; 66; 48; 99; 64; 132; 80; 165; 112; 231].
Definition fed_wire : list (list Z) := [[0; 0; 0; 1] ++ f_data first; [0; 0; 0; 1] ++ f_data again].
Definition pool0 : nat -> Turn_Model.canvas := fun _ _ _ => Fault Uninit.
Definition hashes : refinery := match feeds sum1 (fun l => l) [fr_fed old_frame] with Ok (r, _) => r | Fault _ => refinery_init 0 0 end.

Definition six (x y : Z) : Prop := (x = 0 \/ x = 1 \/ x = 2) /\ (y = 0 \/ y = 1).
Lemma is_six f x y : f = old_frame \/ f = new_frame -> Turn_Spec.inside f x y -> six x y.
Proof. intros [->| ->] [X Y]; cbn in X, Y; split; lia. Qed.
Ltac six_cases H := destruct H as [[->|[->| ->]] [->| ->]].

Lemma told_well : well_fed sum1 xrgb8888 [new_frame; old_frame].
Proof.
  assert (So : forall k d, region_within d 3 2 -> usable (turned k d)).
  { intros k d R. split; [|split; [reflexivity|right; reflexivity]]. split; [|exact R]. repeat split; cbn; lia. }
  split; [|split; [|split; [|split]]].
  - repeat (apply Forall_cons; [apply So; repeat constructor; cbn; lia|]). apply Forall_nil.
  - cbn [every]. split; [|split; [|exact I]]; intros x y J; pose proof J as Q; apply is_six in Q; auto.
    + six_cases Q; first [right; split; vm_compute; reflexivity|left; hnf; eexists; split; [left; reflexivity|vm_compute; repeat split; congruence]].
    + left. six_cases Q; hnf; eexists; (split; [left; reflexivity|vm_compute; repeat split; congruence]).
  - cbn [every]. split; [intros _ _; repeat split|repeat split].
  - assert (Tt : forall tx ty, 0 <= 32 * tx < 3 -> 0 <= 32 * ty < 2 -> tx = 0 /\ ty = 0) by lia.
    intros f g tx ty [<-|[<-|[]]] [<-|[<-|[]]] X Y; (destruct (Tt tx ty X Y) as [-> ->]); split; vm_compute; congruence.
  - repeat constructor.
Qed.

Lemma again_frame Q : (forall x y, six x y -> Q x y = canvas 7 x y) -> raw_frame rgb565be xrgb8888 [(0, 0, 3, 2)] Q again.
Proof.
  intros S. exists (pixels 7), 3, [mk_box 0 0 3 2], (mk_box 0 0 3 2).
  split; [vm_compute; reflexivity|]. split; [repeat constructor; vm_compute; congruence|]. split; [cbn; lia|].
  split.
  - intros x y. split.
    + intros H. inversion H as [? ? K|? ? K]; subst; [|inversion K]. exists (mk_box 0 0 3 2). split; [left; reflexivity|]. cbn. lia.
    + intros (b & [<-|[]] & X & Y). constructor. cbn in *. lia.
  - intros x y H. inversion H as [? ? K|? ? K]; subst; [|inversion K].
    assert (J : six x y) by (split; lia). rewrite (S _ _ J). six_cases J; vm_compute; reflexivity.
Qed.

(* what is seen from then on, and what the client's code is told *)
Definition new_seen : Mirror_Spec.picture (list Z) :=
  match resampler_feed (pool0 1%nat) new_frame with Ok c => now_shown new_frame c (canvas 6) | Fault _ => canvas 6 end.
Lemma new_is_seven x y : six x y -> new_seen x y = canvas 7 x y.
Proof. intros J. six_cases J; vm_compute; reflexivity. Qed.
Definition told_scene (W : Mirror_Spec.picture (list Z)) : scene (list Z) :=
  [(IRead (Some (encodings [0])), canvas 6); (IRead (Some [3; 0; 0; 0; 0; 0; 0; 3; 0; 2]), canvas 6); (IEncoded first, canvas 6); (IWritten, canvas 6);
   (IDamage tiny [(0, 0, 3, 2)], W)].
Definition asked_scene (W : Mirror_Spec.picture (list Z)) : scene (list Z) :=
  [(IRead (Some [3; 1; 0; 0; 0; 0; 0; 3; 0; 2]), W); (IEncoded again, W); (IWritten, W)].

Lemma fed_runs W : (forall x y, six x y -> W x y = canvas 7 x y) -> exists c v,
  watch _ (touched rgb565be) no_cursor 3 (told_scene W ++ asked_scene W) start (nothing_yet _) = Ok (c, v) /\
  orderly _ (touched rgb565be) no_cursor 3 (told_scene W ++ asked_scene W) start (nothing_yet _) = true /\
  made_run (touched rgb565be) _ (any_frame unit id_z rgb565be xrgb8888) no_cursor 3
    (told_scene W ++ asked_scene W) start (nothing_yet _) (tt, Tight_Props.fresh) (tt, Tight_Props.fresh) /\
  none_lost (log c) /\ damage c = [] /\ coming _ v = None /\
  splits (fun _ => viewer_of rgb565be) [] (traffic (log c)) fed_wire.
Proof.
  intros N. unfold told_scene, asked_scene. eexists _, _.
  split; [vm_compute; reflexivity|]. split; [vm_compute; reflexivity|]. split.
  { cbn [app made_run]. cbn [coming nothing_yet].
    do 2 (eexists; split; [reflexivity|]; next_input).
    eexists. split; [left; split; [exact first_frame|reflexivity]|]. next_input.
    do 3 (eexists; split; [reflexivity|]; next_input).
    exists (tt, Tight_Props.fresh). split; [left; split; [exact (again_frame _ N)|reflexivity]|]. next_input.
    eexists. split; [reflexivity|]. intros c H. reflexivity. }
  split; [cbn [log]; repeat (apply Forall_cons; [exact I|]); constructor|]. split; [reflexivity|]. split; [reflexivity|].
  change (traffic _) with (concat fed_wire). unfold fed_wire. cbn [concat].
  repeat (apply s_message; [reflexivity|]). constructor.
Qed.

Example C155_case : exists c v,
  feeds sum1 (fun l => l) (map fr_fed [old_frame]) = Ok (hashes, [[mk_box 0 0 3 2]]) /\ shows [old_frame] (canvas 6) /\
  well_fed sum1 xrgb8888 (all_fed [old_frame] (told ++ asked again)) /\ all_fed [old_frame] (told ++ asked again) = [new_frame; old_frame] /\
  staged sum1 (fun l => l) pool0 hashes 1 (canvas 6) (told ++ asked again) = Ok (told_scene new_seen ++ asked_scene new_seen) /\
  watch _ (touched rgb565be) no_cursor 3 (told_scene new_seen ++ asked_scene new_seen) start (nothing_yet _) = Ok (c, v) /\
  orderly _ (touched rgb565be) no_cursor 3 (told_scene new_seen ++ asked_scene new_seen) start (nothing_yet _) = true /\
  made_run (touched rgb565be) _ (any_frame unit id_z rgb565be xrgb8888) no_cursor 3
    (told_scene new_seen ++ asked_scene new_seen) start (nothing_yet _) (tt, Tight_Props.fresh) (tt, Tight_Props.fresh) /\
  none_lost (log c) /\ damage c = [] /\ coming _ v = None /\
  splits (fun _ => viewer_of rgb565be) [] (traffic (log c)) fed_wire /\
  Turn_Spec.pixel new_frame 2 1 = (fourcc "XR24", [56; 28; 112; 0]) /\
  on_screen unit id_i rgb565be tt fed_wire 2 1 = Some [112; 231].
Proof.
  destruct (fed_runs new_seen new_is_seven) as (c & v & R). exists c, v. split; [vm_compute; reflexivity|]. split.
  { intros x y J. apply is_six in J; [|auto]. six_cases J; vm_compute; reflexivity. }
  split; [exact told_well|]. split; [reflexivity|]. split; [unfold told, asked; cbn [app staged bind]; reflexivity|].
  decompose [and] R. repeat (split; [assumption|]). split; vm_compute; reflexivity.
Qed.

Lemma marked_runs W : (forall x y, six x y -> W x y = canvas 7 x y) -> exists c0 v0 c v,
  watch _ (touched rgb565be) no_cursor 3 (told_scene W) start (nothing_yet _) = Ok (c0, v0) /\
  orderly _ (touched rgb565be) no_cursor 3 (told_scene W) start (nothing_yet _) = true /\
  made_run (touched rgb565be) _ (any_frame unit id_z rgb565be xrgb8888) no_cursor 3
    (told_scene W) start (nothing_yet _) (tt, Tight_Props.fresh) (tt, Tight_Props.fresh) /\
  updating c0 = false /\ Upd_Spec.covers (damage c0) 2 1 /\
  watch _ (touched rgb565be) no_cursor 3 (asked_scene W) c0 (nothing_yet _) = Ok (c, v) /\
  orderly _ (touched rgb565be) no_cursor 3 (asked_scene W) c0 (nothing_yet _) = true /\
  made_run (touched rgb565be) _ (any_frame unit id_z rgb565be xrgb8888) no_cursor 3
    (asked_scene W) c0 (nothing_yet _) (tt, Tight_Props.fresh) (tt, Tight_Props.fresh) /\
  damage c = [] /\ coming _ v = None.
Proof.
  intros N. unfold told_scene, asked_scene. eexists _, _, _, _.
  split; [vm_compute; reflexivity|]. split; [vm_compute; reflexivity|]. split.
  { cbn [made_run]. cbn [coming nothing_yet].
    do 2 (eexists; split; [reflexivity|]; next_input).
    eexists. split; [left; split; [exact first_frame|reflexivity]|]. next_input.
    eexists. split; [reflexivity|]. next_input.
    eexists. split; [reflexivity|]. intros c H. reflexivity. }
  split; [reflexivity|]. split; [constructor; lia|]. split; [vm_compute; reflexivity|]. split; [vm_compute; reflexivity|]. split.
  { cbn [made_run]. cbn [coming nothing_yet].
    eexists. split; [reflexivity|]. next_input.
    exists (tt, Tight_Props.fresh). split; [left; split; [exact (again_frame _ N)|reflexivity]|]. next_input.
    eexists. split; [reflexivity|]. intros c H. reflexivity. }
  split; reflexivity.
Qed.

(** The second theorem: up to the change, and after it. *)
Example C155_marked_case : exists c0 v0 c v,
  staged sum1 (fun l => l) pool0 hashes 1 (canvas 6) (told ++ asked again) = Ok (told_scene new_seen ++ asked_scene new_seen) /\
  watch _ (touched rgb565be) no_cursor 3 (told_scene new_seen) start (nothing_yet _) = Ok (c0, v0) /\
  orderly _ (touched rgb565be) no_cursor 3 (told_scene new_seen) start (nothing_yet _) = true /\
  made_run (touched rgb565be) _ (any_frame unit id_z rgb565be xrgb8888) no_cursor 3
    (told_scene new_seen) start (nothing_yet _) (tt, Tight_Props.fresh) (tt, Tight_Props.fresh) /\
  updating c0 = false /\ Upd_Spec.covers (damage c0) 2 1 /\
  watch _ (touched rgb565be) no_cursor 3 (asked_scene new_seen) c0 (nothing_yet _) = Ok (c, v) /\
  orderly _ (touched rgb565be) no_cursor 3 (asked_scene new_seen) c0 (nothing_yet _) = true /\
  made_run (touched rgb565be) _ (any_frame unit id_z rgb565be xrgb8888) no_cursor 3
    (asked_scene new_seen) c0 (nothing_yet _) (tt, Tight_Props.fresh) (tt, Tight_Props.fresh) /\
  damage c = [] /\ coming _ v = None.
Proof.
  destruct (marked_runs new_seen new_is_seven) as (c0 & v0 & c & v & R). exists c0, v0, c, v.
  split; [unfold told, asked; cbn [app staged bind]; reflexivity|]. exact R.
Qed.
