(** C152-C154: buffers in graphics memory. *)
From Verif Require Import Common Pixels_Model Gbm_Model Gbm_Spec Gbm_Proofs Gbm2_Proofs.
Local Open Scope string_scope.
Local Open Scope list_scope.
Local Open Scope Z_scope.

(** ** C152: readers find a mapping *)

(** Nothing goes wrong, and all that read do so in the one mapping there is.  Missing: when
    steps disturb each other, when the driver cannot map, when the format is unknown. *)
Theorem C152_readers_find_a_mapping_partial : forall width height format acts,
  known format -> Forall mappable acts -> undisturbed (start width height format) acts ->
  exists w, run (start width height format) acts = Ok w /\
    forall i addr stride, nth_error (w_works w) i = Some (InBox addr stride) ->
      exists n, addr = Some n /\ g_live (w_fb w) = [n].
Proof.
  intros width height format acts K M U.
  destruct (run_good acts _ (start_good width height format) K M U) as (w & E & (_ & X & V & _) & _); [discriminate|].
  exists w. split; [exact E|]. intros i addr stride N.
  destruct (V _ (nth_error_In _ _ N)) as (HN & _ & ->). unfold exact in X.
  destruct (g_handle (w_fb w)) as [n|]; [|congruence]. exists n. split; [reflexivity|exact X].
Qed.

(** That is so when each feed is refined and nobody uses V4L2. *)
Theorem C152_refined_feeds_are_safe : forall width height format acts,
  known format -> Forall mappable acts -> Forall no_v4l2 acts -> fed_refined acts ->
  undisturbed (start width height format) acts /\
  exists w, run (start width height format) acts = Ok w.
Proof.
  intros width height format acts K M NV FR.
  assert (U : undisturbed (start width height format) acts).
  { apply ready_undisturbed; try assumption; [apply start_good|].
    split; [cbn; lia|]. split; [reflexivity|]. intros p []. }
  split; [exact U|].
  destruct (C152_readers_find_a_mapping_partial width height format acts K M U) as (w & E & _). eauto.
Qed.

(** It is so as well when all viewers are served by V4L2. *)
Theorem C152_hardware_alone_is_safe : forall width height format acts,
  known format -> Forall mappable acts -> Forall no_readers acts ->
  undisturbed (start width height format) acts /\
  exists w, run (start width height format) acts = Ok w.
Proof.
  intros width height format acts K M NR.
  assert (U : undisturbed (start width height format) acts) by (apply quiet_undisturbed; [intros p []|assumption]).
  split; [exact U|].
  destruct (C152_readers_find_a_mapping_partial width height format acts K M U) as (w & E & _). eauto.
Qed.

(** Two viewers' encoders start on a buffer that was fed while there was no viewer whose
    damage is refined: one sees the handle before the other has stored the address. *)
Theorem C152_two_encoders_refuted : exists format acts,
  known format /\ Forall mappable acts /\ Forall no_v4l2 acts /\
  run (start 64 64 format) acts = Fault NullDeref.
Proof.
  exists (fourcc "XR24"), [Show; Take; Take; Begin 0; Map 0 (Some 256); Begin 1; Box 1; Read 1 0 0].
  split; [discriminate|]. split; [repeat constructor; discriminate|]. split; [repeat constructor|reflexivity].
Qed.

(** The V4L2 encoder gives back a buffer that another viewer's encoder is reading. *)
Theorem C152_v4l2_refuted : exists format acts,
  known format /\ Forall mappable acts /\ fed_refined acts /\
  run (start 64 64 format) acts = Fault UseAfterFree.
Proof.
  exists (fourcc "XR24"), [Refine (Some 256) 0 0; Show; VTake (Some 256); Take; Begin 0; Box 0; VGive; Read 0 0 0].
  split; [discriminate|]. split; [repeat constructor; discriminate|]. split; [|reflexivity].
  repeat first [apply fr_nil | apply fr_feed | apply fr_other; [discriminate|]].
Qed.

(** Whenever it does so, the pixel read next is one of a mapping undone. *)
Theorem C152_giving_back_breaks_readers : forall width height format acts w i addr stride x y,
  known format -> Forall mappable acts -> undisturbed (start width height format) acts ->
  run (start width height format) acts = Ok w -> nth_error (w_works w) i = Some (InBox addr stride) ->
  w_v4l2 w <> 0%nat ->
  exists w', step w VGive = Ok w' /\ step w' (Read i x y) = Fault UseAfterFree.
Proof.
  intros width height format acts w i addr stride x y K M U E N VV.
  destruct (run_good acts _ (start_good width height format) K M U) as (w1 & E1 & G & _); [discriminate|].
  rewrite E in E1. injection E1 as <-. pose proof G as (C & X & V & _).
  destruct (V _ (nth_error_In _ _ N)) as (HN & _ & ->).
  pose proof (work_counts _ _ _ G N ltac:(discriminate)) as F.
  pose proof (active_in _ _ (nth_error_In _ _ N) ltac:(discriminate)) as A. destruct C as (HC & RC & _).
  cbn [step]. destruct (w_v4l2 w) as [|k]; [congruence|].
  rewrite (unmap_ok _ X F). cbn [bind].
  rewrite drop_some; [|reflexivity|cbn [g_hold]; lia|cbn [g_ref]; lia]. cbn [bind].
  eexists. split; [reflexivity|]. cbn [w_works w_fb]. rewrite N.
  destruct (g_handle (w_fb w)) as [n|]; [|congruence]. reflexivity.
Qed.

(** When the driver cannot map the buffer: refining reads at NULL, turning draws what was
    never written, the encoders abort (unless built without assertions). *)
Theorem C152_failed_mappings_are_not_noticed : forall width height format acts w x y,
  known format -> Forall mappable acts -> undisturbed (start width height format) acts ->
  run (start width height format) acts = Ok w -> g_handle (w_fb w) = None -> w_app w <> 0%nat ->
  step w (Refine None x y) = Fault NullDeref /\
  step w (Resample None x y) = Fault Uninit /\
  forall i, nth_error (w_works w) i = Some Mapping ->
    exists w', step w (Map i None) = Ok w' /\ step w' (Store i) = Fault AssertFail.
Proof.
  intros width height format acts w x y K M U E HN AN.
  destruct (run_good acts _ (start_good width height format) K M U) as (w1 & E1 & G & Fo & _); [discriminate|].
  rewrite E in E1. injection E1 as <-. pose proof G as (C & X & V & _).
  assert (F : g_freed (w_fb w) = false).
  { apply not_freed; [exact C|]. destruct C as (HC & _). pose proof (active_nonneg (w_works w)). lia. }
  assert (K1 : pixel_size (w_fb w) =? 0 = false) by (apply Z.eqb_neq; unfold pixel_size; rewrite Fo; exact K).
  cbn [step]. destruct (w_app w) as [|k]; [congruence|].
  unfold fb_map. rewrite F. unfold is_mapped. rewrite HN. cbn [map_call]. unfold map_store. rewrite K1. cbn [bind fst].
  split; [unfold fb_read; cbn [g_freed g_addr]; rewrite F; reflexivity|]. split; [reflexivity|].
  intros i N. rewrite N. eexists. split; [reflexivity|].
  cbn [set_work set_fb w_works w_fb].
  assert (N' : nth_error (set_phase (w_works w) i (Storing None)) i = Some (Storing None)).
  { clear - N. revert i N. induction (w_works w) as [|a l IH]; intros [|i] N; cbn in *; try discriminate; auto. }
  rewrite N', F. unfold map_store. rewrite K1. reflexivity.
Qed.

Theorem C152_failed_mapping_refuted : exists format x y,
  known format /\ run (start 64 64 format) [Refine None x y] = Fault NullDeref.
Proof. exists (fourcc "XR24"), 0, 0. split; [discriminate|reflexivity]. Qed.

(** Buffers of a format the library does not know cannot even be refined. *)
Theorem C152_unknown_formats_divide_by_zero : forall width height format answer x y,
  ~ known format -> run (start width height format) [Refine answer x y] = Fault DivByZero.
Proof.
  intros width height format answer x y K. unfold known in K.
  assert (Z0 : pixel_size_from_fourcc format = 0) by (destruct (Z.eq_dec (pixel_size_from_fourcc format) 0); tauto).
  assert (EM : fb_map (from_gbm_bo width height format) answer = Fault DivByZero).
  { unfold fb_map, is_mapped. destruct answer; cbn [from_gbm_bo g_freed g_handle map_call];
      unfold map_store, pixel_size; cbn [g_format from_gbm_bo]; rewrite Z0; reflexivity. }
  cbn [run step start w_app w_fb]. rewrite EM. reflexivity.
Qed.

Theorem C152_unknown_format_refuted : exists format acts,
  Forall mappable acts /\ Forall no_v4l2 acts /\ fed_refined acts /\
  run (start 64 64 format) acts = Fault DivByZero.
Proof.
  exists (fourcc "NV12"), [Refine (Some 64) 0 0; Show].
  split; [repeat constructor; discriminate|]. split; [repeat constructor|]. split; [repeat constructor|reflexivity].
Qed.

(* a buffer refined and shown to two viewers, who read it at the same time *)
Definition two_viewers : list act :=
  [Refine (Some 256) 5 5; Show; Take; Take; Begin 0; Begin 1; Box 0; Box 1; Read 0 3 4; Hide; Read 1 63 63; Finish 0; Read 1 1 1].

Example C152_case : known (fourcc "XR24") /\ Forall mappable two_viewers /\ Forall no_v4l2 two_viewers /\
  fed_refined two_viewers /\
  exists w, run (start 64 64 (fourcc "XR24")) two_viewers = Ok w /\
    nth_error (w_works w) 1 = Some (InBox (Some 0%nat) 64) /\ g_live (w_fb w) = [0%nat].
Proof.
  split; [discriminate|]. split; [repeat constructor; discriminate|]. split; [repeat constructor|].
  split; [repeat first [apply fr_nil | apply fr_feed | apply fr_other; [discriminate|]]|].
  eexists. split; [vm_compute; reflexivity|]. split; reflexivity.
Qed.

(* V4L2 serves two viewers *)
Example C152_hardware_case : let acts := [Show; VTake (Some 256); VTake (Some 256); VGive; Hide; VGive; AppUnref] in
  Forall mappable acts /\ Forall no_readers acts /\
  exists w, run (start 64 64 (fourcc "XR24")) acts = Ok w /\ g_freed (w_fb w) = true.
Proof.
  cbn zeta. split; [repeat constructor; discriminate|]. split; [repeat constructor|].
  eexists. split; [vm_compute; reflexivity|reflexivity].
Qed.

(* V4L2 and a viewer that reads: the hypotheses of C152_giving_back_breaks_readers *)
Example C152_giving_back_case : let acts := [Refine (Some 256) 0 0; Show; VTake (Some 256); Take; Begin 0; Box 0] in
  undisturbed (start 64 64 (fourcc "XR24")) acts /\
  exists w, run (start 64 64 (fourcc "XR24")) acts = Ok w /\ nth_error (w_works w) 0 = Some (InBox (Some 0%nat) 64) /\
    w_v4l2 w = 1%nat.
Proof.
  cbn zeta. split.
  - cbn [undisturbed]. repeat match goal with
    | |- ~ _ /\ _ => split
    | |- ~ _ => cbn; try tauto; intros (p & P & A); cbn in P; repeat (destruct P as [<-|P]; [cbn in A; tauto|]); exact P
    | |- forall w, step ?a ?b = Ok w -> _ => intros ? E; vm_compute in E; injection E as <-
    end; exact I.
  - eexists. split; [vm_compute; reflexivity|]. split; reflexivity.
Qed.

(* an encoder about to map: the hypotheses of C152_failed_mappings_are_not_noticed *)
Example C152_failed_mappings_case : let acts := [Show; Take; Begin 0] in
  undisturbed (start 64 64 (fourcc "XR24")) acts /\
  exists w, run (start 64 64 (fourcc "XR24")) acts = Ok w /\ g_handle (w_fb w) = None /\ w_app w = 1%nat /\
    nth_error (w_works w) 0 = Some Mapping.
Proof.
  cbn zeta. split.
  - cbn [undisturbed]. repeat match goal with
    | |- ~ _ /\ _ => split
    | |- ~ _ => cbn; try tauto; intros (p & P & A); cbn in P; repeat (destruct P as [<-|P]; [cbn in A; tauto|]); exact P
    | |- forall w, step ?a ?b = Ok w -> _ => intros ? E; vm_compute in E; injection E as <-
    end; exact I.
  - eexists. split; [vm_compute; reflexivity|]. repeat split.
Qed.

(** ** C153: mappings are undone *)

(** When the application is told that the library is done with the buffer, and when the
    framebuffer is gone, no mapping is left.  Missing: steps that disturb each other. *)
Theorem C153_mappings_are_undone_partial : forall width height format acts a w w',
  known format -> Forall mappable (acts ++ [a]) -> undisturbed (start width height format) (acts ++ [a]) ->
  run (start width height format) acts = Ok w -> step w a = Ok w' ->
  (g_told (w_fb w') <> g_told (w_fb w) -> g_live (w_fb w') = []) /\
  (g_freed (w_fb w') = true -> g_live (w_fb w') = []) /\
  (length (g_live (w_fb w')) <= 1)%nat.
Proof.
  intros width height format acts a w w' K M U E Ea.
  apply Forall_app in M as (M1 & M2). inversion M2 as [|? ? M3 _]; subst.
  destruct (undisturbed_app _ _ _ _ U E) as (U1 & U2 & _).
  destruct (run_good acts _ (start_good width height format) K M1 U1) as (w1 & E1 & G & Fo & L); [discriminate|].
  rewrite E in E1. injection E1 as <-.
  destruct (step_good a w G ltac:(rewrite Fo; exact K) M3 U2) as (w2 & E2 & (_ & X & _) & _ & T & L2).
  rewrite Ea in E2. injection E2 as <-. split; [exact T|]. split; [exact (L2 L)|].
  rewrite X. destruct (g_handle (w_fb w')); cbn; lia.
Qed.

(** Two encoders that map at the same time: one mapping is never undone. *)
Theorem C153_mappings_are_undone_refuted : exists format acts w,
  known format /\ Forall mappable acts /\ Forall no_v4l2 acts /\
  run (start 64 64 format) acts = Ok w /\ g_freed (w_fb w) = true /\ g_live (w_fb w) <> [].
Proof.
  exists (fourcc "XR24"), [Show; Take; Take; Begin 0; Begin 1; Map 0 (Some 256); Map 1 (Some 256); Store 0; Store 1;
    Box 0; Box 1; Read 0 0 0; Read 1 0 0; Finish 0; Finish 1; Hide; AppUnref].
  eexists. split; [discriminate|]. split; [repeat constructor; discriminate|]. split; [repeat constructor|].
  split; [vm_compute; reflexivity|]. split; [reflexivity|discriminate].
Qed.

Example C153_case : let acts := two_viewers in let a := Finish 1 in
  Forall mappable (acts ++ [a]) /\ undisturbed (start 64 64 (fourcc "XR24")) (acts ++ [a]) /\
  exists w w', run (start 64 64 (fourcc "XR24")) acts = Ok w /\ step w a = Ok w' /\
    g_live (w_fb w) = [0%nat] /\ g_told (w_fb w) = 0 /\ g_told (w_fb w') = 1.
Proof.
  cbn zeta. split; [repeat constructor; discriminate|]. split.
  - apply (C152_refined_feeds_are_safe 64 64); [discriminate|repeat constructor; discriminate|repeat constructor|].
    cbn [two_viewers app]. repeat first [apply fr_nil | apply fr_feed | apply fr_other; [discriminate|]].
  - eexists. eexists. split; [vm_compute; reflexivity|]. split; [vm_compute; reflexivity|]. repeat split.
Qed.

(** ** C154: rows of pixels *)

Lemma run_strided : forall acts pitch w w', good w -> known (g_format (w_fb w)) -> Forall (pitched pitch) acts ->
  undisturbed w acts -> strided pitch w -> run w acts = Ok w' ->
  strided pitch w' /\ good w' /\ g_format (w_fb w') = g_format (w_fb w).
Proof.
  induction acts as [|a acts IH]; intros pitch w w' G K P U St E; cbn [run] in E.
  - injection E as <-. repeat split; try apply St; apply G.
  - inversion P as [|? ? P1 P2]; subst. destruct U as (U1 & U2).
    assert (M : mappable a) by (destruct a; cbn in *; try tauto; subst; discriminate).
    destruct (step_good a w G K M U1) as (w1 & E1 & G1 & F1 & _). rewrite E1 in E. cbn [bind] in E.
    destruct (IH pitch w1 w' G1 ltac:(rewrite F1; exact K) P2 (U2 w1 E1)) as (A & B & D).
    + exact (strided_step a pitch w w1 G K P1 U1 St E1).
    + exact E.
    + split; [exact A|]. split; [exact B|congruence].
Qed.

Lemma read_found : forall width height format pitch acts w i addr stride x y,
  known format -> 0 <= pitch < 2 ^ 31 -> Forall (pitched pitch) acts ->
  undisturbed (start width height format) acts -> run (start width height format) acts = Ok w ->
  nth_error (w_works w) i = Some (InBox addr stride) ->
  exists n, read_at (w_fb w) addr stride x y =
    Ok (n, x * pixel_size_from_fourcc format + y * (pitch / pixel_size_from_fourcc format * pixel_size_from_fourcc format)).
Proof.
  intros width height format pitch acts w i addr stride x y K P PA U E N.
  destruct (run_strided acts pitch _ w (start_good width height format) K PA U) as ((S1 & _) & G & Fo).
  { split; [intros p []|cbn; congruence]. } { exact E. }
  pose proof (S1 _ (nth_error_In _ _ N)) as ST. cbn in ST. unfold pixel_size in ST. rewrite Fo in ST. cbn [start w_fb from_gbm_bo g_format] in ST.
  destruct G as (_ & X & V & _). destruct (V _ (nth_error_In _ _ N)) as (HN & _ & ->). unfold exact in X.
  destruct (g_handle (w_fb w)) as [n|]; [|congruence]. exists n.
  unfold read_at. rewrite X. cbn [existsb]. rewrite Nat.eqb_refl. cbn [orb].
  unfold pixel_size. rewrite Fo. cbn [start w_fb from_gbm_bo g_format]. subst stride.
  assert (SZ : 0 < pixel_size_from_fourcc format).
  { assert (0 <= pixel_size_from_fourcc format); [|unfold known in K; lia].
    unfold pixel_size_from_fourcc. repeat match goal with |- context [if ?b then _ else _] => destruct b end; lia. }
  assert (TS : to_signed 32 (pitch / pixel_size_from_fourcc format) = pitch / pixel_size_from_fourcc format).
  { assert (0 <= pitch / pixel_size_from_fourcc format <= pitch).
    { split; [apply Z.div_pos; lia|]. apply Z.div_le_upper_bound; nia. }
    unfold to_signed. rewrite Z.mod_small by lia. change (32 - 1) with 31.
    destruct (_ <? _) eqn:L; [reflexivity|apply Z.ltb_ge in L; lia]. }
  rewrite TS. reflexivity.
Qed.

(** Encoders read pixel (x, y) where it is.  Missing: rows that are not a whole number of
    pixels apart. *)
Theorem C154_pixels_are_found_partial : forall width height format pitch acts w i addr stride x y,
  known format -> 0 <= pitch < 2 ^ 31 -> (pixel_size_from_fourcc format | pitch) -> Forall (pitched pitch) acts ->
  undisturbed (start width height format) acts -> run (start width height format) acts = Ok w ->
  nth_error (w_works w) i = Some (InBox addr stride) ->
  exists n, read_at (w_fb w) addr stride x y = Ok (n, position pitch (pixel_size_from_fourcc format) x y).
Proof.
  intros width height format pitch acts w i addr stride x y K P D PA U E N.
  destruct (read_found _ _ _ _ _ _ _ _ _ x y K P PA U E N) as (n & ->). exists n. do 2 f_equal.
  destruct D as (q & ->). rewrite Z.div_mul by exact K. unfold position. ring.
Qed.

(** They miss all pixels but those of the first row when they are not. *)
Theorem C154_other_pitches_miss : forall width height format pitch acts w i addr stride x y n at_,
  known format -> 0 <= pitch < 2 ^ 31 -> ~ (pixel_size_from_fourcc format | pitch) -> Forall (pitched pitch) acts ->
  undisturbed (start width height format) acts -> run (start width height format) acts = Ok w ->
  nth_error (w_works w) i = Some (InBox addr stride) -> 0 < y ->
  read_at (w_fb w) addr stride x y = Ok (n, at_) -> at_ < position pitch (pixel_size_from_fourcc format) x y.
Proof.
  intros width height format pitch acts w i addr stride x y n at_ K P D PA U E N Y R.
  destruct (read_found _ _ _ _ _ _ _ _ _ x y K P PA U E N) as (m & R'). rewrite R' in R. injection R as _ <-.
  unfold position, known in *. set (s := pixel_size_from_fourcc format) in *.
  assert (S0 : 0 <= s).
  { unfold s, pixel_size_from_fourcc. repeat match goal with |- context [if ?b then _ else _] => destruct b end; lia. }
  pose proof (Z.div_mod pitch s K) as DM. pose proof (Z.mod_pos_bound pitch s ltac:(lia)) as MB.
  assert (pitch mod s <> 0) by (intros Z0; apply D; apply Z.mod_divide; assumption).
  nia.
Qed.

Theorem C154_pixels_are_found_refuted : exists format pitch acts w addr stride n at_,
  known format /\ Forall (pitched pitch) acts /\ undisturbed (start 20 20 format) acts /\
  run (start 20 20 format) acts = Ok w /\ nth_error (w_works w) 0 = Some (InBox addr stride) /\
  read_at (w_fb w) addr stride 0 1 = Ok (n, at_) /\ at_ <> position pitch (pixel_size_from_fourcc format) 0 1.
Proof.
  exists (fourcc "RG24"), 64, [Refine (Some 64) 0 0; Show; Take; Begin 0; Box 0].
  do 5 eexists. split; [discriminate|]. split; [repeat constructor|]. split.
  { apply (C152_refined_feeds_are_safe 20 20); [discriminate|repeat constructor; discriminate|repeat constructor|].
    repeat first [apply fr_nil | apply fr_feed | apply fr_other; [discriminate|]]. }
  split; [vm_compute; reflexivity|]. split; [reflexivity|]. split; [vm_compute; reflexivity|]. vm_compute. discriminate.
Qed.

Example C154_case : Forall (pitched 256) two_viewers /\ (pixel_size_from_fourcc (fourcc "XR24") | 256) /\
  undisturbed (start 64 64 (fourcc "XR24")) two_viewers /\
  exists w, run (start 64 64 (fourcc "XR24")) two_viewers = Ok w /\
    nth_error (w_works w) 1 = Some (InBox (Some 0%nat) 64) /\
    read_at (w_fb w) (Some 0%nat) 64 3 2 = Ok (0%nat, 524).
Proof.
  split; [repeat constructor|]. split; [exists 64; reflexivity|]. split.
  { apply (C152_refined_feeds_are_safe 64 64); [discriminate|repeat constructor; discriminate|repeat constructor|].
    cbn [two_viewers]. repeat first [apply fr_nil | apply fr_feed | apply fr_other; [discriminate|]]. }
  eexists. split; [vm_compute; reflexivity|]. split; reflexivity.
Qed.

Print Assumptions C152_readers_find_a_mapping_partial.
Print Assumptions C152_refined_feeds_are_safe.
Print Assumptions C152_hardware_alone_is_safe.
Print Assumptions C152_two_encoders_refuted.
Print Assumptions C152_v4l2_refuted.
Print Assumptions C152_giving_back_breaks_readers.
Print Assumptions C152_failed_mappings_are_not_noticed.
Print Assumptions C152_failed_mapping_refuted.
Print Assumptions C152_unknown_formats_divide_by_zero.
Print Assumptions C152_unknown_format_refuted.
Print Assumptions C153_mappings_are_undone_partial.
Print Assumptions C153_mappings_are_undone_refuted.
Print Assumptions C154_pixels_are_found_partial.
Print Assumptions C154_other_pitches_miss.
Print Assumptions C154_pixels_are_found_refuted.
