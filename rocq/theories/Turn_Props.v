(** C137: buffers that are turned. *)
From Verif Require Import Common CommonProofs Pixels_Model Zrle_Model Raw_Model Transform_Model Transform_Spec Transform_Props Refinery_Model Refinery_Spec
  Refinery_Proofs Refinery_Props Cursor_Model Turn_Model Turn_Spec Turn_Proofs.

(** Any number of frames of any sizes up to 32736, turned in any way, while clients come and
    go: the screen of a client that draws the damage reported for each frame shows the
    newest frame, turned, at every pixel, whatever was on the screen and in the buffers of
    the pool before.  Missing: frames that are turned differently, or have another format,
    and the same size as the one before; and hashes for contents, as in C51. *)
Theorem C137_screen_shows_the_frame_partial :
  forall xxh rects_of dst s f before, keeps_points rects_of ->
    Forall usable (f :: before) -> every honest (f :: before) -> every steady (f :: before) -> tells_apart xxh (f :: before) ->
    exists r sc, run xxh rects_of dst s (f :: before) = Ok (r, sc) /\ forall x y, inside f x y -> sc x y = Ok (pixel f x y).
Proof.
  intros xxh rects_of dst s f before K U H St T. destruct (screens xxh rects_of dst s K (f :: before) U St H T) as (r & sc & outs & R & _ & S).
  exists r, sc. split; [exact R|exact S].
Qed.
Print Assumptions C137_screen_shows_the_frame_partial.

(* two pixels of 32 bits side by side *)
Definition pair_frame (t : transform) (format : string) (a b : Z) : frame :=
  mk_frame t (fourcc format) (mk_fed true (mk_pic 2 1 2 4 (le 4 a ++ le 4 b)) [mk_box 0 0 2 1]).
Definition sum1 (l : list Z) : Z := 1 + fold_left (fun s b => 3 * s + b) l 0.

Lemma pair_usable t a b : usable (pair_frame t "XR24" a b).
Proof.
  split; [|split; [reflexivity|right; reflexivity]]. split; [|repeat constructor; cbn; lia]. repeat split; try (cbn; lia).
Qed.
Lemma pair_honest t n a b before : honest before (pair_frame t n a b).
Proof.
  intros x y I. left. pose proof (source_in _ _ _ I) as Q. destruct (source _ x y) as [sx sy]. cbn in Q. eexists. split; [left; reflexivity|cbn; lia].
Qed.
Lemma pair_tile t n a b tx ty : 0 <= 32 * tx < 2 -> 0 <= 32 * ty < 1 -> tile_bytes (pic (pair_frame t n a b)) tx ty = le 4 a ++ le 4 b.
Proof. intros X Y. replace tx with 0 by lia. replace ty with 0 by lia. reflexivity. Qed.

(** A case: the picture is turned to the left, as one of its pixels changes. *)
Example C137_ex : let l := [pair_frame R270 "XR24" 3 2; pair_frame R270 "XR24" 1 2] in
  Forall usable l /\ every honest l /\ every steady l /\ tells_apart sum1 l /\
  map (pixel (pair_frame R270 "XR24" 3 2) 0) [0; 1] = [(fourcc "XR24", le 4 2); (fourcc "XR24", le 4 3)].
Proof.
  cbv zeta. split; [repeat (apply Forall_cons; [apply pair_usable|]); apply Forall_nil|]. split; [cbn [every]; repeat split; apply pair_honest|].
  split; [cbn [every]; split; [intros _ _; repeat split|repeat split]|]. split; [|reflexivity].
  intros f g tx ty [<-|[<-|[]]] [<-|[<-|[]]] X Y; rewrite !pair_tile by assumption; split; vm_compute; congruence.
Qed.

(** A picture that is turned is not drawn again, if none of its bytes changes: for every
    hash, and whatever the application says to be damaged. *)
Theorem C137_turning_alone_is_missed :
  forall xxh rects_of dst s f g before r sc, keeps_points rects_of -> Forall usable (g :: f :: before) ->
    run xxh rects_of dst s (f :: before) = Ok (r, sc) ->
    f_clients (fr_fed f) = true -> f_clients (fr_fed g) = true -> pic g = pic f ->
    (forall x y, in_region (f_damage (fr_fed g)) x y -> in_region (f_damage (fr_fed f)) x y) ->
    exists r' sc', run xxh rects_of dst s (g :: f :: before) = Ok (r', sc') /\ forall x y, inside g x y -> sc' x y = sc x y.
Proof. exact turning_missed. Qed.
Print Assumptions C137_turning_alone_is_missed.
Example C137_missed_ex : Forall usable [pair_frame R180 "XR24" 1 2; pair_frame Normal "XR24" 1 2] /\
  pic (pair_frame R180 "XR24" 1 2) = pic (pair_frame Normal "XR24" 1 2) /\
  exists r sc, run sum1 (fun l => l) (fun _ _ _ => Ok []) (fun _ _ => Ok (0, [])) [pair_frame Normal "XR24" 1 2] = Ok (r, sc).
Proof. split; [repeat (apply Forall_cons; [apply pair_usable|]); apply Forall_nil|]. split; [reflexivity|]. eexists _, _. vm_compute. reflexivity. Qed.

(** The screen keeps the old picture, although everything is damaged: turned upside down,
    and with red and blue exchanged. *)
Theorem C137_screen_shows_the_frame_refuted :
  (exists xxh f g r sc, Forall usable [g; f] /\ every honest [g; f] /\ tells_apart xxh [g; f] /\ fr_format g = fr_format f /\
     run xxh (fun l => l) (fun _ _ _ => Ok []) (fun _ _ => Ok (0, [])) [g; f] = Ok (r, sc) /\
     inside g 0 0 /\ sc 0 0 <> Ok (pixel g 0 0)) /\
  (exists xxh f g r sc, Forall usable [g; f] /\ every honest [g; f] /\ tells_apart xxh [g; f] /\ fr_turn g = fr_turn f /\
     run xxh (fun l => l) (fun _ _ _ => Ok []) (fun _ _ => Ok (0, [])) [g; f] = Ok (r, sc) /\
     inside g 0 0 /\ sc 0 0 <> Ok (pixel g 0 0)).
Proof.
  split.
  - exists sum1, (pair_frame Normal "XR24" 1 2), (pair_frame R180 "XR24" 1 2). eexists _, _. split; [repeat (apply Forall_cons; [apply pair_usable|]); apply Forall_nil|].
    split; [cbn [every]; repeat split; apply pair_honest|].
    split; [intros f g tx ty [<-|[<-|[]]] [<-|[<-|[]]] X Y; rewrite !pair_tile by assumption; split; vm_compute; congruence|].
    split; [reflexivity|]. split; [vm_compute; reflexivity|]. split; [unfold inside; cbn; lia|]. vm_compute. discriminate.
  - exists sum1, (pair_frame Normal "XR24" 1 2), (pair_frame Normal "XB24" 1 2). eexists _, _.
    split; [constructor; [split; [apply (pair_usable Normal 1 2)|split; [reflexivity|now left]]|repeat (apply Forall_cons; [apply pair_usable|]); apply Forall_nil]|].
    split; [cbn [every]; repeat split; apply pair_honest|].
    split; [intros f g tx ty [<-|[<-|[]]] [<-|[<-|[]]] X Y; rewrite !pair_tile by assumption; split; vm_compute; congruence|].
    split; [reflexivity|]. split; [vm_compute; reflexivity|]. split; [unfold inside; cbn; lia|]. vm_compute. discriminate.
Qed.
Print Assumptions C137_screen_shows_the_frame_refuted.

(** The frame made for a turned buffer is new as a whole: nothing of what was in the buffer
    taken from the pool is seen. *)
Theorem C137_nothing_old_is_seen :
  forall dst f, usable f -> exists c, resampler_feed dst f = Ok c /\
    forall x y, inside f x y -> (let* p := c x y in Ok (fr_format f, p)) = Ok (pixel f x y).
Proof. exact shown_right. Qed.
Print Assumptions C137_nothing_old_is_seen.
Example C137_old_ex : usable (pair_frame Flipped_90 "XR24" 5 6) /\ size (pair_frame Flipped_90 "XR24" 5 6) = (1, 2).
Proof. split; [apply pair_usable|reflexivity]. Qed.

(** A turned buffer in a format that pixman has no name for, which is shown as it is when not
    turned, aborts the server. *)
Theorem C137_turned_unknown_formats_abort :
  forall xxh rects_of dst s f before r sc, keeps_points rects_of -> run xxh rects_of dst s before = Ok (r, sc) ->
    Forall usable before -> proper (fr_fed f) -> fr_turn f <> Normal -> pixman_format (fr_format f) = Ok false ->
    run xxh rects_of dst s (f :: before) = Fault AssertFail.
Proof.
  intros xxh rects_of dst s f before r sc K R U P T F. destruct (run_feeds _ _ _ _ _ _ _ R) as [outs Fe].
  assert (Pl : Forall proper (map fr_fed before)). { rewrite Forall_map. eapply Forall_impl; [|exact U]. now intros a (Q & _). }
  destruct (feed_exact xxh rects_of (map fr_fed before) (fr_fed f) K Pl P) as (r' & out & outs' & E & _).
  cbn [feeds] in E. rewrite Fe in E. cbn [bind] in E.
  destruct (feed_damage xxh rects_of r (f_clients (fr_fed f)) (f_pic (fr_fed f)) (f_damage (fr_fed f))) as [[r2 o2]|] eqn:D; [|discriminate].
  cbn [run]. rewrite R. cbn [bind]. unfold display_feed. fold (pic f) in D. rewrite D. cbn [bind].
  unfold resampler_feed, resample_now. rewrite F. destruct (fr_turn f); try reflexivity. contradiction.
Qed.
Print Assumptions C137_turned_unknown_formats_abort.
Example C137_abort_ex : let f t := mk_frame t (fourcc "RA30") (mk_fed true (mk_pic 2 1 2 4 (le 4 1 ++ le 4 2)) [mk_box 0 0 2 1]) in
  proper (fr_fed (f R90)) /\ usable (f Normal) /\ pixman_format (fr_format (f R90)) = Ok false.
Proof.
  cbv zeta. assert (P : proper (mk_fed true (mk_pic 2 1 2 4 (le 4 1 ++ le 4 2)) [mk_box 0 0 2 1])) by apply (pair_usable Normal 1 2).
  split; [exact P|]. split; [|reflexivity]. split; [exact P|]. split; [reflexivity|left; reflexivity].
Qed.
