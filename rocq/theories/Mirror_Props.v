(** C130: what the client sees is what the application shows. *)
From Verif Require Import Common CommonProofs Pixels_Model Msg_Model Msg_Proofs
  Upd_Spec Upd_Proofs Upd2_Proofs Upd3_Proofs Upd_Props Mirror_Spec Mirror_Proofs.

(** At every moment at which a pixel is neither marked as damaged nor on its way, the
    client either has never been sent it or shows what the buffer shows now: for every
    sequence of inputs in which no frame is refused by the encoder or thrown away, and in
    which the client requests no fence or nothing has arrived when the answer to a fence
    makes the server read again.  (Partial: the frames that are lost, see below; nested
    reads; buffers larger than 32767.) *)
Theorem C130_screen_shows_picture_partial :
  forall (A : Type) wide E fuel p d seq (l : scene A) c v (P : picture A) x y,
    watch A wide E fuel l (ready p d seq) (nothing_yet A) = Ok (c, v) ->
    steady A l P -> orderly A wide E fuel l (ready p d seq) (nothing_yet A) = true ->
    holds x y d -> Forall (fun z => input_holds x y (fst z)) l ->
    (forall h, e_more E h = None) \/ count is_fence (log c) = 0 ->
    none_lost (log c) ->
    ~ covers (damage c) x y -> coming A v = None ->
    screen A v x y = None \/ screen A v x y = Some (last_picture A P l x y).
Proof.
  intros A wide E fuel p d seq l c v P x y W ST PL H F N NL D C.
  destruct N as [N|N].
  - destruct (watch_right A wide x y True E fuel true (fun _ => N) l (ready p d seq) (nothing_yet A) c v P) as (_ & K & _); auto.
    + intros f [= <-]. exact H.
    + apply ready_J.
    + intros X. cbn in X. congruence.
    + right. right. split; [discriminate|]. left. split; [exact I|reflexivity].
    + destruct K as [K|[(r & Q & K & _)|[_ [[_ K]|K]]]]; [contradiction|congruence|auto|auto].
  - destruct (watch_right A wide x y True E fuel false ltac:(discriminate) l (ready p d seq) (nothing_yet A) c v P) as (_ & K & _); auto.
    + intros f [= <-]. exact H.
    + apply ready_J.
    + intros X. cbn in X. congruence.
    + right. right. split; [discriminate|]. left. split; [exact I|reflexivity].
    + destruct K as [K|[(r & Q & K & _)|[_ [[_ K]|K]]]]; [contradiction|congruence|auto|auto].
Qed.
Print Assumptions C130_screen_shows_picture_partial.

(** And a pixel that was marked at a moment at which no frame was in flight has been sent
    when it is no longer marked or on its way. *)
Theorem C130_marked_pixel_is_shown_partial :
  forall (A : Type) wide E fuel p d seq l0 c0 (l : scene A) c v (P : picture A) x y,
    run E fuel (ready p d seq) l0 = Ok c0 -> Forall (input_holds x y) l0 -> updating c0 = false -> covers (damage c0) x y ->
    watch A wide E fuel l c0 (nothing_yet A) = Ok (c, v) ->
    steady A l P -> orderly A wide E fuel l c0 (nothing_yet A) = true ->
    holds x y d -> Forall (fun z => input_holds x y (fst z)) l ->
    (forall h, e_more E h = None) \/ count is_fence (log c) = 0 ->
    none_lost (log c) ->
    ~ covers (damage c) x y -> coming A v = None ->
    screen A v x y = Some (last_picture A P l x y).
Proof.
  intros A wide E fuel p d seq l0 c0 l c v P x y R F0 U M W ST PL H F N NL D C.
  assert (G : good_disp (holds x y) c0).
  { clear - R F0 H. revert R. assert (G : good_disp (holds x y) (ready p d seq)) by (intros f [= <-]; exact H). revert G.
    generalize (ready p d seq) as a. induction l0 as [|i l0 IH]; intros a G; cbn [run]; [intros [= <-]; exact G|].
    intros R. apply bind_ok in R as (b & R & R2). inversion F0 as [|? ? F1 F2]; subst.
    apply (IH F2 b); [|exact R2]. apply (step_moves E fuel a i b (holds x y) R G). intros f r ->. exact F1. }
  assert (K : exists md, (md = true -> lonely E) /\ J md 0 c0 /\ (md = true \/ no_fence (log c))).
  { destruct (watch_log A wide E fuel l c0 _ c v W) as [n L].
    destruct N as [N|N]; [exists true|exists false]; (split; [intros; auto; discriminate|split; [|auto]]).
    - eapply run_J; [|apply (ready_J _ p d seq)| |exact R]; auto.
    - eapply run_J; [|apply (ready_J _ p d seq)| |exact R]; [discriminate|]. right. apply (no_fence_prefix _ n). rewrite <- L. exact N. }
  destruct K as (md & LE & J0 & NF).
  destruct (watch_right A wide x y False E fuel md LE l c0 (nothing_yet A) c v P) as (_ & K & _); auto.
  - intros X. cbn in X. congruence.
  - left. exact M.
  - destruct K as [K|[(r & Q & K & _)|[_ [[[] _]|K]]]]; [contradiction|congruence|exact K].
Qed.
Print Assumptions C130_marked_pixel_is_shown_partial.

(** Two frames; the buffer changes while the first is being encoded. *)
Definition gradient : picture Z := fun x y => x + 100 * y.
Definition spot : picture Z := fun x y => if (x =? 3) && (y =? 3) then 77 else x + 100 * y.
Lemma spot_changes x y : spot x y = gradient x y \/ covers [(2, 2, 5, 5)] x y.
Proof.
  unfold spot, gradient. destruct (_ && _) eqn:B; [|auto]. right. constructor. lia.
Qed.
Definition story : scene Z :=
  [(IRead (Some ask_all), gradient); (IDamage small [(2, 2, 5, 5)], spot); (IRead (Some ask_more), spot);
   (IEncoded some_frame, spot); (IWritten, spot); (IEncoded some_frame, spot); (IWritten, spot)].
Example C130_case :
  steady Z story gradient /\ orderly Z no_more (calm false none) 3 story fresh (nothing_yet Z) = true /\
  match watch Z no_more (calm false none) 3 story fresh (nothing_yet Z) with
  | Ok (c, v) => none_lost (log c) /\ damage c = [] /\ coming Z v = None /\
      screen Z v 3 3 = Some 77 /\ screen Z v 3 4 = Some 403 /\ count is_frame (log c) = 2
  | Fault _ => False
  end.
Proof.
  split; [|split; [vm_compute; reflexivity|vm_compute; repeat split; repeat constructor]].
  cbn [steady story]. split; [auto|]. split; [|repeat (split; [auto|]); exact I].
  intros x y. destruct (spot_changes x y) as [X|X]; [auto|right]. eexists _, _. split; [reflexivity|exact X].
Qed.

(** Without the restriction on lost frames it is false: the client changes its encodings
    while a frame is being made; the frame is thrown away, and the client goes on showing
    the old picture, with nothing marked and nothing on its way. *)
Theorem C130_screen_shows_picture_refuted :
  exists E fuel p d seq (l : scene Z) c v P x y,
    watch Z no_more E fuel l (ready p d seq) (nothing_yet Z) = Ok (c, v) /\
    steady Z l P /\ orderly Z no_more E fuel l (ready p d seq) (nothing_yet Z) = true /\
    holds x y d /\ Forall (fun z => input_holds x y (fst z)) l /\ (forall h, e_more E h = None) /\
    damage c = [] /\ coming Z v = None /\ updating c = false /\ 0 < pending c /\
    exists old, screen Z v x y = Some old /\ old <> last_picture Z P l x y.
Proof.
  exists (calm false none), 3%nat, rgb, small, 0,
    [(IRead (Some ask_all), gradient); (IEncoded some_frame, gradient); (IWritten, gradient);
     (IDamage small [(2, 2, 5, 5)], spot); (IRead (Some ask_more), spot); (IRead (Some (encodings [ENC_RAW])), spot);
     (IEncoded some_frame, spot); (IRead (Some ask_more), spot)].
  eexists _, _, gradient, 3, 3. split; [vm_compute; reflexivity|].
  split; [cbn [steady]; do 3 (split; [auto|]); split; [|repeat (split; [auto|]); exact I]; intros x y; destruct (spot_changes x y) as [X|X]; [auto|right; eexists _, _; split; [reflexivity|exact X]]|].
  split; [vm_compute; reflexivity|].
  split; [unfold holds; cbn; lia|]. split; [repeat constructor; cbn; lia|]. split; [reflexivity|].
  split; [reflexivity|]. split; [reflexivity|]. split; [reflexivity|]. split; [reflexivity|].
  exists 303. split; [vm_compute; reflexivity|]. vm_compute. discriminate.
Qed.
Print Assumptions C130_screen_shows_picture_refuted.
