(** C85: damage is due until it has been sent. *)
From Verif Require Import Common CommonProofs Pixels_Model Msg_Model Msg_Proofs
  Upd_Spec Upd_Proofs Upd2_Proofs Upd3_Proofs Upd_Props Mirror_Spec Mirror_Proofs Due_Spec Due_Proofs.

(** A pixel that is marked for a client is, whatever happens next, still marked,
    in the region of a frame begun since, which is being encoded or on its way, or
    has been sent in a frame begun since.
    (Partial: no frame may be refused by the encoder or thrown away, see
    C85_damage_until_sent_refuted; nested reads after fences; pixels beyond
    32767.) *)
Theorem C85_damage_until_sent_partial :
  forall (E : env) (fuel : nat) p d seq (before : list input) (c0 : client) (l : list input) (c : client) (x y : Z),
    run E fuel (ready p d seq) before = Ok c0 -> attended E fuel before (ready p d seq) ->
    run E fuel c0 l = Ok c -> attended E fuel l c0 ->
    holds x y d -> Forall (input_holds x y) (before ++ l) ->
    (forall h, e_more E h = None) \/ count is_fence (log c) = 0 ->
    none_lost (log c) ->
    covers (damage c0) x y ->
    exists new, log c = log c0 ++ new /\
      (covers (damage c) x y \/
       (exists r, on_its_way new = Some r /\ covers r x y) \/
       covers (brought new) x y).
Proof.
  intros E fuel p d seq l0 c0 l c x y R0 A0 R A H F N NL M.
  apply Forall_app in F as [F0 F].
  destruct (watch_run E fuel false l0 (ready p d seq) (nothing_yet bool) c0 R0 A0) as (v0 & n0 & W0 & O0 & L0 & V0 & K0); [split; reflexivity|].
  destruct (watch_run E fuel true l c0 (mk_sight bool (fun _ _ => None) (coming bool v0)) c R A K0) as (v & new & W & O1 & L & V & _).
  exists new. split; [exact L|].
  assert (OLD : forall r P, coming bool v0 = Some (r, P) -> P x y = false).
  { subst v0. assert (K : forall n v, (forall r P, coming bool v = Some (r, P) -> P x y = false) ->
      forall r P, coming bool (fold_left (see bool no_more (all false)) n v) = Some (r, P) -> P x y = false).
    { clear. induction n as [|o n IH]; intros v V; [exact V|]. cbn [fold_left]. apply IH.
      destruct o; try exact V; cbn [see]; [destruct k; try exact V; discriminate|destruct ok; [|exact V]|discriminate].
      intros ? ? [= _ <-]. reflexivity. }
    apply K. discriminate. }
  assert (LK : like x y v (fold_left fly new (None, []))).
  { subst v. apply see_like. split; cbn [coming screen]; [|discriminate]. intros r P X Y. rewrite (OLD r P X) in Y. discriminate Y. }
  assert (SC : forall b q, Forall (input_holds x y) q -> Forall (fun z : input * picture bool => input_holds x y (fst z)) (plainly b q)).
  { intros b q Q. unfold plainly. apply Forall_forall. intros z Z1. apply in_map_iff in Z1 as (i & <- & Z1). cbn [fst].
    exact (proj1 (Forall_forall _ _) Q i Z1). }
  assert (MD : exists md, (md = true -> lonely E) /\ (md = true \/ no_fence (log c))).
  { destruct N as [N|N]; [exists true|exists false]; (split; [intros X; first [exact N|discriminate X]|auto]). }
  destruct MD as (md & LE & NF).
  assert (NF0 : md = true \/ no_fence (log c0)).
  { destruct NF as [NF|NF]; [auto|right]. apply (no_fence_prefix _ new). rewrite <- L. exact NF. }
  assert (G : good_disp (holds x y) (ready p d seq)) by (intros f [= <-]; exact H).
  destruct (watch_right bool no_more x y True E fuel md LE (plainly false l0) (ready p d seq) (nothing_yet bool) c0 v0 (all false) W0 (steady_all false l0) O0 (SC false l0 F0) NF0) as (I10 & _ & _).
  { apply (none_lost_prefix _ new). rewrite <- L. exact NL. }
  { exact G. }
  { apply ready_J. }
  { intros X. exfalso. apply X. reflexivity. }
  { right. right. split; [discriminate|]. left. split; [exact I|reflexivity]. }
  assert (G0 : good_disp (holds x y) c0).
  { clear - R0 F0 G. revert R0 G. generalize (ready p d seq) as a. induction l0 as [|i l0 IH]; intros a; cbn [run]; [intros [= <-]; auto|].
    intros R G. apply bind_ok in R as (b & R & R2). inversion F0 as [|? ? F1 F2]; subst.
    apply (IH F2 b); [exact R2|]. apply (step_moves E fuel a i b (holds x y) R G). intros f r ->. exact F1. }
  assert (J0 : J md 0 c0) by (eapply run_J; [exact LE|apply (ready_J _ p d seq)|exact NF0|exact R0]).
  destruct (watch_right bool no_more x y False E fuel md LE (plainly true l) c0 (mk_sight bool (fun _ _ => None) (coming bool v0)) c v (all true) W (steady_all true l) O1 (SC true l F) NF NL G0 J0)
    as (_ & I2v & _); [exact I10|left; exact M|].
  destruct LK as [CV SV]. unfold I2 in I2v. rewrite last_all in I2v.
  destruct I2v as [X|[(r & Q & X & Y & Z1)|[_ [[[] _]|X]]]]; [auto| |].
  - right. left. exists r. split; [exact (CV r Q X Z1)|exact Y].
  - right. right. exact (SV X).
Qed.
Print Assumptions C85_damage_until_sent_partial.

(** A pixel marked while a frame is on its way: marked, then on its way, then
    sent. *)
Example C85_case :
  let E := calm false none in
  let before := [IRead (Some ask_all); IDamage small [(2, 2, 5, 5)]] in
  let asked := [IRead (Some ask_more)] in
  let taken := asked ++ [IEncoded some_frame; IWritten] in
  let done := taken ++ [IEncoded some_frame; IWritten] in
  exists c0 c1 c2 c3, run E 3 fresh before = Ok c0 /\ attended E 3 before fresh /\ damage c0 = [(2, 2, 5, 5)] /\
    on_its_way (log c0) = Some [(0, 0, 10, 10)] /\
    run E 3 c0 asked = Ok c1 /\ damage c1 = [(2, 2, 5, 5)] /\
    run E 3 c0 taken = Ok c2 /\ damage c2 = [] /\ on_its_way (log c2) = Some [(2, 2, 5, 5)] /\
    run E 3 c0 done = Ok c3 /\ attended E 3 done c0 /\ damage c3 = [] /\ on_its_way (log c3) = None /\ none_lost (log c3) /\
    brought (skipn (length (log c0)) (log c3)) = [(2, 2, 5, 5)].
Proof.
  cbv zeta. do 4 eexists. split; [vm_compute; reflexivity|].
  split; [vm_compute; repeat split; discriminate|]. do 2 (split; [reflexivity|]).
  split; [vm_compute; reflexivity|]. split; [reflexivity|].
  split; [vm_compute; reflexivity|]. do 2 (split; [reflexivity|]).
  split; [vm_compute; reflexivity|]. split; [vm_compute; repeat split; discriminate|]. do 2 (split; [reflexivity|]).
  split; [vm_compute; repeat constructor|]. vm_compute. reflexivity.
Qed.
