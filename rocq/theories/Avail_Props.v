(** C173: whether H.264 is available is found out once. *)
From Verif Require Import Common Avail_Model Avail_Spec Avail_Proofs.

(** The answer is the same whenever it is asked for, whatever encoders are made and destroyed
    in between and whatever becomes of the hardware. *)
Theorem C173_answer_never_changes : forall w now l b1 b2,
  In (Answer b1) (seen (run w now l state0)) -> In (Answer b2) (seen (run w now l state0)) -> b1 = b2.
Proof. exact same_answers. Qed.
Print Assumptions C173_answer_never_changes.

(** It is whether an encoder for 1920 by 1080 pixels could be had at the first question. *)
Theorem C173_answer_is_of_the_first_try : forall w now l1 l2 b,
  ~ In Ask l1 -> In (Answer b) (seen (run w now (l1 ++ Ask :: l2) state0)) ->
  (b = true <-> available w (now + length l1) full_hd).
Proof. exact of_first. Qed.
Print Assumptions C173_answer_is_of_the_first_try.

(** Asking leaves no encoder behind and destroys none of a client, and all questions together
    make the server try at most once. *)
Theorem C173_asking_leaves_no_encoder : forall w now s, alive (step w now Ask s) = alive s.
Proof. exact ask_alive. Qed.
Print Assumptions C173_asking_leaves_no_encoder.

Theorem C173_at_most_one_try : forall w now l,
  (count is_make l <= count is_try (seen (run w now l state0)) <= S (count is_make l))%nat.
Proof. exact one_try. Qed.
Print Assumptions C173_at_most_one_try.

(** So the answer need not be true of the time of the question, nor of a client's size: an
    encoder that can be had, for the same parameters, is not used if the first try failed,
    and one that can be had for a smaller picture only is never used. *)
Theorem C173_answer_can_be_outdated :
  (exists w l, available w (length l) full_hd /\ hd_error (seen (run w 0 (l ++ [Ask]) state0)) = Some (Answer false)) /\
  (exists w p, (forall t, available w t p) /\
     forall now l b, In (Answer b) (seen (run w now l state0)) -> b = false).
Proof.
  split.
  - exists (mk_world (fun _ => true) (fun _ t _ => Nat.leb 1 t)), [Ask]. split; [|reflexivity].
    exists Ffmpeg. split; reflexivity.
  - exists (mk_world (fun _ => true) (fun _ _ q => p_width q <=? 1280)), (mk_params 1280 720 XRGB8888 5). split.
    + intros t. exists V4l2m2m. split; reflexivity.
    + intros now l b I. destruct (split_ask l) as [(l1 & l2 & -> & N)|N].
      * destruct (of_first _ _ _ _ _ N I) as [X _]. destruct b; [|reflexivity].
        destruct (X eq_refl) as (i & _ & W). cbn in W. discriminate W.
      * destruct (run_fresh (mk_world (fun _ => true) (fun _ _ q => p_width q <=? 1280)) l now _ N fresh0) as (_ & A). destruct (A b I).
Qed.
Print Assumptions C173_answer_can_be_outdated.

(* hardware that is there at first and gone later; a client's encoder stays *)
Example C173_case :
  let w := mk_world (fun _ => true) (fun i t _ => match i with V4l2m2m => Nat.leb t 1 | Ffmpeg => false end) in
  let l := [Make (mk_params 640 480 XRGB8888 20); Ask; Ask; Make (mk_params 640 480 XRGB8888 20); Ask] in
  seen (run w 0 l state0) =
    [Answer true; Tried (mk_params 640 480 XRGB8888 20) None; Answer true; Answer true; Freed V4l2m2m;
     Tried full_hd (Some V4l2m2m); Tried (mk_params 640 480 XRGB8888 20) (Some V4l2m2m)] /\
  alive (run w 0 l state0) = [V4l2m2m] /\ ~ In Ask [Make (mk_params 640 480 XRGB8888 20)].
Proof. cbv zeta. split; [reflexivity|]. split; [reflexivity|]. intros [X|[]]. discriminate X. Qed.
