(** Claims about logging. *)
From Verif Require Import Common Log_Model.

(** A white space character of C: space, tab, newline, vertical tab, form feed,
    carriage return. *)
Definition is_white (c : Z) : Prop := In c [32; 9; 10; 11; 12; 13].

(** [t] is [s] without white space at its ends. *)
Definition trimmed (s t : list Z) : Prop :=
  exists before after, s = before ++ t ++ after /\ Forall is_white before /\ Forall is_white after /\
  forall c, (hd_error t = Some c \/ hd_error (rev t) = Some c) -> ~ is_white c.

Lemma isspace_white c : isspace c = true <-> is_white c.
Proof. unfold isspace, is_white. cbn [In]. lia. Qed.

Lemma trim_left_ok s : exists before, s = before ++ trim_left s /\ Forall is_white before /\
  forall c, hd_error (trim_left s) = Some c -> ~ is_white c.
Proof.
  induction s as [|c s [b [E [F H]]]]; cbn [trim_left].
  - exists []. split; [reflexivity|]. split; [constructor|discriminate].
  - destruct (isspace c) eqn:W.
    + exists (c :: b). split; [cbn [app]; f_equal; exact E|]. split; [constructor; [apply isspace_white, W|exact F]|exact H].
    + exists []. split; [reflexivity|]. split; [constructor|]. cbn [hd_error]. intros x Q. injection Q as <-.
      intros X. apply isspace_white in X. congruence.
Qed.

Lemma trim_right_ok n : forall s, length s = S n -> (forall c, hd_error s = Some c -> ~ is_white c) ->
  exists after, s = trim_right_from s n ++ after /\ Forall is_white after /\
  hd_error (trim_right_from s n) = hd_error s /\
  forall c, hd_error (rev (trim_right_from s n)) = Some c -> ~ is_white c.
Proof.
  induction n as [|n IH]; intros s L H; cbn [trim_right_from].
  - exists []. rewrite app_nil_r. split; [reflexivity|]. split; [constructor|]. split; [reflexivity|].
    destruct s as [|a [|b s]]; cbn [length] in L; try lia. exact H.
  - assert (S1 : exists t a, s = t ++ [a] /\ length t = S n).
    { destruct (exists_last (l := s)) as [t [a E]]; [destruct s; discriminate|]. exists t, a. split; [exact E|].
      subst s. rewrite app_length in L. cbn [length] in L. lia. }
    destruct S1 as [t [a [-> T]]]. rewrite app_nth2 by lia. replace (S n - length t)%nat with O by lia. cbn [nth].
    replace (firstn (S n) (t ++ [a])) with t
      by (rewrite firstn_app, T, Nat.sub_diag, firstn_O, app_nil_r, <- T, firstn_all; reflexivity).
    destruct (isspace a) eqn:W.
    + destruct (IH t T) as [after [E [F [Hd Q]]]].
      { intros c E. apply H. destruct t; [discriminate|]. exact E. }
      exists (after ++ [a]). split; [rewrite app_assoc, <- E; reflexivity|].
      split; [apply Forall_app; split; [exact F|constructor; [apply isspace_white, W|constructor]]|].
      split; [rewrite Hd; destruct t; [cbn [length] in T; lia|reflexivity]|exact Q].
    + exists []. rewrite app_nil_r. split; [reflexivity|]. split; [constructor|]. split; [reflexivity|].
      intros c E. rewrite rev_app_distr in E. cbn [rev app hd_error] in E. injection E as <-.
      intros X. apply isspace_white in X. congruence.
Qed.

Lemma trim_ok s : trimmed s (trim s).
Proof.
  destruct (trim_left_ok s) as [before [E [F H]]]. unfold trim, trim_right.
  destruct (trim_left s) as [|c t] eqn:T.
  - exists before, []. cbn [length Nat.sub trim_right_from app]. split; [exact E|]. split; [exact F|]. split; [constructor|].
    intros x [X|X]; discriminate.
  - cbn [length]. rewrite Nat.sub_succ, Nat.sub_0_r.
    destruct (trim_right_ok (length t) (c :: t) eq_refl H) as [after [E2 [F2 [Hd Q]]]].
    exists before, after. split; [rewrite <- E2; exact E|]. split; [exact F|]. split; [exact F2|].
    intros x [X|X]; [apply H; rewrite <- Hd; exact X|apply Q, X].
Qed.

(** C54: after any settings, a message is passed to the logger exactly when its
    level is at or below the configured one; what is passed is the message, cut to
    1023 bytes, without white space at its ends; the logger is the thread's one if
    set, else the global one, else the default one; and the process is terminated
    exactly after a panic. *)
Inductive setting (F : Type) := Level (l : Z) | Fn (f : option F) | ThreadFn (f : option F).
Arguments Level {F}.
Arguments Fn {F}.
Arguments ThreadFn {F}.

Definition set {F} (default : F) (st : log_state F) (s : setting F) : log_state F :=
  match s with
  | Level l => nvnc_set_log_level st l
  | Fn f => nvnc_set_log_fn default st f
  | ThreadFn f => nvnc_set_log_fn_thread_local st f
  end.

(** The last setting of each kind. *)
Definition last_level {F} (initial : Z) (ss : list (setting F)) : Z :=
  fold_left (fun l s => match s with Level l => l | _ => l end) ss initial.
Definition last_fn {F} (default : F) (ss : list (setting F)) : F :=
  fold_left (fun f s => match s with Fn (Some f) => f | Fn None => default | _ => f end) ss default.
Definition last_thread_fn {F} (ss : list (setting F)) : option F :=
  fold_left (fun f s => match s with ThreadFn f => f | _ => f end) ss None.

Theorem C54_log_filter_and_trimming : forall (F : Type) (default : F) initial ss level message,
  let (passed, aborted) := nvnc_vlog (fold_left (set default) ss (mk_log initial default None)) level message in
  (aborted = true <-> level = LOG_PANIC) /\
  (passed = None <-> last_level initial ss < level) /\
  forall f text, passed = Some (f, text) ->
    f = match last_thread_fn ss with Some f => f | None => last_fn default ss end /\
    trimmed (firstn 1023 message) text.
Proof.
  intros F default initial ss level message.
  assert (G : forall l f t, fold_left (set default) ss (mk_log l f t) =
    mk_log (fold_left (fun l s => match s with Level l => l | _ => l end) ss l)
           (fold_left (fun f s => match s with Fn (Some f) => f | Fn None => default | _ => f end) ss f)
           (fold_left (fun f s => match s with ThreadFn f => f | _ => f end) ss t)).
  { induction ss as [|s ss IH]; intros l f t; [reflexivity|]. cbn [fold_left]. destruct s as [l'|[f'|]|f']; apply IH. }
  rewrite G. unfold nvnc_vlog. cbn [log_level log_fn thread_fn].
  fold (last_level initial ss) (last_fn default ss) (last_thread_fn ss).
  split; [lia|]. split.
  - destruct (level <=? last_level initial ss) eqn:E; [split; [discriminate|lia]|split; [lia|reflexivity]].
  - intros f text. destruct (level <=? _); [|discriminate]. intros Q. injection Q as <- <-.
    split; [reflexivity|apply trim_ok].
Qed.
Print Assumptions C54_log_filter_and_trimming.

Example C54_ex : nvnc_vlog (mk_log LOG_INFO 1 (Some 2)) LOG_WARNING [32; 9; 65; 32; 66; 10; 10] = (Some (2, [65; 32; 66]), false) /\
  nvnc_vlog (mk_log LOG_INFO 1 (Some 2)) LOG_DEBUG [65] = (None, false) /\
  nvnc_vlog (mk_log LOG_INFO 1 None) LOG_INFO [32; 10; 32] = (Some (1, []), false) /\
  snd (nvnc_vlog (mk_log (-1) 1 None) LOG_PANIC [65]) = true.
Proof. repeat split. Qed.
