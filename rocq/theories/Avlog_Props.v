(** C163: messages of FFmpeg and the application's log level. *)
From Verif Require Import Common Log_Model Avlog_Model Avlog_Spec.

(** A message of FFmpeg at a documented level other than VERBOSE reaches the
    application's function exactly when FFmpeg would show it at the level it was told;
    the text is the same as for a message of the library; only FFmpeg's panics end the
    process. *)
Theorem C163_ffmpeg_messages_partial :
  forall (F : Type) (st : log_state F) level message, app_level (log_level st) -> named level -> level <> 40 ->
    (fst (av_log_callback st level message) <> None <-> ffmpeg_shows (told_av st) level) /\
    (forall f text, fst (av_log_callback st level message) = Some (f, text) ->
       fst (nvnc_vlog st LOG_PANIC message) = Some (f, text)) /\
    (snd (av_log_callback st level message) = true <-> level = 0).
Proof.
  intros F st level message A N V. unfold app_level, LOG_PANIC, LOG_TRACE in A.
  assert (L : In (log_level st) [0; 1; 2; 3; 4; 5]) by (cbn [In]; lia).
  unfold av_log_callback, nvnc_vlog, ffmpeg_shows, told_av. cbn [fst snd].
  generalize dependent (log_level st). intros k A L. unfold named in N. cbn [In] in L, N.
  destruct L as [L|[L|[L|[L|[L|[L|[]]]]]]]; subst k; destruct N as [N|[N|[N|[N|[N|[N|[N|[N|[]]]]]]]]]; subst level;
    try (exfalso; apply V; reflexivity);
    (split; [split; intros X; cbn in X |- *; (discriminate || (exfalso; apply X; reflexivity) || lia || (exfalso; vm_compute in X; congruence) || (vm_compute; discriminate))|]); cbn;
    (split; [intros f text X; try discriminate X; exact X|]); (split; intros X; try reflexivity; try discriminate X).
Qed.

(** Every level an application sets is told to FFmpeg such that it comes back. *)
Theorem C163_levels_come_back : forall l, app_level l -> from_av (to_av l) = l.
Proof.
  intros l A. unfold app_level, LOG_PANIC, LOG_TRACE in A. assert (L : In l [0; 1; 2; 3; 4; 5]) by (cbn [In]; lia).
  cbn [In] in L. repeat (destruct L as [<-|L]; [reflexivity|]). contradiction.
Qed.

(** VERBOSE messages are passed on as information although the level FFmpeg was told leaves
    them out; and an error message with a colour is taken for a trace message and lost. *)
Theorem C163_ffmpeg_messages_refuted :
  exists (st : log_state Z) (l1 l2 : Z) (message : list Z),
    app_level (log_level st) /\ named l1 /\ ~ ffmpeg_shows (told_av st) l1 /\
    fst (av_log_callback st l1 message) = Some (1, message) /\
    ffmpeg_shows (told_av st) l2 /\ l2 mod 256 = 16 /\ fst (av_log_callback st l2 message) = None.
Proof.
  exists (mk_log LOG_INFO 1 None), 40, (16 + 134 * 256), [65].
  split; [unfold app_level, LOG_PANIC, LOG_TRACE, LOG_INFO; cbn; lia|]. split; [unfold named; cbn; tauto|].
  split; [intros X; vm_compute in X; congruence|]. split; [reflexivity|]. split; [vm_compute; discriminate|]. split; reflexivity.
Qed.

(** Levels that FFmpeg does not document, or that carry a colour, count as trace. *)
Theorem C163_other_levels_are_traces :
  forall (F : Type) (st : log_state F) level message, ~ named level ->
    av_log_callback st level message = nvnc_vlog st LOG_TRACE message.
Proof.
  intros F st level message N. unfold av_log_callback. f_equal. unfold named in N. cbn [In] in N. unfold from_av.
  repeat match goal with |- context [level =? ?k] => let E := fresh in destruct (level =? k) eqn:E;
    [exfalso; apply N; apply Z.eqb_eq in E; rewrite E; unfold AV_PANIC, AV_FATAL, AV_ERROR, AV_WARNING, AV_INFO, AV_VERBOSE, AV_DEBUG, AV_TRACE; tauto|] end.
  reflexivity.
Qed.

Example C163_ex : av_log_callback (mk_log LOG_WARNING 1 None) 24 [32; 65; 10] = (Some (1, [65]), false) /\
  av_log_callback (mk_log LOG_WARNING 1 None) 32 [65] = (None, false) /\
  av_log_callback (mk_log LOG_ERROR 1 None) 0 [65] = (Some (1, [65]), true) /\
  app_level LOG_WARNING /\ named 24 /\ ~ named 17 /\ ffmpeg_shows (told_av (mk_log LOG_WARNING 1 None)) 24.
Proof.
  split; [reflexivity|]. split; [reflexivity|]. split; [reflexivity|].
  split; [unfold app_level, LOG_PANIC, LOG_TRACE, LOG_WARNING; lia|]. split; [unfold named; cbn; tauto|].
  split; [unfold named; cbn; intuition lia|vm_compute; discriminate].
Qed.

Print Assumptions C163_ffmpeg_messages_partial.
Print Assumptions C163_levels_come_back.
Print Assumptions C163_ffmpeg_messages_refuted.
Print Assumptions C163_other_levels_are_traces.
