(** Messages of FFmpeg: src/logging.c:130-215.  FFmpeg calls the function installed by
    av_log_set_callback for every message, whatever the level set by av_log_set_level
    (only FFmpeg's own function filters by it). *)
From Verif Require Import Common Log_Model.

(* the levels of libavutil/log.h, used at src/logging.c:134-141 *)
Definition AV_PANIC := 0.
(* src/logging.c:135 *)
Definition AV_FATAL := 8.
(* src/logging.c:136 *)
Definition AV_ERROR := 16.
(* src/logging.c:137 *)
Definition AV_WARNING := 24.
(* src/logging.c:138 *)
Definition AV_INFO := 32.
(* src/logging.c:139 *)
Definition AV_VERBOSE := 40.
(* src/logging.c:140 *)
Definition AV_DEBUG := 48.
(* src/logging.c:141 *)
Definition AV_TRACE := 56.

(* src/logging.c:131-145, nvnc__log_level_from_av *)
Definition from_av (level : Z) : Z :=
  if level =? AV_PANIC then LOG_PANIC
  else if level =? AV_FATAL then LOG_ERROR
  else if level =? AV_ERROR then LOG_ERROR
  else if level =? AV_WARNING then LOG_WARNING
  else if level =? AV_INFO then LOG_INFO
  else if level =? AV_VERBOSE then LOG_INFO
  else if level =? AV_DEBUG then LOG_DEBUG
  else if level =? AV_TRACE then LOG_TRACE
  else LOG_TRACE.

(* src/logging.c:147-159, nvnc__log_level_to_av *)
Definition to_av (level : Z) : Z :=
  if level =? LOG_PANIC then AV_PANIC
  else if level =? LOG_ERROR then AV_ERROR
  else if level =? LOG_WARNING then AV_WARNING
  else if level =? LOG_INFO then AV_INFO
  else if level =? LOG_DEBUG then AV_DEBUG
  else if level =? LOG_TRACE then AV_TRACE
  else AV_TRACE.

(* src/logging.c:161-170, nvnc__av_log_callback, with nvnc__vlog *)
Definition av_log_callback {F} (st : log_state F) (level : Z) (message : list Z) : option (F * list Z) * bool :=
  nvnc_vlog st (from_av level) message.

(* src/logging.c:172-181: the level FFmpeg is told *)
Definition told_av {F} (st : log_state F) : Z := to_av (log_level st).
