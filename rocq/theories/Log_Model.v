(** Logging: src/logging.c.  A message is what vsnprintf would print, without NUL.
    Simplifications: isspace is that of the C locale of glibc, which answers 0 for
    the negative values that bytes above 127 are promoted to. *)
From Verif Require Import Common.

(* include/neatvnc.h:102-109, enum nvnc_log_level *)
Definition LOG_PANIC := 0.
(* include/neatvnc.h:104 *)
Definition LOG_ERROR := 1.
(* include/neatvnc.h:105 *)
Definition LOG_WARNING := 2.
(* include/neatvnc.h:106 *)
Definition LOG_INFO := 3.
(* include/neatvnc.h:107 *)
Definition LOG_DEBUG := 4.
(* include/neatvnc.h:108 *)
Definition LOG_TRACE := 5.

(* isspace of the C library: space, \t \n \v \f \r *)
(* src/logging.c:54, 62 *)
Definition isspace (c : Z) : bool := (c =? 32) || ((9 <=? c) && (c <=? 13)).

(* src/logging.c:52-57 *)
Fixpoint trim_left (s : list Z) : list Z :=
  match s with
  | c :: s' => if isspace c then trim_left s' else s
  | [] => []
  end.

(* src/logging.c:61-63: [last] is the index of the end pointer; storing a NUL there
   leaves the characters before it *)
Fixpoint trim_right_from (s : list Z) (last : nat) : list Z :=
  match last with
  | O => s
  | S before => if isspace (nth last s 0) then trim_right_from (firstn last s) before else s
  end.

(* src/logging.c:59-65; of an empty string the end is before the start, and the
   loop not entered *)
Definition trim_right (s : list Z) : list Z := trim_right_from s (length s - 1).

(* src/logging.c:67-70 *)
Definition trim (s : list Z) : list Z := trim_right (trim_left s).

(* src/logging.c:47-50, 184-193: which logger is in force: thread local, else global *)
Definition get_log_fn {F : Type} (thread_local : option F) (global : F) : F :=
  match thread_local with Some f => f | None => global end.

(* src/logging.c:36-43, 173-193: the settings *)
Record log_state (F : Type) := mk_log { log_level : Z; log_fn : F; thread_fn : option F }.
Arguments mk_log {F}.
Arguments log_level {F}.
Arguments log_fn {F}.
Arguments thread_fn {F}.

(* src/logging.c:173-193 *)
Definition nvnc_set_log_level {F} (st : log_state F) (level : Z) : log_state F := mk_log level (log_fn st) (thread_fn st).
(* src/logging.c:183-187 *)
Definition nvnc_set_log_fn {F} (default : F) (st : log_state F) (fn : option F) : log_state F :=
  mk_log (log_level st) (match fn with Some f => f | None => default end) (thread_fn st).
(* src/logging.c:189-193 *)
Definition nvnc_set_log_fn_thread_local {F} (st : log_state F) (fn : option F) : log_state F :=
  mk_log (log_level st) (log_fn st) fn.

(* src/logging.c:100-112: the logger called with which text, and whether the process
   was aborted *)
Definition nvnc_vlog {F} (st : log_state F) (level : Z) (message : list Z) : option (F * list Z) * bool :=
  (if level <=? log_level st then Some (get_log_fn (thread_fn st) (log_fn st), trim (firstn 1023 message)) else None,
   level =? LOG_PANIC).
