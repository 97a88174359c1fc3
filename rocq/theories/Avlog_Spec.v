(** What is expected of messages of FFmpeg. *)
From Verif Require Import Common Log_Model Avlog_Model.

(** The levels an application can set. *)
Definition app_level (l : Z) : Prop := LOG_PANIC <= l <= LOG_TRACE.

(** The levels FFmpeg documents. *)
Definition named (l : Z) : Prop := In l [0; 8; 16; 24; 32; 40; 48; 56].

(** FFmpeg's rule: a message is shown when its level, which is in the low byte, does not
    exceed the one that was set; the other bits tell the colour. *)
Definition ffmpeg_shows (set_ level : Z) : Prop := level mod 256 <= set_.
