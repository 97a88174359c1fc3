(** What the bandwidth estimator should compute, from the list of all measurements. *)
From Verif Require Import Common Bwe_Model.

(** The measurements of a history and the round trip time last set (0 before). *)
Definition fed (ops : list bwe_op) : list sample :=
  flat_map (fun op => match op with Feed s => [s] | Rtt _ => [] end) ops.

Definition rtt_of (ops : list bwe_op) : Z :=
  fold_left (fun r op => match op with Feed _ => r | Rtt r' => r' end) ops 0.

(** The most recent sixteen. *)
Definition recent (l : list sample) : list sample := skipn (length l - 16) l.

Definition total (f : sample -> Z) (l : list sample) : Z := fold_right (fun s t => f s + t) 0 l.

(** All bytes per the time they took beyond the minimal round trip: of each
    measurement for itself, and of the window as a whole; the larger one. *)
Definition estimate_of (rtt : Z) (l : list sample) : dbl :=
  let first := hd (mk_sample 0 0 0) l in
  let final := last l (mk_sample 0 0 0) in
  fmax (per_second (total s_bytes l) (total (fun s => s_arr s - s_dep s - rtt) l))
       (per_second (total s_bytes l) (s_arr final - s_dep first - rtt)).

(** A measurement of at most 64 MiB and 67 seconds that took longer than the
    minimal round trip. *)
Definition moderate (rtt : Z) (s : sample) : Prop :=
  0 <= s_bytes s <= 2 ^ 26 /\ 0 <= s_dep s /\ s_arr s < 2 ^ 31 /\ 0 <= rtt < s_arr s - s_dep s /\ s_arr s - s_dep s <= 2 ^ 26.

