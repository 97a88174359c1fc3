(** What an application relies on when it feeds buffers to a display. *)
From Verif Require Import Common Fb_Model Disp_Model.

(** The library uses a buffer: it is displayed, is being encoded, or is the source of
    an upright copy being made. *)
Definition in_use (i : nat) (w : world) : Prop :=
  d_shown w = Some (Own i) \/ In (Own i) (d_users w) \/ exists k, In k (d_works w) /\ k_src k = i.

(** How often a log reports buffer [i] as released, and the feeds whose damage it
    reports, in order. *)
Fixpoint releases (i : nat) (l : list event) : nat :=
  match l with
  | [] => 0
  | Released j :: l => (if Nat.eqb i j then 1 else 0) + releases i l
  | _ :: l => releases i l
  end.
Fixpoint shows (l : list event) : list nat :=
  match l with
  | [] => []
  | Show n _ _ :: l => n :: shows l
  | _ :: l => shows l
  end.

(** Feeds not finished yet. *)
Definition pending (w : world) : list nat := map k_no (d_works w).

(** Nothing of the display is left when it goes: no copy is being made, and every
    buffer to which the resampler attached data has been freed. *)
Definition calm (a : op) (w : world) : Prop :=
  match a with
  | Gone => d_works w = [] /\
      forall i b, nth_error (d_bufs w) i = Some b -> b_side b = true -> fb_freed (b_fb b) = true
  | _ => True
  end.
Inductive calm_run : list op -> world -> Prop :=
| calm_nil w : calm_run [] w
| calm_cons a l w : calm a w -> (forall w', step a w = Ok w' -> calm_run l w') -> calm_run (a :: l) w.

(** One at a time: nothing is fed while a copy is being made. *)
Definition one_at_a_time (a : op) (w : world) : Prop :=
  match a with Feed _ _ => d_works w = [] | _ => True end.
Inductive patient_run : list op -> world -> Prop :=
| patient_nil w : patient_run [] w
| patient_cons a l w : one_at_a_time a w -> (forall w', step a w = Ok w' -> patient_run l w') -> patient_run (a :: l) w.

(** Strictly increasing. *)
Definition increasing (l : list nat) : Prop := forall i j a b, (i < j)%nat ->
  nth_error l i = Some a -> nth_error l j = Some b -> (a < b)%nat.

(** The number of the feed a step accepts, if it does: the buffer is the application's
    and the display exists, and the buffer is upright or its copy gets started. *)
Definition accepted (a : op) (w : world) : list nat :=
  match a with
  | Feed i o =>
      match owned i w, d_alive w with
      | Some b, true => if b_upright b then [d_fed w] else match o with Started => [d_fed w] | _ => [] end
      | _, _ => []
      end
  | _ => []
  end.
Fixpoint accepted_run (l : list op) (w : world) : list nat :=
  match l with
  | [] => []
  | a :: l => accepted a w ++ match step a w with Ok w' => accepted_run l w' | Fault _ => [] end
  end.

(** Feeding the displayed buffer again, or a feed that cannot be started. *)
Definition odd_feed (a : op) (w : world) (i : nat) : Prop :=
  match a with Feed j o => i = j /\ (d_shown w = Some (Own i) \/ o = NotStarted) | _ => False end.
