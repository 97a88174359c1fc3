(** What a program may expect of displays and servers. *)
From Verif Require Import Common Attach_Model.

(* a server that was made and not deleted *)
Definition exists_server (s : nat) (w : world) : Prop :=
  exists v, nth_error (w_servers w) s = Some v /\ s_freed v = false.
(* the application has a reference to the display *)
Definition has_display (d : nat) (w : world) : Prop :=
  exists x, nth_error (w_displays w) d = Some x /\ (0 < d_app x)%nat.
(* the display is the one of a server that exists *)
Definition displayed_by (s d : nat) (w : world) : Prop :=
  exists v, nth_error (w_servers w) s = Some v /\ s_freed v = false /\ s_display v = Some d.
Definition is_freed (d : nat) (w : world) : Prop :=
  exists x, nth_error (w_displays w) d = Some x /\ d_freed x = true.

(* A program uses what it has: displays it has a reference to, servers that it has not
   deleted, and no second display for a server. *)
Definition allowed (a : op) (w : world) : Prop :=
  match a with
  | NewServer | NewDisplay => True
  | Ref d | Unref d | Feed d _ => has_display d w
  | Add s d => exists_server s w /\ has_display d w /\ forall d', ~ displayed_by s d' w
  | Remove s _ | Del s _ | Connect s | Request s _ _ | Encoded s _ | HungUp s _ => exists_server s w
  end.
Fixpoint obeys (l : list op) (w : world) : Prop :=
  match l with
  | [] => True
  | a :: l => allowed a w /\ forall w', step a w = Ok w' -> obeys l w'
  end.

(* Moreover: displays are fed only while a server that they were added to last exists,
   clients connect only while there is a display, and a server is deleted while
   connections come in only if the application keeps the display. *)
Definition careful_op (a : op) (w : world) : Prop :=
  match a with
  | Feed d _ => exists x s, nth_error (w_displays w) d = Some x /\ d_server x = Some s /\ exists_server s w
  | Connect s => exists d, displayed_by s d w
  | Del s n => n = O \/ exists d, displayed_by s d w /\ has_display d w
  | _ => True
  end.
Fixpoint careful (l : list op) (w : world) : Prop :=
  match l with
  | [] => True
  | a :: l => allowed a w /\ careful_op a w /\ forall w', step a w = Ok w' -> careful l w'
  end.

(* the buffer fed to a display last *)
Definition last_fed (d : nat) (l : list op) : option nat :=
  fold_left (fun m a => match a with Feed d' n => if Nat.eqb d d' then Some n else m | _ => m end) l None.

(* the buffers encoded for a client; none for a client that does not exist *)
Definition client_at (s i : nat) (w : world) : option client :=
  match nth_error (w_servers w) s with Some v => nth_error (s_clients v) i | None => None end.
