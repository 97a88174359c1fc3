(** What the client sees, and what it should see.

    The application's buffers have contents, the pictures; the frames that reach the
    client show, on the region that was given to the encoder, the picture at the moment
    the region was given to it (that they decode to this is C22, C66 and C70).  They may
    show more of that picture: the Tight encoder sends whole tiles.  Nothing here uses the
    model's functions but [step]. *)
From Verif Require Import Common Msg_Model Upd_Spec.

Section Mirror.
Variable A : Type. (* pixels *)
Variable wide : list Z -> Z -> Z -> bool. (* what the bytes of an update show besides the region *)

Definition picture := Z -> Z -> A.

(* [screen]: what the client shows, None where it has been sent nothing yet; [coming]:
   the region being encoded or on its way, and the picture it is taken from *)
Record sight := mk_sight { screen : Z -> Z -> option A; coming : option (region * picture) }.
Definition nothing_yet : sight := mk_sight (fun _ _ => None) None.

Definition in_region (r : region) (x y : Z) : bool :=
  existsb (fun b => let '(x1, y1, x2, y2) := b in (x1 <=? x) && (x <? x2) && (y1 <=? y) && (y <? y2)) r.
Definition paint (b : list Z) (s : Z -> Z -> option A) (t : region * picture) : Z -> Z -> option A :=
  fun x y => if in_region (fst t) x y || wide b x y then Some (snd t x y) else s x y.

(* one thing that happens, while the application's buffer shows [P] *)
Definition see (P : picture) (v : sight) (o : out) : sight :=
  match o with
  | Encode r _ _ true => mk_sight (screen v) (Some (r, P))
  | Update KFrame b => mk_sight (match coming v with Some t => paint b (screen v) t | None => screen v end) None
  | Dropped => mk_sight (screen v) None
  | _ => v
  end.

(* inputs, each with the picture the buffer shows from then on *)
Definition scene := list (input * picture).

Definition since (c c' : client) : list out := skipn (length (log c)) (log c').

Fixpoint watch (E : env) (fuel : nat) (l : scene) (c : client) (v : sight) : res (client * sight) :=
  match l with
  | [] => Ok (c, v)
  | (i, P) :: l =>
      let* c' := step E fuel c i in
      watch E fuel l c' (fold_left (see P) (since c c') v)
  end.

Definition last_picture (P : picture) (l : scene) : picture := last (map snd l) P.

(* the picture changes only with damage *)
Fixpoint steady (l : scene) (P : picture) : Prop :=
  match l with
  | [] => True
  | (i, P') :: l => (forall x y, P' x y = P x y \/ exists f r, i = IDamage f r /\ covers r x y) /\ steady l P'
  end.

(* the client stays, and the encoder and the stream report on a frame when there is one *)
Fixpoint orderly (E : env) (fuel : nat) (l : scene) (c : client) (v : sight) : bool :=
  match l with
  | [] => true
  | (i, P') :: l =>
      negb (closed c) &&
      match i, coming v with IEncoded _, None => false | IWritten, Some _ => false | _, _ => true end &&
      match step E fuel c i with
      | Ok c' => orderly E fuel l c' (fold_left (see P') (since c c') v)
      | Fault _ => true
      end
  end.

(* no frame was refused by the encoder or thrown away *)
Definition none_lost (l : list out) : Prop :=
  Forall (fun o => match o with Dropped | Encode _ _ _ false => False | _ => True end) l.
End Mirror.

(** Frames that show the region and nothing else. *)
Definition no_more : list Z -> Z -> Z -> bool := fun _ _ _ => false.
