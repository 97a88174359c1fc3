(** Damage that is due to a client: on its way, or sent.  In terms of what the
    client and the application observe; nothing here uses the model's functions
    but [step]. *)
From Verif Require Import Common Msg_Model Upd_Spec.

(** The region given to the encoder and not sent yet, and what has been sent. *)
Definition fly (s : option region * region) (o : out) : option region * region :=
  match o with
  | Encode r _ _ true => (Some r, snd s)
  | Update KFrame _ => (None, match fst s with Some r => r ++ snd s | None => snd s end)
  | Dropped => (None, snd s)
  | _ => s
  end.

(** Of the frames begun in the events [l]: the one that has not been sent yet,
    and what the others have brought to the client. *)
Definition on_its_way (l : list out) : option region := fst (fold_left fly l (None, [])).
Definition brought (l : list out) : region := snd (fold_left fly l (None, [])).

(** The client stays, and the encoder and the stream report on a frame when
    there is one. *)
Fixpoint attended (E : env) (fuel : nat) (l : list input) (c : client) : Prop :=
  match l with
  | [] => True
  | i :: l =>
      closed c = false /\
      match i with
      | IEncoded _ => on_its_way (log c) <> None
      | IWritten => on_its_way (log c) = None
      | _ => True
      end /\
      match step E fuel c i with Ok c' => attended E fuel l c' | Fault _ => True end
  end.
