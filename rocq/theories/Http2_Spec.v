(** The comma separated lists of a WebSocket upgrade request. *)
From Verif Require Import Common Http_Spec.

(** All values offered for a header, in lower case, each between commas. *)
Definition offer (values : list (list Z)) : list Z :=
  44 :: concat (map (fun v => map lower v ++ [44]) values).

Definition contains (text part : list Z) : Prop := exists a b, text = a ++ part ++ b.

Definition no_white_space (s : list Z) : Prop := Forall (fun c => ~ (c = 32 \/ 9 <= c <= 13)) s.
