(** Upgrade requests for an address with a query. *)
From Verif Require Import Common Http_Spec.

(** One name=value after another with & between them. *)
Fixpoint query_bytes (qs : list (list Z * list Z)) : list Z :=
  match qs with
  | [] => []
  | [(k, v)] => k ++ 61 :: v
  | (k, v) :: qs => k ++ 61 :: v ++ 38 :: query_bytes qs
  end.

(** Names and values of visible ASCII other than / ? & =, none empty. *)
Definition word (s : list Z) : Prop := s <> [] /\ Forall seg_char s.
Definition valid_query (qs : list (list Z * list Z)) : Prop :=
  Forall (fun q => word (fst q) /\ word (snd q)) qs.

(** What stands after the path. *)
Definition query (qs : list (list Z * list Z)) : list Z := 63 :: query_bytes qs.

(** The request for [target], which is a path or a path and a query. *)
Definition request_for (target : list Z) (hs : list line) : list Z :=
  codes "GET "%string ++ target ++ codes " HTTP/1.1"%string ++ crlf ++ concat (map line_bytes hs) ++ crlf.

(** The same answer to a request that is [n] bytes longer. *)
Definition longer (n : Z) (answer : res (option (Z * list Z))) : res (option (Z * list Z)) :=
  match answer with
  | Ok (Some (used, reply)) => Ok (Some (used + n, reply))
  | _ => answer
  end.
