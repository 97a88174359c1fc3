(** When H.264 counts as available (C173). *)
From Verif Require Import Common Avail_Model.

(* an encoder can be had *)
Definition available (w : world) (now : nat) (p : params) : Prop := exists i, built w i = true /\ works w i now p = true.

(* what the server tries: 1920 by 1080 pixels, XRGB8888, quality 5 *)
Definition full_hd : params := mk_params 1920 1080 875713112 5.

Definition is_make (a : op) : bool := match a with Make _ => true | _ => false end.
Definition is_try (v : event) : bool := match v with Tried _ _ => true | _ => false end.
(* how many elements satisfy [f] *)
Definition count {A} (f : A -> bool) (l : list A) : nat := length (filter f l).
