(** Where secret numbers should come from (C172). *)
From Verif Require Import Common Auth_Model Hand_Spec Rand_Model.

(* the kernel gave all that was asked for *)
Definition supplies (n : nat) (a : answer) (bytes : list Z) : Prop := a = Gave bytes /\ length bytes = n.
(* what getrandom may answer when asked for [n] bytes *)
Definition possible (n : nat) (a : answer) : Prop := match a with Gave l => (length l <= n)%nat | Refused => True end.

(* the keys of an RSA-AES connection are made with the number [own] of the server and a
   number of the client; [is256] tells the method *)
Definition keys_from (e : env) (is256 : bool) (own server client : list Z) : Prop :=
  exists r, length r = random_size is256 /\
    client = digest e is256 (own ++ r) /\ server = digest e is256 (r ++ own).
