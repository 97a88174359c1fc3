(** What the line logged for a new connection has to say. *)
From Verif Require Import Common Log_Model.

(** Decimal numbers with dots between them, read from left to right; [n] the number read so
    far. *)
Fixpoint numbers (n : Z) (s : list Z) : list Z :=
  match s with
  | [] => [n]
  | c :: s => if c =? 46 then n :: numbers 0 s else numbers (10 * n + (c - 48)) s
  end.

(** The text of an address: no terminator in it, and short enough (INET6_ADDRSTRLEN is 46). *)
Definition address_text (s : list Z) : Prop := Forall (fun c => c <> 0) s /\ zlen s < 46.

(** sockaddr_in and sockaddr_in6 of Linux. *)
Definition ip4 (port a : list Z) : list Z := [2; 0] ++ port ++ a ++ repeat 0 8.
Definition ip6 (port flow a scope : list Z) : list Z := [10; 0] ++ port ++ flow ++ a ++ scope.

(** The line names [s]. *)
Definition names (line : Z * list Z) (s pointer : list Z) : Prop :=
  line = (LOG_INFO, codes "New client connection from " ++ s ++ codes ": " ++ pointer).
