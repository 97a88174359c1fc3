(** Running out of room in the receive buffer, for the statements in Room_Props.v. *)
From Verif Require Import Common Msg_Model.

(** RFC 6143, section 7.5.2: SetEncodings has a count of 16 bits, so up to 65535
    encodings may follow.  [offers n m]: the client offers [n] encodings by [m]. *)
Definition offers (n : Z) (m : list Z) : Prop :=
  0 <= n <= 65535 /\
  exists pad l, m = [2; pad] ++ be 2 n ++ l /\ zlen l = 4 * n.

(** The reads of a connection, each returning some bytes. *)
Definition reads (ds : list (list Z)) : list input := map (fun d => IRead (Some d)) ds.

(** [hung_up E c]: the next time anything can be read from the connection, whatever
    it is, the server takes it that the client has hung up. *)
Definition hung_up (E : env) (fuel : nat) (c : client) : Prop :=
  forall d, step E fuel c (IRead d) = Ok (set_closed true c).
