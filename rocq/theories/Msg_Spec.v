(** What the protocol says about client messages, for the statements in
    Msg_Props.v; nothing here uses the model's handlers.

    RFB protocol (RFC 6143, section 7.5, and its extensions): the client
    messages with a fixed size or with a count in a fixed place. *)
From Verif Require Import Common Msg_Model.

(** [whole m]: [m] is exactly one client message.  SetEncodings is limited to what
    fits a buffer of 4096 bytes and cut text to 10000000 bytes. *)
Inductive whole : list Z -> Prop :=
| w_format l : length l = 19%nat -> whole (0 :: l)
| w_encodings p n l : 0 <= n <= 1023 -> zlen l = 4 * n -> whole ([2; p] ++ be 2 n ++ l)
| w_request l : length l = 9%nat -> whole (3 :: l)
| w_key l : length l = 7%nat -> whole (4 :: l)
| w_pointer l : length l = 5%nat -> whole (5 :: l)
| w_cut a b d n l : 0 <= n <= 10000000 -> zlen l = n -> whole ([6; a; b; d] ++ be 4 n ++ l)
| w_cu l : length l = 9%nat -> whole (150 :: l)
| w_qemu l : length l = 10%nat -> whole ([255; 0] ++ l)
| w_size p w1 w2 h1 h2 n q l : 0 <= n <= 255 -> zlen l = 16 * n ->
    whole ([251; p; w1; w2; h1; h2; n; q] ++ l)
| w_ntp l : length l = 19%nat -> whole (160 :: l).

(** [unfinished p]: [p] is the beginning of a message, not all of it; for cut text
    no more than its header. *)
Definition unfinished (p : list Z) : Prop :=
  exists q, q <> [] /\ whole (p ++ q) /\ (hd 0 p = 6 -> (length p < 8)%nat).

(** No fence holds up the client's messages and no cut text is half received. *)
Definition quiet (c : client) : Prop :=
  pf_n c = 0 /\ blocked c = false /\ block_next c = false /\ cut c = None.

(** [handled E c ms c']: the messages [ms], given to the handler one by one and
    each as a whole, are all accepted and lead from [c] to [c']. *)
Inductive handled (E : env) : client -> list (list Z) -> client -> Prop :=
| h_nil c : handled E c [] c
| h_cons c m c1 ms c2 :
    on_message E (fun c => Ok c) c m = Ok (c1, zlen m) ->
    handled E c1 ms c2 -> handled E c (m :: ms) c2.

(** The most that one read may return. *)
Definition room (c : client) : Z :=
  match cut c with
  | Some t => Z.min (ct_length t - zlen (ct_data t)) 4096
  | None => 4096 - zlen (buf c)
  end.

(** The bytes [s] are on their way.  Each time the stream is readable some of them
    have arrived, [ks] tells how many: the read returns these, but no more than
    there is room for.  The result is the client and the bytes not read yet. *)
Fixpoint feed (E : env) (fuel : nat) (c : client) (ks : list nat) (s : list Z)
  : res (client * list Z) :=
  match ks with
  | [] => Ok (c, s)
  | k :: ks =>
      let n := Nat.min k (Z.to_nat (room c)) in
      let* c := receive E (S fuel) c (Some (firstn n s)) in
      feed E fuel c ks (skipn n s)
  end.
