(** A client that keeps to the ordinary messages, and everything else that can happen to
    it meanwhile, for the statements in Safe_Props.v. *)
From Verif Require Import Common Msg_Model Msg_Spec Msg2_Spec.

(** How sizes are agreed on: either all frames have one size, which the client knows, and
    it does not ask for the extended desktop size; or the client can be told new sizes. *)
Inductive agreement : Type := Fixed (w h : Z) | Resizable.

(** The encodings a client may list (desktop size is -223, the extended one -308).  Only
    the first 32 that the library knows are kept. *)
Definition may_list (g : agreement) (experimental : bool) (l : list Z) : Prop :=
  match g with
  | Fixed _ _ => ~ In (-308) l
  | Resizable => In (-223) (firstn 32 (filter (is_known experimental) l)) \/
                 In (-308) (firstn 32 (filter (is_known experimental) l))
  end.

(** A difference of two 32-bit times, as a signed number. *)
Definition later (a b : Z) : Z := to_signed 32 ((a - b) mod 2 ^ 32).
Definition int32 (v : Z) : Prop := - 2 ^ 31 <= v < 2 ^ 31.

(** The messages of RFC 6143 section 7.5 with any contents, cut text up to ten million
    bytes; and the extensions for continuous updates, QEMU keys (codes below 254), desktop
    sizes and time (a question, or times whose sums are integers of C). *)
Inductive ordinary (g : agreement) (experimental : bool) : list Z -> Prop :=
| o_format l : length l = 19%nat -> ordinary g experimental (0 :: l)
| o_encodings p l : zlen l <= 1023 -> Forall int32 l -> may_list g experimental l ->
    ordinary g experimental (set_encodings_msg p l)
| o_request l : length l = 9%nat -> ordinary g experimental (3 :: l)
| o_key l : length l = 7%nat -> ordinary g experimental (4 :: l)
| o_pointer l : length l = 5%nat -> ordinary g experimental (5 :: l)
| o_cut a b c text : zlen text <= 10000000 -> ordinary g experimental (cut_text_msg a b c text)
| o_cu l : length l = 9%nat -> ordinary g experimental (150 :: l)
| o_qemu down sym code : 0 <= code < 254 -> ordinary g experimental (qemu_key_msg down sym code)
| o_size p w1 w2 h1 h2 n q l : 0 <= n <= 255 -> zlen l = 16 * n ->
    ordinary g experimental ([251; p; w1; w2; h1; h2; n; q] ++ l)
| o_ntp a b c t0 t1 t2 t3 : 0 <= t0 < 2 ^ 32 -> 0 <= t1 < 2 ^ 32 -> 0 <= t2 < 2 ^ 32 -> 0 <= t3 < 2 ^ 32 ->
    t3 = 0 \/ (int32 (later t3 t0 - later t2 t1) /\ int32 (later t1 t0 + later t2 t3)) ->
    ordinary g experimental (ntp_msg a b c t0 t1 t2 t3).

(** What can happen: some of the client's bytes arrive, or anything else that [input]
    has: the application shows something new, an encoder is done, the stream has sent a
    frame, the lights of the keyboard or the cursor change, the connection ends. *)
Inductive happening : Type := Arrive (k : nat) | Meanwhile (i : input).

Definition may_happen (g : agreement) (x : happening) : Prop :=
  match x with
  | Arrive _ => True
  | Meanwhile (IRead _) => False
  | Meanwhile (IEncoded f) => match g with Fixed w h => f_w f = w /\ f_h f = h | Resizable => True end
  | Meanwhile _ => True
  end.

(** [s]: the bytes on their way.  Of those that have arrived as many are read as there is
    room for. *)
Fixpoint live (E : env) (fuel : nat) (c : client) (s : list Z) (l : list happening) : res (client * list Z) :=
  match l with
  | [] => Ok (c, s)
  | Arrive k :: l =>
      let n := Nat.min k (Z.to_nat (room c)) in
      let* c := step E fuel c (IRead (Some (firstn n s))) in
      live E fuel c (skipn n s) l
  | Meanwhile i :: l =>
      let* c := step E fuel c i in
      live E fuel c s l
  end.

(** Where a client may start from: nothing half received, no fence being waited for, and
    sizes agreed on. *)
Definition starts (g : agreement) (c : client) : Prop :=
  quiet c /\ buf c = [] /\ idx c = 0 /\
  match g with
  | Fixed w h => known c = (w, h) /\ ~ In (-308) (encs c)
  | Resizable => In (-223) (encs c) \/ In (-308) (encs c)
  end.
