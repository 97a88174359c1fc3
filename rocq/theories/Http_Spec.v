(** The HTTP upgrade requests a WebSocket client sends. *)
From Verif Require Import Common.

(** Header names: letters, digits, dash. *)
Definition name_char (c : Z) : Prop :=
  65 <= c <= 90 \/ 97 <= c <= 122 \/ 48 <= c <= 57 \/ c = 45.

(** Path segments: visible ASCII other than / ? & = *)
Definition seg_char (c : Z) : Prop :=
  33 <= c <= 126 /\ c <> 47 /\ c <> 63 /\ c <> 38 /\ c <> 61.

Definition blank (c : Z) : Prop := c = 32 \/ c = 9.

Record line := Line { name : list Z; gap : list Z; val : list Z }.

Definition valid_line (h : line) : Prop :=
  name h <> [] /\ Forall name_char (name h) /\ Forall blank (gap h) /\
  Forall (fun c => c <> 13 /\ c <> 0) (val h) /\
  match val h with [] => True | c :: _ => ~ blank c end.

Definition crlf : list Z := [13; 10].
Definition line_bytes (h : line) : list Z := name h ++ [58] ++ gap h ++ val h ++ crlf.

Definition path_bytes (segs : list (list Z)) : list Z :=
  match segs with [] => [47] | _ => concat (map (fun s => 47 :: s) segs) end.

Definition valid_path (segs : list (list Z)) : Prop :=
  Forall (fun s => s <> [] /\ Forall seg_char s) segs.

Definition request_head (segs : list (list Z)) : list Z :=
  codes "GET "%string ++ path_bytes segs ++ codes " HTTP/1.1"%string ++ crlf.

Definition request (segs : list (list Z)) (hs : list line) : list Z :=
  request_head segs ++ concat (map line_bytes hs) ++ crlf.

(** Equality of names up to ASCII case. *)
Definition lower (c : Z) : Z := if (65 <=? c) && (c <=? 90) then c + 32 else c.
Definition same_name (a b : list Z) : bool :=
  if list_eq_dec Z.eq_dec (map lower a) (map lower b) then true else false.

(** The header lines other than Content-Length and Content-Type. *)
Definition plain (hs : list line) : list line :=
  filter (fun h => negb (same_name (name h) (codes "Content-Length"%string))
                && negb (same_name (name h) (codes "Content-Type"%string))) hs.

Fixpoint count (x : Z) (l : list Z) : nat :=
  match l with [] => 0 | c :: t => ((if Z.eq_dec x c then 1 else 0) + count x t)%nat end.

(** ** RFC 6455 opening handshake *)
Definition guid : list Z := codes "258EAFA5-E914-47DA-95CA-C5AB0DC85B11"%string.

(** The value of the last header line with a given name. *)
Fixpoint last_value (n : list Z) (hs : list line) : option (list Z) :=
  match hs with
  | [] => None
  | h :: t => match last_value n t with
              | Some v => Some v
              | None => if same_name (name h) n then Some (val h) else None
              end
  end.

Definition lines_named (n : list Z) (hs : list line) : list line :=
  filter (fun h => same_name (name h) n) hs.

(** The lines of the 101 response. *)
Definition response (accept_token : list Z) (extra : list (list Z)) : list Z :=
  concat (map (fun l => l ++ crlf)
    ([codes "HTTP/1.1 101 Switching Protocols"%string;
      codes "Upgrade: websocket"%string;
      codes "Connection: Upgrade"%string;
      codes "Sec-WebSocket-Accept: "%string ++ accept_token] ++ extra ++ [[]])).
