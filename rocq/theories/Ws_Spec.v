(** WebSocket framing as defined by RFC 6455, independent of the model. *)
From Verif Require Import Common.

(** The three ways to write the payload length (section 5.2). *)
Inductive len_form := L7 | L16 | L64.

Definition fits (form : len_form) (n : Z) : Prop :=
  match form with
  | L7 => 0 <= n <= 125
  | L16 => 0 <= n < 2 ^ 16
  | L64 => 0 <= n < 2 ^ 64
  end.

(** The minimal number of bytes must be used (section 5.2). *)
Definition minimal_form (n : Z) : len_form :=
  if n <=? 125 then L7 else if n <? 2 ^ 16 then L16 else L64.

Definition len_field (form : len_form) (n : Z) : Z :=
  match form with L7 => n | L16 => 126 | L64 => 127 end.

Definition len_ext (form : len_form) (n : Z) : list Z :=
  match form with L7 => [] | L16 => be 2 n | L64 => be 8 n end.

Record frame_header := FH {
  h_fin : bool;
  h_rsv : Z;               (* the three reserved bits *)
  h_opcode : Z;
  h_key : option (list Z); (* masking key, if the frame is masked *)
  h_form : len_form;
  h_len : Z }.

Definition valid_header (f : frame_header) : Prop :=
  0 <= h_rsv f < 8 /\ 0 <= h_opcode f < 16 /\ fits (h_form f) (h_len f) /\
  match h_key f with None => True | Some k => length k = 4%nat /\ all_bytes k end.

Definition bit (b : bool) (w : Z) : Z := if b then w else 0.
Definition is_masked (f : frame_header) : bool :=
  match h_key f with None => false | Some _ => true end.
Definition key_bytes (f : frame_header) : list Z :=
  match h_key f with None => [] | Some k => k end.

(** The header on the wire. *)
Definition header_bytes (f : frame_header) : list Z :=
  (bit (h_fin f) 128 + 16 * h_rsv f + h_opcode f)
  :: (bit (is_masked f) 128 + len_field (h_form f) (h_len f))
  :: len_ext (h_form f) (h_len f) ++ key_bytes f.

(** Section 5.3: transformed octet i is the original octet i xor octet i mod 4
    of the key. *)
Definition masked (key : list Z) (d : list Z) : list Z :=
  map (fun ib => Z.lxor (snd ib) (nth (fst ib mod 4) key 0))
      (combine (seq 0 (length d)) d).
