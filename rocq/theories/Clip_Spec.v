(** Clipboard messages as a client reads them. *)
From Verif Require Import Common Msg_Model.

(** The bytes written to a client by what was added to its log. *)
Definition written (before after : list out) : list Z :=
  flat_map (fun o => match o with Sent l => l | _ => [] end) (skipn (length before) after).

(** ServerCutText, RFC 6143 section 7.6.4: the text, if [l] is exactly one such message. *)
Definition read_server_cut_text (l : list Z) : option (list Z) :=
  match l with
  | 3 :: _ :: _ :: _ :: n3 :: n2 :: n1 :: n0 :: text =>
      if unbe [n3; n2; n1; n0] =? zlen text then Some text else None
  | _ => None
  end.

(** Extended clipboard: a message of type 3 with a negative length, flags, and the rest.
    The result is the flags and the rest. *)
Definition read_ext_clipboard (l : list Z) : option (Z * list Z) :=
  match l with
  | 3 :: _ :: _ :: _ :: n3 :: n2 :: n1 :: n0 :: f3 :: f2 :: f1 :: f0 :: rest =>
      if 2 ^ 32 - unbe [n3; n2; n1; n0] =? 4 + zlen rest then Some (unbe [f3; f2; f1; f0], rest) else None
  | _ => None
  end.

(** Bits of the flags: text, notify (27), provide (28). *)
Definition text_notify : Z := 1 + 2 ^ 27.
Definition text_provide : Z := 1 + 2 ^ 28.

(** The decompressed contents of a provide message with the text format only: the size of
    the text in four bytes and the text.  The text must be followed by a zero byte, which
    the size counts. *)
Definition read_text (o : list Z) : option (list Z) :=
  match o with
  | n3 :: n2 :: n1 :: n0 :: rest =>
      let n := unbe [n3; n2; n1; n0] in
      if (1 <=? n) && (n <=? zlen rest) && (nth (Z.to_nat (n - 1)) rest 1 =? 0)
      then Some (firstn (Z.to_nat (n - 1)) rest) else None
  | _ => None
  end.

(** A client that does not insist on the zero byte. *)
Definition read_text_leniently (o : list Z) : option (list Z) :=
  match o with
  | n3 :: n2 :: n1 :: n0 :: rest =>
      let n := unbe [n3; n2; n1; n0] in
      if n <=? zlen rest then Some (firstn (Z.to_nat n) rest) else None
  | _ => None
  end.
