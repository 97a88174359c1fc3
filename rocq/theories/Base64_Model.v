(** Model of src/base64.c and the size macros of include/base64.h. *)
From Verif Require Import Common.

(* src/base64.c:24-25, base64_enc_lut *)
Definition enc_lut : list Z :=
  codes "ABCDEFGHIJKLMNOPQRSTUVWXYZabcdefghijklmnopqrstuvwxyz0123456789+/"%string.

(* src/base64.c:27-45, base64_validation_lut: the characters whose entry is 1,
   in source order; all other entries are 0. *)
Definition validation_chars : list Z :=
  codes "ABCDEFGHIJKLMNOPQRSTUVWXYZabcdefghijklmnopqrstuvwxyz0123456789+/-_="%string.

(* src/base64.c:27-45, lookup in base64_validation_lut *)
Definition validation_lut (c : Z) : bool := existsb (Z.eqb c) validation_chars.

(* src/base64.c:47-65, base64_dec_lut: characters with a designated entry and
   the entry, in source order. *)
Definition dec_entries : list (Z * Z) :=
  combine (codes "ABCDEFGHIJKLMNOPQRSTUVWXYZabcdefghijklmnopqrstuvwxyz0123456789+/-_"%string)
    [0x00; 0x01; 0x02; 0x03; 0x04; 0x05; 0x06; 0x07; 0x08; 0x09; 0x0a; 0x0b;
     0x0c; 0x0d; 0x0e; 0x0f; 0x10; 0x11; 0x12; 0x13; 0x14; 0x15; 0x16; 0x17;
     0x18; 0x19; 0x1a; 0x1b; 0x1c; 0x1d; 0x1e; 0x1f; 0x20; 0x21; 0x22; 0x23;
     0x24; 0x25; 0x26; 0x27; 0x28; 0x29; 0x2a; 0x2b; 0x2c; 0x2d; 0x2e; 0x2f;
     0x30; 0x31; 0x32; 0x33; 0x34; 0x35; 0x36; 0x37; 0x38; 0x39; 0x3a; 0x3b;
     0x3c; 0x3d; 0x3e; 0x3f; 0x3e; 0x3f].

(* src/base64.c:47-65, lookup in base64_dec_lut (entries not designated are 0) *)
Definition dec_lut (c : Z) : Z :=
  match find (fun e => fst e =? c) dec_entries with
  | Some (_, v) => v
  | None => 0
  end.

(* src/base64.c:77-80,98: indexing base64_enc_lut.  The table has 64 entries
   and a terminating NUL, hence the default 0; callers are proved to stay
   below 64. *)
Definition enc_at (i : Z) : Z := nth (Z.to_nat i) enc_lut 0.

(* src/base64.c:72-80, one full group of three bytes *)
Definition enc_group (a b c : Z) : list Z :=
  let tmp := Z.lor (Z.lor (Z.lor 0 (Z.shiftl a 16)) (Z.shiftl b 8)) c in
  [ enc_at (Z.shiftr tmp 18);
    enc_at (Z.land (Z.shiftr tmp 12) 0x3f);
    enc_at (Z.land (Z.shiftr tmp 6) 0x3f);
    enc_at (Z.land tmp 0x3f) ].

(* src/base64.c:89-93, accumulation of the remaining bytes; [r] is the loop
   counter *)
Fixpoint enc_rem_tmp (r : Z) (l : list Z) (tmp : Z) : Z :=
  match l with
  | [] => tmp
  | x :: t => enc_rem_tmp (r + 1) t (Z.lor tmp (Z.shiftl x ((2 - r) * 8)))
  end.

(* src/base64.c:95-99, the rem+1 output characters, [di] counting up *)
Fixpoint enc_rem_out (n : nat) (di tmp : Z) : list Z :=
  match n with
  | O => []
  | S n' => enc_at (Z.land (Z.shiftr tmp ((3 - di) * 6)) 0x3f)
            :: enc_rem_out n' (di + 1) tmp
  end.

(* src/base64.c:83-105, the tail of base64_encode: remainder characters,
   padding and the terminating NUL *)
Definition enc_tail (l : list Z) : list Z :=
  match l with
  | [] => [0]
  | _ =>
      let rem := length l in
      let tmp := enc_rem_tmp 0 l 0 in
      enc_rem_out (rem + 1) 0 tmp
        ++ repeat 61 (4 - (rem + 1)) ++ [0]
  end.

(* src/base64.c:67-107, base64_encode.  The result is the sequence of bytes
   stored at dst[0], dst[1], ... (the C code writes them in this order). *)
Fixpoint base64_encode (src : list Z) : list Z :=
  match src with
  | a :: b :: c :: rest => enc_group a b c ++ base64_encode rest
  | l => enc_tail l
  end.

(* src/base64.c:109-115, base64_is_valid over memory starting at src; running
   off the end of the object is a fault *)
Fixpoint base64_is_valid (src : list Z) : res bool :=
  match src with
  | [] => Fault OobRead
  | c :: t =>
      if c =? 0 then Ok true
      else if validation_lut c then base64_is_valid t else Ok false
  end.

(* src/base64.c:122, strcspn(src, "="): the characters before the first '='
   or NUL *)
Fixpoint before_pad (src : list Z) : list Z :=
  match src with
  | [] => []
  | c :: t => if (c =? 61) || (c =? 0) then [] else c :: before_pad t
  end.

(* src/base64.c:126-134, one full group of four characters *)
Definition dec_group (a b c d : Z) : list Z :=
  let tmp := Z.lor (Z.lor (Z.lor (Z.lor 0
                (Z.shiftl (dec_lut a) 18)) (Z.shiftl (dec_lut b) 12))
                (Z.shiftl (dec_lut c) 6)) (dec_lut d) in
  [ Z.shiftr tmp 16 mod 256; Z.land (Z.shiftr tmp 8) 0xff; Z.land tmp 0xff ].

(* src/base64.c:143-147 *)
Fixpoint dec_rem_tmp (r : Z) (l : list Z) (tmp : Z) : Z :=
  match l with
  | [] => tmp
  | x :: t => dec_rem_tmp (r + 1) t (Z.lor tmp (Z.shiftl (dec_lut x) ((3 - r) * 6)))
  end.

(* src/base64.c:149-152 *)
Fixpoint dec_rem_out (n : nat) (di tmp : Z) : list Z :=
  match n with
  | O => []
  | S n' => Z.land (Z.shiftr tmp ((2 - di) * 8)) 0xff :: dec_rem_out n' (di + 1) tmp
  end.

(* src/base64.c:137-154, the remainder after the full groups *)
Definition dec_tail (l : list Z) : list Z :=
  match l with
  | [] => []
  | _ => dec_rem_out (length l * 3 / 4) 0 (dec_rem_tmp 0 l 0)
  end.

(* src/base64.c:125-154, the decoding loops applied to the characters before
   the padding; the result is the sequence of bytes stored at dst[0],... *)
Fixpoint dec_body (src : list Z) : list Z :=
  match src with
  | a :: b :: c :: d :: rest => dec_group a b c d ++ dec_body rest
  | l => dec_tail l
  end.

(* src/base64.c:117-155, base64_decode: [None] is the return value -1,
   [Some out] means [out] was stored to dst and its length returned *)
Definition base64_decode (src : list Z) : res (option (list Z)) :=
  let* valid := base64_is_valid src in
  if valid then Ok (Some (dec_body (before_pad src))) else Ok None.

(* include/base64.h, BASE64_ENCODED_SIZE *)
(* include/base64.h:21 *)
Definition BASE64_ENCODED_SIZE (x : Z) : Z := ((x + 2) / 3) * 4 + 1.

(* include/base64.h, BASE64_DECODED_MAX_SIZE *)
(* include/base64.h:22 *)
Definition BASE64_DECODED_MAX_SIZE (x : Z) : Z := ((x + 3) / 4) * 3.
