(** Properties C01 and C02. *)
From Verif Require Import Common Base64_Model Base64_Spec Base64_Proofs.

(** C01: what is stored in [dst] is the RFC 4648 text of the input followed by
    one NUL, it fills BASE64_ENCODED_SIZE bytes exactly, and decoding that
    memory (whatever follows it) gives the input back. *)
Theorem C01_base64_round_trip : forall bs rest, all_bytes bs ->
  base64_encode bs = rfc4648 bs ++ [0] /\
  Z.of_nat (length (base64_encode bs)) = BASE64_ENCODED_SIZE (Z.of_nat (length bs)) /\
  base64_decode (base64_encode bs ++ rest) = Ok (Some bs).
Proof.
  intros bs rest H. split; [exact (encode_rfc bs H)|]. split; [exact (encode_length bs)|].
  rewrite (encode_rfc bs H), <- app_assoc. exact (rfc_round_trip bs rest H).
Qed.
Print Assumptions C01_base64_round_trip.

Example C01_hyp : all_bytes [0; 255; 16; 131; 77].
Proof. repeat constructor; unfold is_byte; discriminate || reflexivity. Qed.
Example C01_case :
  base64_encode [97; 98; 99; 100] = codes "YWJjZA=="%string ++ [0] /\
  rfc4648 [97; 98; 99; 100] = codes "YWJjZA=="%string.
Proof. split; reflexivity. Qed.

(** C02: for a NUL-terminated string [s] in memory the decoder never faults;
    it fails exactly on unacceptable texts, otherwise it stores the octets
    denoted by the digits before the first pad, which fit in
    BASE64_DECODED_MAX_SIZE(strlen(s)) bytes. *)
Theorem C02_base64_decode_exact : forall s rest, c_string s ->
  (acceptable s <->
     base64_decode (s ++ 0 :: rest) =
       Ok (Some (octets_of_digits (map value (upto_pad s))))) /\
  (~ acceptable s <-> base64_decode (s ++ 0 :: rest) = Ok None) /\
  (forall out, base64_decode (s ++ 0 :: rest) = Ok (Some out) ->
     Z.of_nat (length out) <= BASE64_DECODED_MAX_SIZE (Z.of_nat (length s))).
Proof.
  intros s rest H. split; [|split].
  - destruct (decode_exact s rest H) as [[Ha Hd]|[Ha Hd]]; rewrite Hd;
      split; intros X; (reflexivity || discriminate || contradiction || exact Ha).
  - destruct (decode_exact s rest H) as [[Ha Hd]|[Ha Hd]]; rewrite Hd;
      split; intros X; (reflexivity || discriminate || contradiction || exact Ha).
  - intros out. exact (decode_length s rest out H).
Qed.
Print Assumptions C02_base64_decode_exact.

Example C02_hyp_ok : c_string (codes "YW_-YQ=="%string) /\
  base64_decode (codes "YW_-YQ=="%string ++ [0]) = Ok (Some [97; 111; 254; 97]).
Proof. split; [repeat constructor|reflexivity]. Qed.
Example C02_hyp_bad : c_string (codes "YW YQ"%string) /\
  base64_decode (codes "YW YQ"%string ++ [0]) = Ok None.
Proof. split; [repeat constructor|reflexivity]. Qed.
(** Without a terminator the C code reads outside the object. *)
Example C02_unterminated : base64_decode (codes "YWJj"%string) = Fault OobRead.
Proof. reflexivity. Qed.
