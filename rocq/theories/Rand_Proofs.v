(** Proofs for Rand_Props. *)
From Verif Require Import Common CommonProofs Auth_Model Auth_Spec Hand_Spec Hand_Props Rand_Model Rand_Spec.

Lemma all_overwritten bytes dst : length bytes = length dst -> crypto_random (Gave bytes) dst = map Some bytes.
Proof.
  intros L. unfold crypto_random. cbv zeta. rewrite <- L, firstn_all, L, skipn_all. apply app_nil_r.
Qed.
Lemma read_written l : read_all (map Some l) = Ok l.
Proof. induction l as [|b l IH]; cbn [map read_all]; [reflexivity|]. now rewrite IH. Qed.
Lemma read_unwritten l m : m <> O -> read_all (map Some l ++ repeat None m) = Fault Uninit.
Proof. intros N. induction l as [|b l IH]; cbn [map app read_all]; [now destruct m|]. now rewrite IH. Qed.
Lemma skipn_of_repeat {A} (x : A) n k : skipn k (repeat x n) = repeat x (n - k).
Proof. revert k. induction n as [|n IH]; intros [|k]; cbn; try reflexivity. apply IH. Qed.

Lemma drawn bytes n : length bytes = n -> draw (Gave bytes) n = bytes.
Proof.
  intros L. unfold draw. rewrite all_overwritten by now rewrite repeat_length.
  rewrite map_map. apply map_id.
Qed.
Lemma drawn_any a n : possible n a -> draw a n = match a with Gave l => l ++ repeat 0 (n - length l) | Refused => repeat 0 n end.
Proof.
  intros P. unfold draw, crypto_random. destruct a as [l|].
  - cbn in P. cbv zeta. rewrite repeat_length, firstn_all2 by exact P. rewrite skipn_of_repeat, map_app, map_map. f_equal; [apply map_id|].
    clear. induction (n - length l)%nat as [|k IH]; cbn; [reflexivity|now rewrite IH].
  - clear. induction n as [|k IH]; cbn; [reflexivity|now rewrite IH].
Qed.
Lemma drawn_length a n : length (draw a n) = n.
Proof.
  unfold draw, crypto_random. rewrite map_length. destruct a as [l|]; cbv zeta.
  - rewrite app_length, map_length, skipn_length, firstn_length, repeat_length. lia.
  - apply repeat_length.
Qed.

Lemma secret_drawn a : possible 256 a ->
  generate_random a = match a with Gave l => if Nat.eqb (length l) 256 then Ok (unbe l) else Fault Uninit | Refused => Fault Uninit end.
Proof.
  intros P. unfold generate_random. destruct a as [l|].
  - cbn in P. destruct (Nat.eqb_spec (length l) 256) as [E|N].
    + rewrite all_overwritten by (rewrite repeat_length; exact E). rewrite read_written. reflexivity.
    + unfold crypto_random. cbv zeta. rewrite repeat_length, firstn_all2 by exact P. rewrite skipn_of_repeat, read_unwritten by lia. reflexivity.
  - reflexivity.
Qed.

Lemma keys_drawn cfg e kernel cached reads c b : consistent cfg cached -> Forall all_bytes reads ->
  session cfg (with_kernel kernel e) (connect cached, []) reads = Ok (c, b) ->
  forall before server client after, log c = before ++ Upgraded RsaAes server client :: after ->
  exists l0 m is256, before = l0 ++ [Sent Clear m] /\
    keys_from e is256 (draw (kernel l0 (random_size is256)) (random_size is256)) server client.
Proof.
  intros C F S before server client after L.
  assert (RO : random_ok (with_kernel kernel e)) by (intros l n; apply drawn_length).
  destruct (C121_keys_come_from_fresh_random_numbers cfg (with_kernel kernel e) cached reads c b RO C F S before server client after L)
    as (l0 & m & is256 & r & B & R & K1 & K2).
  exists l0, m, is256. split; [exact B|]. exists r. auto.
Qed.
