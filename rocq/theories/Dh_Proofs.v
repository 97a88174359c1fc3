(** Proofs about Diffie-Hellman. *)
From Coq Require Import Zpow_facts.
From Verif Require Import Common CommonProofs Ws_Proofs WsStream_Proofs Pixels_Model Init_Model Auth_Model Auth_Spec
  Auth_Proofs Auth2_Proofs Auth3_Proofs Auth4_Proofs Auth5_Proofs Dh_Model Dh_Spec.

Lemma unbe_cons b l : unbe (b :: l) = b * 256 ^ Z.of_nat (length l) + unbe l.
Proof.
  revert b. induction l as [|x l IH] using rev_ind; intros b; [unfold unbe; cbn; lia|].
  rewrite app_comm_cons, !unbe_app1, IH, app_length. cbn [length].
  replace (Z.of_nat (length l + 1)) with (Z.succ (Z.of_nat (length l))) by lia. rewrite Z.pow_succ_r by lia. ring.
Qed.
Lemma unbe_top l n : all_bytes (255 :: l) -> length l = n ->
  0 < unbe (255 :: l) /\ 2 ^ (8 * Z.of_nat n + 7) <= unbe (255 :: l) < 256 ^ Z.of_nat (S n).
Proof.
  intros A L. assert (B := unbe_bound _ A). assert (C := unbe_bound l ltac:(inversion A; assumption)).
  rewrite unbe_cons in *. cbn [length] in B. rewrite L in *.
  rewrite Z.pow_add_r, Z.pow_mul_r by lia. change (2 ^ 8) with 256. change (2 ^ 7) with 128.
  assert (0 < 256 ^ Z.of_nat n) by (apply Z.pow_pos_nonneg; lia). lia.
Qed.
Lemma prime_bytes : exists l, unhex prime_digits = 255 :: l /\ length l = 255%nat /\ all_bytes (255 :: l).
Proof. eexists. split; [vm_compute; reflexivity|]. split; [reflexivity|]. unfold all_bytes, is_byte. repeat (apply Forall_cons; [lia|]). apply Forall_nil. Qed.
Lemma prime_value : 0 < prime /\ 2 ^ (8 * Z.of_nat 255 + 7) <= prime < 256 ^ Z.of_nat 256.
Proof. destruct prime_bytes as (l & P & L & A). unfold prime. rewrite P. exact (unbe_top l 255 A L). Qed.
Lemma byte_size_top p n : 0 < p -> 2 ^ (8 * Z.of_nat n + 7) <= p < 256 ^ Z.of_nat (S n) -> byte_size p = Z.of_nat (S n).
Proof.
  intros P [L U]. unfold byte_size. replace (p =? 0) with false by lia.
  assert (Z.log2 p = 8 * Z.of_nat n + 7); [|rewrite H; replace (8 * Z.of_nat n + 7 + 1 + 7) with (7 + Z.of_nat (S n) * 8) by lia;
    rewrite Z.div_add by lia; reflexivity].
  apply Z.log2_unique; [lia|]. split; [exact L|]. change 256 with (2 ^ 8) in U. rewrite <- Z.pow_mul_r in U by lia.
  replace (Z.succ (8 * Z.of_nat n + 7)) with (8 * Z.of_nat (S n)) by lia. exact U.
Qed.
Lemma prime_size : byte_size prime = 256.
Proof. destruct prime_value as [P B]. exact (byte_size_top prime 255 P B). Qed.
Lemma prime_bound : 0 < prime < 256 ^ 256.
Proof. destruct prime_value as [P [_ B]]. split; [exact P|exact B]. Qed.

Lemma mod_below a p m : 0 < p < m -> 0 <= a mod p < m.
Proof. intros H. pose proof (Z.mod_pos_bound a p). lia. Qed.
Lemma powm_range b x : 0 <= powm b x prime < 256 ^ 256.
Proof. exact (mod_below (b ^ x) prime _ prime_bound). Qed.

Lemma powm_powm b x y : 0 <= x -> 0 <= y -> powm (powm b x prime) y prime = powm b (x * y) prime.
Proof.
  intros X Y. unfold powm. assert (H := proj1 prime_bound). revert H. generalize prime. intros p H. rewrite <- Zpower_mod by lia. now rewrite <- Z.pow_mul_r.
Qed.

(* both sides come to the same number *)
Lemma agreement x y : 0 <= x -> 0 <= y -> powm (powm 2 y prime) x prime = powm (powm 2 x prime) y prime.
Proof. intros. rewrite !powm_powm by assumption. now rewrite Z.mul_comm. Qed.

Lemma export_prime : crypto_export 256 prime = Ok (be 256 prime, 256).
Proof.
  assert (B := prime_size). assert (P := proj1 prime_bound). revert B P. generalize prime. intros p B P.
  rewrite crypto_export_ok by lia. rewrite B. replace (p =? 0) with false by lia. reflexivity.
Qed.

Lemma export_256 n : 0 <= n < 256 ^ 256 -> exists k, crypto_export 256 n = Ok (be 256 n, k).
Proof. intros H. rewrite crypto_export_ok by (apply byte_size_bound; [exact H|lia]). change (Z.to_nat 256) with 256%nat. eauto. Qed.

Lemma unbe_prime : unbe (be 256 prime) = prime.
Proof. apply unbe_be. destruct prime_bound as [P B]. split; [apply Z.lt_le_incl; exact P|exact B]. Qed.
Lemma unbe_powm b x : unbe (be 256 (powm b x prime)) = powm b x prime.
Proof. apply unbe_be. exact (powm_range b x). Qed.

(* what is sent, whatever the numbers *)
Lemma send_key e c c' p q k : crypto_export 256 (dh_prime e) = Ok (p, 256) ->
  crypto_export 256 (dh_public e (dh_secret e (log c))) = Ok (q, k) -> apple_dh_send_public_key e c = Ok c' ->
  secret c' = dh_secret e (log c) /\ log c' = log c ++ [Sent (ch c) (be 2 2 ++ be 2 256); Sent (ch c) p; Sent (ch c) q].
Proof.
  intros P Q H. unfold apple_dh_send_public_key in H. cbv zeta in H. rewrite P in H. cbn [bind fst snd Z.eqb Pos.eqb negb] in H.
  rewrite Q in H. cbn [bind fst snd] in H. destruct (negb (k =? 256)); [discriminate|]. apply ok_inj in H as <-.
  split; [reflexivity|]. cbn [log send note ch]. rewrite <- !app_assoc. reflexivity.
Qed.
Lemma security_key cfg e c b rest c1 k1 : st c = SSecurity -> have_crypto cfg = true -> In 30 (types c) -> bytes b = 30 :: rest ->
  try_read cfg e c b = Ok (Some (c1, k1)) -> k1 = 1 /\ exists c', apple_dh_send_public_key e c = Ok c' /\ c1 = goto c' SAppleDh.
Proof.
  intros S HC I B H.
  unfold try_read in H. rewrite S in H. unfold on_security_message in H. rewrite B in H.
  replace (existsb (fun t => t =? 30) (types c)) with true in H
    by (symmetry; apply existsb_exists; exists 30; split; [exact I|reflexivity]). cbn [negb] in H. cbv zeta in H.
  unfold TYPE_NONE, TYPE_VENCRYPT, TYPE_APPLE_DH in H. cbn [Z.eqb Pos.eqb andb] in H. rewrite Bool.andb_false_r, HC in H. cbn [andb] in H.
  apply bind_ok in H as (c' & H & H2). apply taken_inj in H2 as [-> ->]. eauto.
Qed.
Lemma security_key_runs cfg e c b rest p q k : st c = SSecurity -> have_crypto cfg = true -> In 30 (types c) -> bytes b = 30 :: rest ->
  crypto_export 256 (dh_prime e) = Ok (p, 256) -> crypto_export 256 (dh_public e (dh_secret e (log c))) = Ok (q, k) ->
  if k =? 256 then exists c1, try_read cfg e c b = Ok (Some (c1, 1)) else try_read cfg e c b = Fault AssertFail.
Proof.
  intros S HC I B P Q.
  unfold try_read. rewrite S. unfold on_security_message. rewrite B.
  replace (existsb (fun t => t =? 30) (types c)) with true
    by (symmetry; apply existsb_exists; exists 30; split; [exact I|reflexivity]). cbn [negb]. cbv zeta.
  unfold TYPE_NONE, TYPE_VENCRYPT, TYPE_APPLE_DH. cbn [Z.eqb Pos.eqb andb]. rewrite Bool.andb_false_r, HC. cbn [andb].
  unfold apple_dh_send_public_key. cbv zeta. rewrite P. cbn [bind fst snd Z.eqb Pos.eqb negb]. rewrite Q. cbn [bind fst snd].
  destruct (k =? 256); cbn [negb bind]; eauto.
Qed.
(* 2 to a small secret is not reduced *)
Lemma small_public x : 0 <= x < 8 * Z.of_nat 255 + 7 -> powm 2 x prime = 2 ^ x /\
  crypto_export 256 (powm 2 x prime) = Ok (be 256 (2 ^ x), x / 8 + 1).
Proof.
  intros X. destruct prime_value as [P [L _]]. revert P L. generalize prime. intros p P L.
  assert (E : powm 2 x p = 2 ^ x).
  { apply Z.mod_small. split; [apply Z.pow_nonneg; lia|]. eapply Z.lt_le_trans; [|exact L]. apply Z.pow_lt_mono_r; lia. }
  split; [exact E|]. rewrite E.
  assert (0 < 2 ^ x) by (apply Z.pow_pos_nonneg; lia).
  assert (B : byte_size (2 ^ x) = x / 8 + 1).
  { unfold byte_size. replace (2 ^ x =? 0) with false by lia. rewrite Z.log2_pow2 by lia.
    replace (x + 1 + 7) with (x + 1 * 8) by lia. now rewrite Z.div_add by lia. }
  assert (x / 8 <= 255) by (change 255 with (2047 / 8); apply Z.div_le_mono; lia).
  rewrite crypto_export_ok by lia. rewrite B. replace (2 ^ x =? 0) with false by lia. reflexivity.
Qed.
Lemma with_dh_prime md5 dec e : dh_prime (with_dh md5 dec e) = prime.
Proof. reflexivity. Qed.
Lemma with_dh_secret md5 dec e l : dh_secret (with_dh md5 dec e) l = unbe (random e l 256).
Proof. reflexivity. Qed.
Lemma with_dh_public md5 dec e x : dh_public (with_dh md5 dec e) x = powm 2 x prime.
Proof. reflexivity. Qed.
Lemma with_dh_decrypt md5 dec e x public creds t : apple_dh_decrypt md5 dec (mk_key 2 prime x) public creds = Ok t ->
  dh_decrypt (with_dh md5 dec e) x public creds = t.
Proof. unfold with_dh. cbn [dh_decrypt]. now intros ->. Qed.

Section Aes.
Variable md5 : list Z -> list Z.
Variable enc dec : list Z -> list Z -> list Z.
Hypothesis C : block_cipher enc dec.

Lemma blocks_length n k : forall text, length text = (16 * n)%nat -> length (blocks enc n k text) = (16 * n)%nat.
Proof.
  induction n as [|n IH]; intros text L; [reflexivity|]. cbn [blocks]. rewrite app_length.
  rewrite IH by (rewrite skipn_length; lia). rewrite (proj1 (C k (firstn 16 text) ltac:(rewrite firstn_length; lia))). lia.
Qed.

Lemma ecb_blocks n k : forall text, length text = (16 * n)%nat -> ecb_decrypt dec n k (blocks enc n k text) = text.
Proof.
  induction n as [|n IH]; intros text L; cbn [ecb_decrypt blocks].
  - destruct text; [reflexivity|discriminate].
  - destruct (C k (firstn 16 text) ltac:(rewrite firstn_length; lia)) as [L1 D].
    rewrite firstn_app_eq, skipn_app_eq by exact L1. rewrite D, IH by (rewrite skipn_length; lia). apply firstn_skipn.
Qed.

Lemma decrypt_general p x public creds : crypto_export 256 p = Ok (be 256 p, 256) -> unbe (be 256 p) = p -> 0 < p < 256 ^ 256 ->
  apple_dh_decrypt md5 dec (mk_key 2 p x) public creds = Ok (ecb_decrypt dec 8 (md5 (be 256 (powm (unbe public) x p))) creds).
Proof.
  intros E U B. unfold apple_dh_decrypt. cbn [kp kg]. rewrite E. cbn [bind fst snd]. rewrite Z.eqb_refl. cbn [negb].
  unfold crypto_derive_shared_secret, crypto_key_new. cbn [kg kp kq]. rewrite U, !Z.eqb_refl. cbn [negb kq].
  destruct (export_256 (powm (unbe public) x p) (mod_below _ _ _ B)) as [k ->]. reflexivity.
Qed.
Lemma decrypt_is x public creds : apple_dh_decrypt md5 dec (mk_key 2 prime x) public creds =
  Ok (ecb_decrypt dec 8 (md5 (be 256 (powm (unbe public) x prime))) creds).
Proof. exact (decrypt_general prime x public creds export_prime unbe_prime prime_bound). Qed.

Lemma decrypt_total x public creds : exists t, apple_dh_decrypt md5 dec (mk_key 2 prime x) public creds = Ok t.
Proof. eexists. apply decrypt_is. Qed.

Lemma decrypt_answer x y text : 0 <= x -> 0 <= y -> length text = 128%nat ->
  apple_dh_decrypt md5 dec (mk_key 2 prime x) (be 256 (2 ^ y mod prime))
    (blocks enc 8 (md5 (be 256 ((2 ^ x mod prime) ^ y mod prime))) text) = Ok text.
Proof.
  intros X Y L. rewrite decrypt_is. f_equal.
  assert (U := unbe_powm 2 y). assert (G := agreement x y X Y). revert U G. unfold powm. generalize prime. intros p U G.
  rewrite U, G. now apply ecb_blocks.
Qed.
End Aes.

Lemma cstr_field s junk n : ~ In 0 s -> (length s <= n)%nat -> cstr (firstn n (field s junk)) = s.
Proof.
  unfold field. revert n. induction s as [|x s IH]; intros n N L; cbn [app].
  - destruct n; [reflexivity|]. reflexivity.
  - destruct n; [cbn in L; lia|]. cbn [firstn app cstr]. cbn [In] in N.
    destruct (x =? 0) eqn:E; [exfalso; apply N; left; lia|]. f_equal. apply IH; [tauto|cbn in L; lia].
Qed.
