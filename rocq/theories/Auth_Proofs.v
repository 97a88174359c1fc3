From Verif Require Import Common CommonProofs Ws_Proofs Pixels_Model Init_Model Auth_Model Auth_Spec.

Lemma ok_inj {A} (x y : A) : Ok x = Ok y -> x = y.
Proof. congruence. Qed.
Lemma taken_inj (c c' : conn) n n' : @Ok taken (Some (c, n)) = Ok (Some (c', n')) -> c' = c /\ n' = n.
Proof. intros E. apply ok_inj in E. split; congruence. Qed.
Lemma bind_ok {A B} (x : res A) (f : A -> res B) y : bind x f = Ok y -> exists a, x = Ok a /\ f a = Ok y.
Proof. destruct x; cbn; [eauto|discriminate]. Qed.

Lemma app_snoc_inv {A} (l p q : list A) (x y : A) :
  l ++ [x] = p ++ y :: q -> (q = [] /\ p = l /\ y = x) \/ (exists q', q = q' ++ [x] /\ l = p ++ y :: q').
Proof.
  revert p. induction q as [|z q' IH] using rev_ind; intros p E.
  - left. apply app_inj_tail in E as [? ?]. auto.
  - right. exists q'. rewrite app_comm_cons, app_assoc in E. apply app_inj_tail in E as [E1 E2].
    subst. auto.
Qed.


Definition rx_ok (b : rx) : Prop := all_bytes (bytes b).

Lemma bytes_length b : Z.of_nat (length (bytes b)) = avail b.
Proof. unfold bytes, avail. now rewrite map_length. Qed.
Lemma bytes_app a b : bytes (a ++ b) = bytes a ++ bytes b.
Proof. apply map_app. Qed.
Lemma bytes_firstn n b : bytes (firstn n b) = firstn n (bytes b).
Proof. unfold bytes. now rewrite firstn_map. Qed.
Lemma bytes_skipn n b : bytes (skipn n b) = skipn n (bytes b).
Proof. unfold bytes. now rewrite skipn_map. Qed.
Lemma rx_skipn n b : rx_ok b -> rx_ok (skipn n b).
Proof. intros H. unfold rx_ok. rewrite bytes_skipn. now apply Forall_skipn. Qed.
Lemma bytes_tag f l : bytes (map (pair f) l) = l.
Proof. unfold bytes. rewrite map_map. apply map_id. Qed.
Lemma rx_app b f l : rx_ok b -> all_bytes l -> rx_ok (b ++ map (pair f) l).
Proof. intros H1 H2. unfold rx_ok. rewrite bytes_app, bytes_tag. apply Forall_app. auto. Qed.

Lemma unbe_nonneg l : all_bytes l -> 0 <= unbe l.
Proof. intros H. pose proof (unbe_bound l H). lia. Qed.

Ltac crack H :=
  repeat (cbv beta zeta in H;
    match type of H with
    | bind _ _ = Ok _ => let x := fresh "x" in let Hx := fresh "B" in apply bind_ok in H as (x & Hx & H)
    | context [match ?x with _ => _ end] => let Q := fresh "Q" in destruct x eqn:Q; try discriminate H
    end).

Section Any.
Variable cfg : config.
Variable e : env.

Lemma bits_to_bytes_nonneg n : 0 <= bits_to_bytes n.
Proof. unfold bits_to_bytes. apply Z.div_pos; [apply Z.mod_pos_bound|]; lia. Qed.

Lemma try_read_taken c b c' n :
  rx_ok b -> try_read cfg e c b = Ok (Some (c', n)) -> 0 <= n <= avail b.
Proof.
  intros R H.
  assert (A0 : 0 <= avail b) by (unfold avail; lia).
  assert (L := bytes_length b).
  assert (U : forall k j, 0 <= unbe (firstn k (skipn j (bytes b)))).
  { intros. apply unbe_nonneg. apply Forall_firstn, Forall_skipn, R. }
  assert (U0 : forall k, 0 <= unbe (firstn k (bytes b))).
  { intros. apply unbe_nonneg. apply Forall_firstn, R. }
  unfold try_read in H. destruct (st c).
  - apply taken_inj in H. lia.
  - unfold on_version_message in H. crack H; apply taken_inj in H; lia.
  - unfold on_security_message in H. crack H; apply taken_inj in H as [_ ->]; cbn [length] in L; lia.
  - unfold on_vencrypt_version in H. crack H; apply taken_inj in H as [_ ->]; cbn [length] in L; lia.
  - unfold on_vencrypt_subtype in H. crack H; apply taken_inj in H; lia.
  - unfold on_vencrypt_plain in H. specialize (U 4%nat 4%nat). specialize (U0 4%nat).
    crack H; apply taken_inj in H as [_ ->]; lia.
  - unfold apple_dh_handle_response in H. crack H; apply taken_inj in H; lia.
  - unfold on_rsa_aes_public_key in H.
    pose proof (bits_to_bytes_nonneg (unbe (firstn 4 (bytes b)))).
    destruct (avail b <? 4); [apply taken_inj in H; lia|]. cbv zeta in H.
    destruct (avail b <? _) eqn:Q; [apply taken_inj in H; lia|].
    apply bind_ok in H as (? & _ & H). apply taken_inj in H. lia.
  - unfold on_rsa_aes_challenge in H. specialize (U0 2%nat).
    destruct (avail b <? 2); [apply taken_inj in H; lia|]. cbv zeta in H.
    destruct (avail b <? _) eqn:Q; [apply taken_inj in H; lia|].
    destruct (rsa_decrypt _ _); [|discriminate].
    apply bind_ok in H as (? & _ & H). apply bind_ok in H as (? & _ & H).
    apply taken_inj in H. lia.
  - unfold on_rsa_aes_client_hash in H.
    assert (0 <= hash_len c) by (unfold hash_len; destruct (sha256 c); lia).
    destruct (avail b <? hash_len c) eqn:Q; [apply taken_inj in H; lia|].
    apply bind_ok in H as (? & _ & H). apply bind_ok in H as (? & _ & H).
    destruct (list_eq_dec _ _ _); [|discriminate].
    apply taken_inj in H. lia.
  - unfold on_rsa_aes_credentials in H.
    assert (H0 : 0 <= hd 0 (bytes b)).
    { unfold rx_ok in R. destruct (bytes b); cbn; [lia|]. inversion R; unfold is_byte in *; lia. }
    assert (H1 : forall k, 0 <= nth k (bytes b) 0).
    { intros k. destruct (Nat.lt_ge_cases k (length (bytes b))) as [K|K].
      - apply (nth_In _ 0) in K. unfold rx_ok, all_bytes in R. rewrite Forall_forall in R. specialize (R _ K).
        unfold is_byte in *; lia.
      - rewrite nth_overflow; [lia|exact K]. }
    specialize (H1 (Z.to_nat (1 + hd 0 (bytes b)))).
    crack H; apply taken_inj in H as [_ ->]; lia.
  - unfold on_init_message in H. destruct (bytes b) eqn:B; [apply taken_inj in H; lia|].
    cbn [length] in L. crack H; apply taken_inj in H as [_ ->]; lia.
  - apply taken_inj in H. lia.
Qed.

(* a property kept by every message and by every read is kept by sessions *)
Lemma read_loop_inv (P : conn -> rx -> Prop) :
  (forall c b c' n, P c b -> rx_ok b -> try_read cfg e c b = Ok (Some (c', n)) -> P c' (skipn (Z.to_nat n) b)) ->
  forall fuel c b c' b', P c b -> rx_ok b -> read_loop cfg e fuel c b = Ok (c', b') -> P c' b' /\ rx_ok b'.
Proof.
  intros St. induction fuel; cbn [read_loop]; intros c b c' b' I R E; [discriminate|].
  apply bind_ok in E as ([[c1 n]|] & E1 & E); [|discriminate].
  assert (I1 := St _ _ _ _ I R E1).
  destruct (n =? 0) eqn:Z0.
  - apply ok_inj in E. assert (n = 0) by lia. subst n. inversion E; subst. split; [apply I1|apply R].
  - destruct (avail b <? n); [discriminate|]. eapply IHfuel; [apply I1|apply rx_skipn, R|apply E].
Qed.

Lemma session_inv (P : conn -> rx -> Prop) :
  (forall c b c' n, P c b -> rx_ok b -> try_read cfg e c b = Ok (Some (c', n)) -> P c' (skipn (Z.to_nat n) b)) ->
  (forall c b l, P c b -> P c (b ++ tag c l)) ->
  forall reads c b c' b', Forall all_bytes reads -> P c b -> rx_ok b ->
    session cfg e (c, b) reads = Ok (c', b') -> P c' b' /\ rx_ok b'.
Proof.
  intros St Rd. induction reads as [|data reads IH]; cbn [session]; intros c b c' b' F I R E.
  - apply ok_inj in E. inversion E; subst. auto.
  - apply bind_ok in E as ([c1 b1] & E1 & E). inversion F as [|? ? F1 F2]; subst.
    assert (P c1 b1 /\ rx_ok b1) as [I1 R1].
    { unfold on_client_event in E1. destruct data as [|z data].
      - apply ok_inj in E1. inversion E1; subst. auto.
      - cbv zeta in E1. destruct (4096 <? _).
        + apply ok_inj in E1. inversion E1; subst. auto.
        + eapply (read_loop_inv P St); [| |apply E1].
          * apply (Rd c b (z :: data)), I.
          * apply rx_app; auto. }
    eapply IH; eauto.
Qed.

(* whatever goes wrong, goes wrong in the handler of some message: the loop ends and
   never runs past the buffer *)
Lemma read_loop_fault (P : conn -> rx -> Prop) :
  (forall c b c' n, P c b -> rx_ok b -> try_read cfg e c b = Ok (Some (c', n)) -> P c' (skipn (Z.to_nat n) b)) ->
  forall fuel c b f, P c b -> rx_ok b -> (length b < fuel)%nat -> read_loop cfg e fuel c b = Fault f ->
  exists c' b', P c' b' /\ rx_ok b' /\
    (try_read cfg e c' b' = Fault f \/ (try_read cfg e c' b' = Ok None /\ f = UseAfterFree)).
Proof.
  intros St. induction fuel; intros c b f I R L E; [lia|]. cbn [read_loop] in E.
  destruct (try_read cfg e c b) as [r|f'] eqn:T.
  - cbn [bind] in E. destruct r as [[c1 n]|].
    + assert (N := try_read_taken _ _ _ _ R T).
      destruct (n =? 0) eqn:Z0; [discriminate|].
      destruct (avail b <? n) eqn:G; [lia|].
      apply (IHfuel c1 (skipn (Z.to_nat n) b)); [now apply (St c b c1 n)|now apply rx_skipn| |exact E].
      rewrite skipn_length. unfold avail in *. lia.
    + exists c, b. split; [exact I|]. split; [exact R|]. right. split; [exact T|congruence].
  - cbn [bind] in E. exists c, b. split; [exact I|]. split; [exact R|]. left. congruence.
Qed.

Lemma session_fault (P : conn -> rx -> Prop) :
  (forall c b c' n, P c b -> rx_ok b -> try_read cfg e c b = Ok (Some (c', n)) -> P c' (skipn (Z.to_nat n) b)) ->
  (forall c b l, P c b -> P c (b ++ tag c l)) ->
  forall reads c b f, Forall all_bytes reads -> P c b -> rx_ok b ->
    session cfg e (c, b) reads = Fault f ->
    exists c' b', P c' b' /\ rx_ok b' /\
    (try_read cfg e c' b' = Fault f \/ (try_read cfg e c' b' = Ok None /\ f = UseAfterFree)).
Proof.
  intros St Rd. induction reads as [|data reads IH]; cbn [session]; intros c b f F I R E; [discriminate|].
  inversion F as [|? ? F1 F2]; subst.
  destruct (on_client_event cfg e (c, b) data) as [[c1 b1]|f'] eqn:E1; cbn [bind] in E.
  - destruct (session_inv P St Rd [data] c b c1 b1) as [I1 R1]; auto.
    + cbn [session]. rewrite E1. reflexivity.
    + eapply IH; eauto.
  - replace f' with f in E1 by congruence.
    unfold on_client_event in E1. destruct data as [|z data]; [discriminate|].
    cbv zeta in E1. destruct (4096 <? _); [discriminate|].
    eapply (read_loop_fault P St); [| | |apply E1].
    + apply (Rd c b (z :: data)), I.
    + now apply rx_app.
    + lia.
Qed.
End Any.
