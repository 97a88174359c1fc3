(** The handshake, up to the moment the client is initialised. *)
From Verif Require Import Common CommonProofs Ws_Proofs WsStream_Proofs Pixels_Model Init_Model Auth_Model Auth_Spec Auth_Proofs
  Auth2_Proofs Auth3_Proofs Auth4_Proofs Auth5_Proofs Hand_Spec Hand_Proofs Hand2_Proofs.

Section Any.
Variable cfg : config.
Variable e : env.
Notation loop := (Hand2_Proofs.loop cfg e).

Lemma rx_both b x : rx_ok b -> rx_ok x -> rx_ok (b ++ x).
Proof. intros R X. unfold rx_ok. rewrite bytes_app. apply Forall_app. auto. Qed.
Lemma rx_tag f l : all_bytes l -> rx_ok (map (pair f) l).
Proof. intros A. unfold rx_ok. rewrite bytes_tag. exact A. Qed.

Lemma loop_stays_error : forall k c b c' b', (length b <= k)%nat -> rx_ok b -> st c = SError -> loop c b = Ok (c', b') -> c' = c.
Proof.
  intros k c b c' b' L R S H. pose proof (loop_error cfg e c b R S) as O. rewrite H in O. cbn in O. apply ok_inj in O. exact O.
Qed.

(* first some bytes, then more: the same as all at once, and the same is left *)
Lemma loop_both : forall k c b x c' b', (length b <= k)%nat -> rx_ok b -> rx_ok x -> loop c b = Ok (c', b') -> st c' <> SError ->
  loop c (b ++ x) = loop c' (b' ++ x).
Proof.
  induction k as [k IH] using lt_wf_ind. intros c b x c' b' L R X H NE.
  assert (RX := rx_both b x R X).
  assert (NC : st c <> SError).
  { intros S. apply NE. rewrite (loop_stays_error (length b) c b c' b' (le_n _) R S H). exact S. }
  destruct (try_stable cfg e c b x R NC) as [W|W].
  { rewrite (loop_eq cfg e c b R), W in H. cbn [bind] in H. rewrite Z.eqb_refl in H. apply ok_inj in H. injection H as <- <-. reflexivity. }
  rewrite (loop_eq cfg e c b R) in H. rewrite (loop_eq cfg e c (b ++ x) RX), W.
  destruct (try_read cfg e c b) as [[[c1 n]|]|] eqn:T; cbn [bind] in *; try discriminate H.
  destruct (n =? 0) eqn:N0.
  { apply ok_inj in H. injection H as <- <-. assert (n = 0) by lia. subst n.
    destruct (stuck _ _ _ _ _ T R NC) as [->|S1]; [|congruence].
    rewrite (loop_eq cfg e c (_ ++ x) RX), W. reflexivity. }
  assert (N := try_read_taken cfg e c b c1 n R T).
  replace (avail b <? n) with false in H by lia.
  replace (avail (b ++ x) <? n) with false by (unfold avail in *; rewrite app_length; lia).
  rewrite skipn_longer by (unfold avail in *; lia).
  apply (IH (length (skipn (Z.to_nat n) b))); [|lia|now apply rx_skipn|exact X|exact H|exact NE].
  rewrite skipn_length. unfold avail in *. lia.
Qed.

Lemma loop_ready c b : rx_ok b -> st c = SReady -> loop c b = Ok (c, b).
Proof. intros R S. rewrite loop_eq by exact R. unfold try_read. rewrite S. reflexivity. Qed.

(* the loop has come to an end *)
Lemma loop_again : forall k c b c' b', (length b <= k)%nat -> rx_ok b -> loop c b = Ok (c', b') -> st c' <> SError -> loop c' b' = Ok (c', b').
Proof.
  intros k c b c' b' L R H NE. pose proof (loop_both k c b [] c' b' L R ltac:(constructor) H NE) as Q.
  rewrite !app_nil_r in Q. rewrite <- Q. exact H.
Qed.

Lemma event_loop c b d : (d <> [])%type -> (length b + length d <= 4096)%nat -> 
  on_client_event cfg e (c, b) d = loop c (b ++ tag c d).
Proof.
  intros N L. unfold on_client_event, loop. destruct d as [|x d]; [congruence|]. cbv zeta.
  replace (4096 <? avail (b ++ map (pair (encrypted (ch c))) (x :: d))) with false; [reflexivity|].
  unfold avail. rewrite app_length, map_length. symmetry. apply Z.ltb_ge. lia.
Qed.

(* reads that leave the channel as it is, from a place where the loop has ended *)
Lemma session_loop (f : bool) : forall reads c b c' b', rx_ok b -> Forall all_bytes reads -> loop c b = Ok (c, b) ->
  session cfg e (c, b) reads = Ok (c', b') -> st c' <> SError -> encrypted (ch c) = f -> encrypted (ch c') = f ->
  (length b + length (concat reads) <= 4096)%nat ->
  loop c (b ++ map (pair f) (concat reads)) = Ok (c', b').
Proof.
  induction reads as [|d reads IH]; intros c b c' b' R F LB E NE K0 K L.
  - cbn [session] in E. apply ok_inj in E. injection E as <- <-. cbn [concat map]. rewrite app_nil_r. exact LB.
  - cbn [session] in E. apply bind_ok in E as ([c1 b1] & E1 & E). apply Forall_cons_iff in F as [F1 F2].
    cbn [concat] in *. rewrite app_length in L.
    destruct (list_eq_dec Z.eq_dec d []) as [->|D].
    + cbn in E1. apply ok_inj in E1. injection E1 as <- <-. cbn [app]. apply IH; auto.
    + rewrite event_loop in E1 by (auto; lia). unfold tag in E1. rewrite K0 in E1.
      assert (RD := rx_app b f d R F1).
      assert (R1 := loop_ok _ _ _ _ _ _ RD E1).
      assert (NE1 : st c1 <> SError).
      { intros S1. apply NE.
        assert (Q : st c' = SError /\ rx_ok b').
        { refine (session_inv cfg e (fun c _ => st c = SError) _ _ reads c1 b1 c' b' F2 S1 R1 E).
          - intros a b0 a' m SA _ T. unfold try_read in T. rewrite SA in T. apply taken_inj in T as [-> _]. exact SA.
          - auto. }
        apply Q. }
      assert (K1 : encrypted (ch c1) = f).
      { refine (between (ch c) (ch c1) (ch c') f _ _ K0 K).
        - apply (loop_clear_before cfg e c _ c1 b1 RD E1).
        - intros KE. refine (proj1 (session_inv cfg e (fun x _ => encrypted (ch x) = false -> encrypted (ch c1) = false) _ _ reads c1 b1 c' b' F2 (fun H => H) R1 E) KE).
          + intros a b0 a' m I _ T KA. apply I. exact (enc_before cfg e a b0 a' m T KA).
          + auto. }
      assert (L1 := loop_shorter cfg e (length (b ++ map (pair f) d)) c (b ++ map (pair f) d) c1 b1 (le_n _) RD E1).
      rewrite app_length, map_length in L1.
      rewrite map_app, app_assoc.
      rewrite (loop_both _ c (b ++ map (pair f) d) (map (pair f) (concat reads)) c1 b1 (le_n _) RD).
      * apply IH; auto; [|lia]. apply (loop_again _ c (b ++ map (pair f) d) c1 b1 (le_n _) RD E1 NE1).
      * apply rx_tag. clear -F2. induction F2; cbn [concat]; [constructor|]. apply Forall_app. auto.
      * exact E1.
      * exact NE1.
Qed.

(* the moment of initialisation *)
Definition initialised (c : conn) : Prop :=
  exists l m f, log c = l ++ [Sent (ch c) m; NewClient] /\ send_server_init_message (server_name e) (displayed e l) = Some (m, f).

Lemma init_step c b c' n : st c <> SReady -> try_read cfg e c b = Ok (Some (c', n)) -> st c' = SReady -> initialised c'.
Proof.
  intros N H S. unfold try_read in H. destruct (st c) eqn:SC.
  - apply taken_inj in H as [-> _]. congruence.
  - unfold on_version_message in H. crack H; apply taken_inj in H as [-> _]; cbn in S; congruence.
  - unfold on_security_message in H. destruct (bytes b); [apply taken_inj in H as [-> _]; congruence|].
    destruct (negb _); [apply taken_inj in H as [-> _]; discriminate|]. cbv zeta in H.
    assert (RSA : forall is256 len,
      (let* c1 := rsa_aes_send_public_key e (mk_conn (st c) (ch c) (types c) is256 (repeat 0 len) (pub c) (secret c) (log c)) in
       Ok (Some (goto c1 SRsaPub, 1))) = Ok (Some (c', n)) -> initialised c').
    { intros is256 len H2. apply bind_ok in H2 as (c1 & Q & H2). apply taken_inj in H2 as [-> _]. discriminate S. }
    destruct (z =? TYPE_NONE); [apply taken_inj in H as [-> _]; discriminate|].
    destruct (enable_tls cfg && _); [apply taken_inj in H as [-> _]; discriminate|].
    destruct (have_crypto cfg && (z =? TYPE_APPLE_DH)).
    { apply bind_ok in H as (c1 & Q & H). apply taken_inj in H as [-> _]. discriminate S. }
    destruct (have_crypto cfg && (z =? TYPE_RSA_AES)); [now apply RSA in H|].
    destruct (have_crypto cfg && (z =? TYPE_RSA_AES256)); [now apply RSA in H|].
    apply taken_inj in H as [-> _]. cbn in S. congruence.
  - unfold on_vencrypt_version in H. crack H; apply taken_inj in H as [-> _]; cbn in S; congruence.
  - unfold on_vencrypt_subtype in H. crack H; apply taken_inj in H as [-> _]; cbn in S; congruence.
  - unfold on_vencrypt_plain, authenticate in H. crack H; apply taken_inj in H as [-> _]; cbn in S; congruence.
  - unfold apple_dh_handle_response, authenticate in H. crack H; apply taken_inj in H as [-> _]; cbn in S; congruence.
  - unfold on_rsa_aes_public_key in H. cbv zeta in H.
    destruct (avail b <? 4); [apply taken_inj in H as [-> _]; congruence|].
    destruct (avail b <? _); [apply taken_inj in H as [-> _]; congruence|].
    apply bind_ok in H as (c1 & Q & H). apply taken_inj in H as [-> _].
    apply challenge_keeps in Q as (Q & _). cbn in Q. congruence.
  - unfold on_rsa_aes_challenge in H. cbv zeta in H.
    destruct (avail b <? 2); [apply taken_inj in H as [-> _]; congruence|].
    destruct (avail b <? _); [apply taken_inj in H as [-> _]; congruence|].
    destruct (rsa_decrypt _ _); [|discriminate].
    apply bind_ok in H as (? & _ & H). apply bind_ok in H as (? & _ & H). apply taken_inj in H as [-> _]. discriminate S.
  - unfold on_rsa_aes_client_hash in H.
    destruct (avail b <? _); [apply taken_inj in H as [-> _]; congruence|].
    apply bind_ok in H as (? & _ & H). apply bind_ok in H as (? & _ & H).
    destruct (list_eq_dec _ _ _); [|discriminate]. apply taken_inj in H as [-> _]. discriminate S.
  - unfold on_rsa_aes_credentials, authenticate in H. crack H; apply taken_inj in H as [-> _]; cbn in S; congruence.
  - unfold on_init_message in H. destruct (bytes b) as [|sh l]; [apply taken_inj in H as [-> _]; congruence|].
    cbv zeta in H. set (c0 := if sh =? 0 then note c OthersDisconnected else c) in *.
    destruct (send_server_init_message (server_name e) (displayed e (log c0))) as [[m f]|] eqn:I; [|discriminate].
    apply taken_inj in H as [-> _]. exists (log c0), m, f. split; [|exact I].
    cbn [log goto note send ch]. rewrite <- app_assoc. reflexivity.
  - congruence.
Qed.

Lemma init_loop : forall k c b c' b', (length b <= k)%nat -> rx_ok b -> st c <> SReady -> loop c b = Ok (c', b') -> st c' = SReady -> initialised c'.
Proof.
  intros k c b c' b' L R N H RE.
  assert (I : (st c' = SReady -> initialised c') /\ rx_ok b').
  { refine (read_loop_inv cfg e (fun c _ => st c = SReady -> initialised c) _ (S (length b)) c b c' b' _ R H).
    - intros c1 b1 c2 n I _ T S2. destruct (st c1) eqn:S1; try (apply (init_step c1 b1 c2 n); auto; congruence).
      unfold try_read in T. rewrite S1 in T. apply taken_inj in T as [-> _]. auto.
    - intros X. congruence. }
  apply I, RE.
Qed.

(* a beginning of the bytes that lead to initialisation, and more *)
Lemma loop_beginning c c' p q : rx_ok p -> rx_ok q -> q <> [] -> loop c (p ++ q) = Ok (c', []) -> st c' = SReady ->
  exists c1 b1, loop c p = Ok (c1, b1) /\ st c1 <> SReady /\ st c1 <> SError /\ loop c1 (b1 ++ q) = Ok (c', []).
Proof.
  intros P Q N H S.
  pose proof (loop_split cfg e (length p) c p q (le_n _) P Q) as SP. rewrite H in SP. cbn [outcome_of bind fst] in SP.
  destruct (loop c p) as [[c1 b1]|] eqn:L; [|discriminate].
  assert (R1 := loop_ok _ _ _ _ _ _ P L).
  assert (NE : st c1 <> SError).
  { intros X. rewrite loop_error in SP by (auto using rx_both). apply ok_inj in SP. congruence. }
  rewrite (loop_both (length p) c p q c1 b1 (le_n _) P Q L NE) in H.
  exists c1, b1. split; [reflexivity|]. split; [|split; [exact NE|exact H]].
  intros R. rewrite loop_ready in H by (auto using rx_both). apply ok_inj in H. injection H as _ X.
  apply app_eq_nil in X as [_ X]. congruence.
Qed.

Lemma loop_beyond c c' p q : rx_ok p -> rx_ok q -> loop c p = Ok (c', []) -> st c' = SReady -> loop c (p ++ q) = Ok (c', q).
Proof.
  intros P Q H S. rewrite (loop_both (length p) c p q c' [] (le_n _) P Q H) by congruence.
  cbn [app]. apply loop_ready; auto.
Qed.
End Any.
