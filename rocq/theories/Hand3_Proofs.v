From Verif Require Import Common CommonProofs Ws_Proofs WsStream_Proofs Pixels_Model Init_Model Auth_Model Auth_Spec Auth_Proofs Auth2_Proofs Auth3_Proofs Auth4_Proofs Auth5_Proofs Hand_Spec Hand_Proofs.

(** ** Random numbers *)
Section Any.
Variable cfg : config.
Variable e : env.
Hypothesis RO : random_ok e.

Definition all_fresh (l : list event) : Prop :=
  forall before s k after, l = before ++ Upgraded RsaAes s k :: after -> fresh_keys e before s k.

Definition drawn (c : conn) : Prop :=
  all_fresh (log c) /\
  match st c with
  | SRsaPub => length (challenge c) = random_size (sha256 c)
  | SRsaChallenge => exists l0 m, log c = l0 ++ [Sent Clear m] /\ challenge c = random e l0 (random_size (sha256 c))
  | _ => True
  end.

Lemma fresh_snoc l ev : all_fresh l -> (forall s k, ev = Upgraded RsaAes s k -> fresh_keys e l s k) -> all_fresh (l ++ [ev]).
Proof.
  intros H N before s k after E. apply app_snoc_inv in E as [(_ & -> & E)|(q & _ & E)].
  - now apply N.
  - now apply (H before s k q).
Qed.
Lemma fresh_sent l c m : all_fresh l -> all_fresh (l ++ [Sent c m]).
Proof. intros H. apply fresh_snoc; [exact H|discriminate]. Qed.

Lemma fresh_authenticate c used u p : all_fresh (log c) -> drawn (authenticate e c used u p).
Proof.
  intros H. unfold authenticate. cbv zeta. destruct (auth_fn e (log c) u p); (split; [|exact I]).
  - apply fresh_sent. apply fresh_snoc; [exact H|discriminate].
  - apply fresh_sent. apply fresh_snoc; [exact H|discriminate].
Qed.

Lemma entries2 a b : a <> [] -> b <> [] -> entries [a; b] = a ++ b.
Proof. intros A B. destruct a; [easy|]. destruct b; [easy|]. cbn. rewrite app_nil_r. reflexivity. Qed.

Lemma length_not_nil (l : list Z) is256 : length l = random_size is256 -> l <> [].
Proof. destruct l; [destruct is256; discriminate|discriminate]. Qed.

Lemma drawn_step c b c' n : flows cfg c -> drawn c -> rx_ok b -> try_read cfg e c b = Ok (Some (c', n)) -> drawn c'.
Proof.
  intros G D R H. assert (SAME := D). destruct D as [A D].
  unfold try_read in H. destruct (st c) eqn:S.
  - apply taken_inj in H as [-> _]. exact SAME.
  - unfold on_version_message in H. destruct (avail b <? 12); [apply taken_inj in H as [-> _]; exact SAME|].
    destruct (negb _); [apply taken_inj in H as [-> _]; split; [now apply fresh_sent|exact I]|].
    apply bind_ok in H as (l & _ & H). apply taken_inj in H as [-> _]. split; [now apply fresh_sent|exact I].
  - unfold on_security_message in H. destruct (bytes b) as [|z rest]; [apply taken_inj in H as [-> _]; exact SAME|].
    destruct (negb _); [apply taken_inj in H as [-> _]; split; [now apply fresh_sent|exact I]|]. cbv zeta in H.
    assert (RSA : forall is256 len, len = random_size is256 ->
      (let* c1 := rsa_aes_send_public_key e (mk_conn (st c) (ch c) (types c) is256 (repeat 0 len) (pub c) (secret c) (log c)) in
       Ok (Some (goto c1 SRsaPub, 1))) = Ok (Some (c', n)) -> drawn c').
    { intros is256 len L H2. apply bind_ok in H2 as (c1 & Q & H2). apply taken_inj in H2 as [-> _].
      unfold rsa_aes_send_public_key in Q. destruct (server_key e) as [[l0 n0] x0].
      apply bind_ok in Q as (? & _ & Q). apply bind_ok in Q as (? & _ & Q). apply ok_inj in Q. subst c1.
      split; [now apply fresh_sent|]. cbn. now rewrite repeat_length. }
    destruct (z =? TYPE_NONE); [apply taken_inj in H as [-> _]; split; [now apply fresh_sent|exact I]|].
    destruct (enable_tls cfg && _); [apply taken_inj in H as [-> _]; split; [now apply fresh_sent|exact I]|].
    destruct (have_crypto cfg && (z =? TYPE_APPLE_DH)).
    { apply bind_ok in H as (c1 & Q & H). apply taken_inj in H as [-> _].
      unfold apple_dh_send_public_key in Q. cbv zeta in Q. apply bind_ok in Q as (? & _ & Q).
      destruct (negb _); [discriminate|]. apply bind_ok in Q as (? & _ & Q). destruct (negb _); [discriminate|].
      apply ok_inj in Q. subst c1. split; [|exact I]. do 3 apply fresh_sent. exact A. }
    destruct (have_crypto cfg && (z =? TYPE_RSA_AES)); [now apply RSA in H|].
    destruct (have_crypto cfg && (z =? TYPE_RSA_AES256)); [now apply RSA in H|].
    apply taken_inj in H as [-> _]; split; [now apply fresh_sent|exact I].
  - unfold on_vencrypt_version in H. crack H; apply taken_inj in H as [-> _]; first [exact SAME|split; [|exact I]].
    + now apply fresh_sent.
    + now do 2 apply fresh_sent.
  - unfold on_vencrypt_subtype in H. crack H; apply taken_inj in H as [-> _]; first [exact SAME|split; [|exact I]].
    + now apply fresh_sent.
    + apply fresh_snoc; [now apply fresh_sent|discriminate].
  - unfold on_vencrypt_plain in H. cbv zeta in H. destruct (avail b <? 8); [apply taken_inj in H as [-> _]; exact SAME|].
    destruct (avail b <? _); apply taken_inj in H as [-> _]; [exact SAME|]. now apply fresh_authenticate.
  - unfold apple_dh_handle_response in H.
    destruct (avail b <? _); apply taken_inj in H as [-> _]; [exact SAME|]. now apply fresh_authenticate.
  - unfold on_rsa_aes_public_key in H. cbv zeta in H.
    destruct (avail b <? 4); [apply taken_inj in H as [-> _]; exact SAME|].
    destruct (avail b <? _); [apply taken_inj in H as [-> _]; exact SAME|].
    apply bind_ok in H as (c1 & Q & H). apply taken_inj in H as [-> _].
    assert (K : ch c = Clear) by (destruct G as (ph & _ & G); rewrite S in G; apply G).
    unfold rsa_aes_send_challenge in Q. cbn [pub challenge log ch st types sha256 secret] in Q.
    destruct (rsa_encrypt _ _ _ _ _).
    + apply bind_ok in Q as (out & _ & Q). destruct (1024 <? _); [discriminate|]. apply ok_inj in Q. subst c1.
      split; [now apply fresh_sent|]. cbn [st send note log challenge sha256 ch]. rewrite K, D. eauto.
    + apply ok_inj in Q. subst c1. split; [now apply fresh_sent|]. cbn [st send note log challenge sha256 ch]. rewrite K, D. eauto.
  - unfold on_rsa_aes_challenge in H. cbv zeta in H.
    destruct (avail b <? 2); [apply taken_inj in H as [-> _]; exact SAME|].
    destruct (avail b <? _); [apply taken_inj in H as [-> _]; exact SAME|].
    destruct (rsa_decrypt _ _) as [r|]; [|discriminate].
    apply bind_ok in H as (? & _ & H). apply bind_ok in H as (? & _ & H). apply taken_inj in H as [-> _].
    split; [|exact I]. cbn [log goto send note]. apply fresh_sent. apply fresh_snoc; [exact A|].
    intros s k E. injection E as <- <-. destruct D as (l0 & m & L & C).
    assert (LC : length (challenge c) = random_size (sha256 c)) by now rewrite C, RO.
    set (r' := firstn (length (challenge c)) (r ++ repeat 0 32)).
    assert (LR : length r' = random_size (sha256 c)).
    { unfold r'. rewrite firstn_length, app_length, repeat_length, LC. destruct (sha256 c); unfold random_size; lia. }
    exists l0, m, (sha256 c), r'. split; [exact L|]. split; [exact LR|].
    unfold hash_many, digest, hash_len. rewrite !entries2 by (eapply length_not_nil; eassumption). rewrite <- C.
    destruct (sha256 c); split; reflexivity.
  - unfold on_rsa_aes_client_hash in H.
    destruct (avail b <? _); [apply taken_inj in H as [-> _]; exact SAME|].
    apply bind_ok in H as (? & _ & H). apply bind_ok in H as (? & _ & H).
    destruct (list_eq_dec _ _ _); [|discriminate]. apply taken_inj in H as [-> _]. split; [now apply fresh_sent|exact I].
  - unfold on_rsa_aes_credentials in H. cbv zeta in H. destruct (avail b <? 2); [apply taken_inj in H as [-> _]; exact SAME|].
    destruct (avail b <? _); [apply taken_inj in H as [-> _]; exact SAME|].
    destruct (avail b <? _); apply taken_inj in H as [-> _]; [exact SAME|]. now apply fresh_authenticate.
  - unfold on_init_message in H. destruct (bytes b) as [|z r]; [apply taken_inj in H as [-> _]; exact SAME|].
    cbv zeta in H. destruct (send_server_init_message _ _) as [[m f]|]; [|discriminate].
    apply taken_inj in H as [-> _]. split; [|exact I]. cbn [log goto note send].
    apply fresh_snoc; [|discriminate]. apply fresh_sent. destruct (z =? 0); [|exact A].
    apply fresh_snoc; [exact A|discriminate].
  - apply taken_inj in H as [-> _]. exact SAME.
Qed.

Lemma drawn_session cached reads c b : consistent cfg cached -> Forall all_bytes reads ->
  session cfg e (connect cached, []) reads = Ok (c, b) -> all_fresh (log c).
Proof.
  intros Co Fo E.
  refine (proj1 (proj2 (proj2 (proj1 (session_inv cfg e (fun c _ => good cfg e c /\ flows cfg c /\ drawn c) _ (fun _ _ _ H => H) reads (connect cached) [] c b Fo _ _ E))))).
  - intros c1 b1 c2 n (G & Fl & D) R St. split; [now apply (good_step cfg e c1 b1 c2 n)|].
    split; [now apply (flows_step cfg e c1 b1 c2 n)|now apply (drawn_step c1 b1 c2 n)].
  - split; [now apply good_connect|]. split; [now apply flows_connect|]. split; [|exact I].
    apply (fresh_sent []). intros before s k after X. destruct before; discriminate.
  - constructor.
Qed.
End Any.

(** ** Conversations *)

Lemma conv_refused cfg l p : conversation cfg l p -> p <> Inside -> ~ In NewClient l.
Proof.
  induction 1 as [|l ev p p' C IH N]; intros NI; [intros []|].
  intros I. apply in_app_or in I as [I|I].
  - apply IH; [|exact I]. intros ->. inversion N.
  - destruct I as [->|[]]. inversion N. congruence.
Qed.

Lemma conv_inside cfg l : conversation cfg l Inside -> exists l0, l = l0 ++ [NewClient] /\ ~ In NewClient l0.
Proof.
  inversion 1 as [|l0 ev p p' C N]; subst. inversion N; subst. exists l0. split; [reflexivity|].
  now apply (conv_refused cfg l0 (Told c)).
Qed.
