From Verif Require Import Common CommonProofs Ws_Proofs WsStream_Proofs Pixels_Model Init_Model Auth_Model Auth_Spec Auth_Proofs Auth2_Proofs Auth3_Proofs Auth4_Proofs Auth5_Proofs Hand_Spec.

Section Any.
Variable cfg : config.
Variable e : env.

(* the state of a connection and the phase of the conversation *)
Definition fits (s : cstate) (k : chan) (p : phase) : Prop :=
  match s with
  | SError => p = Out
  | SVersion => p = Greeted /\ k = Clear
  | SSecurity => p = Offered /\ k = Clear
  | SVenVersion => p = VenVersion /\ k = Clear
  | SVenSubtype => p = VenTypes /\ k = Clear
  | SVenPlain => p = Ask Tls /\ k = Tls
  | SAppleDh => p = Ask Clear /\ k = Clear
  | SRsaPub => p = RsaKey /\ k = Clear
  | SRsaChallenge => p = RsaChal /\ k = Clear
  | SRsaHash => p = RsaHashed /\ k = RsaAes
  | SRsaCred => p = Ask RsaAes /\ k = RsaAes
  | SInit => p = Accepted k
  | SReady => p = Inside
  end.

Definition flows (c : conn) : Prop := exists p, conversation cfg (log c) p /\ fits (st c) (ch c) p.

Lemma refused m : m <> [] -> zlen m < 2 ^ 32 -> refusal (be 4 1 ++ be 4 (zlen m) ++ m).
Proof. intros. exists m. auto. Qed.

(* what is offered *)
Lemma offered l : init_security_types cfg [] = Ok l ->
  l <> [] /\ NoDup l /\ (forall t, In t l <-> offers cfg t).
Proof.
  unfold init_security_types, offers. destruct (require_auth cfg).
  - destruct (negb (has_auth_fn cfg)); [discriminate|]. cbn [bind].
    destruct (enable_tls cfg), (tls_creds cfg), (have_crypto cfg), (require_encryption cfg);
      cbn [andb app]; intros E; try discriminate E; injection E as <-; (split; [discriminate|]);
      (split; [repeat constructor; unfold TYPE_VENCRYPT, TYPE_RSA_AES, TYPE_RSA_AES256, TYPE_APPLE_DH; cbn; intuition lia|]);
      intros t; cbn [In]; unfold TYPE_VENCRYPT, TYPE_RSA_AES, TYPE_RSA_AES256, TYPE_APPLE_DH; intuition (try congruence).
  - cbn [bind]. intros E. injection E as <-. split; [discriminate|].
    split; [repeat constructor; intros []|]. intros t. cbn. unfold TYPE_NONE. intuition congruence.
Qed.

Lemma offered_one l t : init_security_types cfg [] = Ok l -> existsb (fun x => x =? t) l = true -> offers cfg t.
Proof.
  intros T X. apply existsb_exists in X as (x & I & E). assert (x = t) by lia. subst x.
  now apply (offered l T).
Qed.

(* the phases *)
Lemma flow (c c' : conn) p l p' : conversation cfg (log c) p -> log c' = log c ++ l ->
  (forall lg, conversation cfg lg p -> conversation cfg (lg ++ l) p') ->
  fits (st c') (ch c') p' -> flows c'.
Proof. intros C L S F. exists p'. rewrite L. auto. Qed.

Lemma path1 p ev p' : next cfg p ev p' -> forall lg, conversation cfg lg p -> conversation cfg (lg ++ [ev]) p'.
Proof. intros N lg C. now apply (c_snoc cfg lg ev p). Qed.
Lemma path_cons p ev p' l p'' : next cfg p ev p' ->
  (forall lg, conversation cfg lg p' -> conversation cfg (lg ++ l) p'') ->
  forall lg, conversation cfg lg p -> conversation cfg (lg ++ ev :: l) p''.
Proof.
  intros N S lg C. replace (lg ++ ev :: l) with ((lg ++ [ev]) ++ l) by (now rewrite <- app_assoc).
  apply S. now apply (c_snoc cfg lg ev p).
Qed.

Lemma flows_authenticate c used u p : conversation cfg (log c) (Ask (ch c)) -> flows (authenticate e c used u p).
Proof.
  intros C. unfold authenticate. cbv zeta. destruct (auth_fn e (log c) u p) eqn:A.
  - eapply (flow c); [exact C| |..].
    + cbn. rewrite <- app_assoc. reflexivity.
    + eapply path_cons; [apply n_ask|]. apply path1. apply n_yes.
    + reflexivity.
  - eapply (flow c); [exact C| |..].
    + cbn [log security_handshake_failed send note goto ch]. rewrite <- app_assoc. reflexivity.
    + eapply path_cons; [apply n_ask|]. apply path1. apply n_no. apply refused; [discriminate|reflexivity].
    + reflexivity.
Qed.

Lemma init_shape name buffer m f : send_server_init_message name buffer = Some (m, f) -> server_init m.
Proof.
  unfold send_server_init_message. cbv zeta. destruct buffer as [[[w h] code]|]; [|discriminate].
  destruct (pixfmt_from_fourcc code) as [f0|]; [|discriminate]. intros E. injection E as E1 E2. rewrite E2 in E1. subst m.
  exists w, h, (pixel_format_bytes f), (cstr name). split; [|reflexivity].
  unfold pixel_format_bytes. rewrite !app_length, !be_length. reflexivity.
Qed.

Lemma flows_step c b c' n : good cfg e c -> flows c -> rx_ok b -> try_read cfg e c b = Ok (Some (c', n)) -> flows c'.
Proof.
  intros G (p & C & F) R H. assert (GT := good_types cfg e c G). unfold try_read in H.
  assert (SAME : flows c) by now exists p.
  destruct (st c) eqn:S; cbn [fits] in F;
    try (assert (T : init_security_types cfg [] = Ok (types c)) by (apply GT; discriminate); clear GT);
    try (lazymatch type of F with _ /\ _ => destruct F as [F K] end); subst p.
  - apply taken_inj in H as [-> _]. exact SAME.
  - unfold on_version_message in H. destruct (avail b <? 12); [apply taken_inj in H as [-> _]; exact SAME|].
    destruct (negb _).
    + apply taken_inj in H as [-> _]. eapply (flow c); [exact C|reflexivity| |reflexivity].
      cbn [ch goto]. rewrite K. apply path1, n_version. eexists. split; [|split; [|reflexivity]]; [discriminate|reflexivity].
    + apply bind_ok in H as (l & L & H). apply taken_inj in H as [-> _].
      assert (Tl : init_security_types cfg [] = Ok l).
      { destruct (types c) as [|z m] eqn:Tc; [exact L|]. apply ok_inj in L. subst l.
        destruct G. rewrite Tc in g_types. destruct g_types as [G|[G _]]; [exact G|discriminate]. }
      destruct (offered l Tl) as (O1 & O2 & O3).
      eapply (flow c); [exact C|reflexivity| |]; cbn [ch goto send note st fits].
      * rewrite K. apply path1, n_types; assumption.
      * auto.
  - unfold on_security_message in H. destruct (bytes b) as [|type rest]; [apply taken_inj in H as [-> _]; exact SAME|].
    destruct (existsb _ _) eqn:X; cbn [negb] in H.
    2:{ apply taken_inj in H as [-> _]. eapply (flow c); [exact C|reflexivity| |reflexivity].
        cbn [ch goto]. rewrite K. apply path1, n_illegal, refused; [discriminate|reflexivity]. }
    assert (O := offered_one _ _ T X).
    assert (RSA : forall is256 len c' n, (offers cfg 5 \/ offers cfg 129) ->
      (let c0 := mk_conn (st c) (ch c) (types c) is256 (repeat 0 len) (pub c) (secret c) (log c) in
       let* c1 := rsa_aes_send_public_key e c0 in Ok (Some (goto c1 SRsaPub, 1))) = Ok (Some (c', n)) -> flows c').
    { intros is256 len c2 n2 OF H2. cbv zeta in H2. apply bind_ok in H2 as (c1 & Q & H2). apply taken_inj in H2 as [-> _].
      unfold rsa_aes_send_public_key in Q. destruct (server_key e) as [[l0 n0] x0].
      unfold crypto_export in Q. destruct (byte_size n0 <=? l0) eqn:B0; [|discriminate]. cbn [bind fst] in Q.
      destruct (byte_size x0 <=? l0) eqn:B1; [|discriminate]. cbn [bind fst] in Q. apply ok_inj in Q. subst c1.
      eapply (flow c); [exact C|reflexivity| |].
      - cbn [ch goto]. rewrite K. apply path1. apply (n_rsa cfg _ (be (Z.to_nat l0) n0) (be (Z.to_nat l0) x0)); [exact OF| |].
        + now rewrite !be_length.
        + assert (P := byte_size_pos n0). unfold zlen. rewrite be_length, Z2Nat.id by lia. now rewrite Z.mul_comm.
      - cbn. auto. }
    cbv zeta in H, RSA.
    destruct (type =? TYPE_NONE) eqn:Tn.
    { apply taken_inj in H as [-> _]. assert (type = 1) by (unfold TYPE_NONE in Tn; lia). subst type.
      eapply (flow c); [exact C|reflexivity| |]; cbn [ch goto security_handshake_ok send note st fits].
      - rewrite K. apply path1, n_none, O.
      - now rewrite K. }
    destruct (enable_tls cfg && _) eqn:Tv.
    { apply taken_inj in H as [-> _]. assert (type = 19) by (unfold TYPE_VENCRYPT in Tv; lia). subst type.
      eapply (flow c); [exact C|reflexivity| |]; cbn [ch goto send note st fits].
      - rewrite K. apply path1, n_ven, O.
      - auto. }
    destruct (have_crypto cfg && (type =? TYPE_APPLE_DH)) eqn:Td.
    { assert (type = 30) by (unfold TYPE_APPLE_DH in Td; lia). subst type.
      apply bind_ok in H as (c1 & Q & H). apply taken_inj in H as [-> _].
      unfold apple_dh_send_public_key in Q. cbv zeta in Q. unfold crypto_export in Q.
      destruct (byte_size (dh_prime e) <=? 256); [|discriminate]. cbn [bind fst snd] in Q.
      destruct (negb _); [discriminate|].
      destruct (byte_size (dh_public e _) <=? 256); [|discriminate]. cbn [bind fst snd] in Q.
      destruct (negb _); [discriminate|]. apply ok_inj in Q. subst c1.
      eapply (flow c); [exact C| | |].
      - cbn [log goto send note ch]. rewrite <- !app_assoc. reflexivity.
      - rewrite K. eapply path_cons; [apply n_dh, O|].
        eapply path_cons; [apply n_dh_prime, be_length|]. apply path1, n_dh_key, be_length.
      - cbn. auto. }
    destruct (have_crypto cfg && (type =? TYPE_RSA_AES)) eqn:Tr.
    { apply RSA in H; [exact H|]. left. assert (type = 5) by (unfold TYPE_RSA_AES in Tr; lia). now subst. }
    destruct (have_crypto cfg && (type =? TYPE_RSA_AES256)) eqn:Ts.
    { apply RSA in H; [exact H|]. right. assert (type = 129) by (unfold TYPE_RSA_AES256 in Ts; lia). now subst. }
    apply taken_inj in H as [-> _]. eapply (flow c); [exact C|reflexivity| |reflexivity].
    cbn [ch goto]. rewrite K. apply path1, n_illegal, refused; [discriminate|reflexivity].
  - unfold on_vencrypt_version in H. destruct (bytes b) as [|x [|y r]]; try (apply taken_inj in H as [-> _]; exact SAME).
    destruct (negb (x =? 0) || negb (y =? 2)); apply taken_inj in H as [-> _].
    + eapply (flow c); [exact C|reflexivity| |reflexivity].
      cbn [ch goto]. rewrite K. apply path1, n_ven_no, refused; [discriminate|reflexivity].
    + eapply (flow c); [exact C| | |].
      * cbn [log goto send note ch]. rewrite <- !app_assoc. reflexivity.
      * rewrite K. eapply path_cons; [apply n_ven_ack|]. apply path1, n_ven_types.
      * cbn. auto.
  - unfold on_vencrypt_subtype in H. destruct (avail b <? 4); [apply taken_inj in H as [-> _]; exact SAME|].
    destruct (negb _).
    + apply taken_inj in H as [-> _]. eapply (flow c); [exact C|reflexivity| |reflexivity].
      cbn [ch goto]. rewrite K. apply path1, n_ven_bad.
    + cbv zeta in H. destruct (tls_accepts _ _); [|discriminate]. apply taken_inj in H as [-> _].
      eapply (flow c); [exact C| | |].
      * cbn [log send note ch]. rewrite <- !app_assoc. reflexivity.
      * rewrite K. eapply path_cons; [apply n_ven_yes|]. apply path1, n_ven_tls.
      * cbn. auto.
  - unfold on_vencrypt_plain in H. destruct (avail b <? 8); [apply taken_inj in H as [-> _]; exact SAME|].
    cbv zeta in H. destruct (avail b <? _); apply taken_inj in H as [-> _]; [exact SAME|].
    apply flows_authenticate. now rewrite K.
  - unfold apple_dh_handle_response in H. destruct (avail b <? _); apply taken_inj in H as [-> _]; [exact SAME|].
    apply flows_authenticate. now rewrite K.
  - unfold on_rsa_aes_public_key in H. destruct (avail b <? 4); [apply taken_inj in H as [-> _]; exact SAME|].
    cbv zeta in H. destruct (avail b <? _); [apply taken_inj in H as [-> _]; exact SAME|].
    apply bind_ok in H as (c1 & Q & H). apply taken_inj in H as [-> _].
    apply challenge_keeps in Q as (K1 & K2 & K3 & m & K4). cbn [st ch types log] in *.
    eapply (flow c); [exact C|exact K4| |].
    + rewrite K. apply path1, n_rsa_chal.
    + rewrite K1, K2. cbn. auto.
  - unfold on_rsa_aes_challenge in H. destruct (avail b <? 2); [apply taken_inj in H as [-> _]; exact SAME|].
    cbv zeta in H. destruct (avail b <? _); [apply taken_inj in H as [-> _]; exact SAME|].
    destruct (rsa_decrypt _ _); [|discriminate].
    apply bind_ok in H as (s & _ & H). apply bind_ok in H as (k & _ & H). apply taken_inj in H as [-> _].
    eapply (flow c); [exact C| | |].
    + cbn [log goto send note ch]. rewrite <- !app_assoc. reflexivity.
    + eapply path_cons; [apply n_rsa_up|]. apply path1, n_rsa_hash.
    + cbn. auto.
  - unfold on_rsa_aes_client_hash in H. destruct (avail b <? _); [apply taken_inj in H as [-> _]; exact SAME|].
    apply bind_ok in H as (s & _ & H). apply bind_ok in H as (k & _ & H).
    destruct (list_eq_dec _ _ _); [|discriminate]. apply taken_inj in H as [-> _].
    eapply (flow c); [exact C|reflexivity| |].
    + rewrite K. apply path1, n_rsa_type.
    + cbn. auto.
  - unfold on_rsa_aes_credentials in H. destruct (avail b <? 2); [apply taken_inj in H as [-> _]; exact SAME|].
    cbv zeta in H. destruct (avail b <? _); [apply taken_inj in H as [-> _]; exact SAME|].
    destruct (avail b <? _); apply taken_inj in H as [-> _]; [exact SAME|].
    apply flows_authenticate. now rewrite K.
  - unfold on_init_message in H. destruct (bytes b) as [|z r]; [apply taken_inj in H as [-> _]; exact SAME|].
    cbv zeta in H. destruct (send_server_init_message _ _) as [[m f]|] eqn:I; [|discriminate].
    apply init_shape in I. apply taken_inj in H as [-> _]. destruct (z =? 0).
    + eapply (flow c); [exact C| | |].
      * cbn [log goto send note ch]. rewrite <- !app_assoc. reflexivity.
      * eapply path_cons; [apply n_alone|]. eapply path_cons; [apply n_init1, I|]. apply path1, n_in.
      * reflexivity.
    + eapply (flow c); [exact C| | |].
      * cbn [log goto send note ch]. rewrite <- !app_assoc. reflexivity.
      * eapply path_cons; [apply n_init, I|]. apply path1, n_in.
      * reflexivity.
  - apply taken_inj in H as [-> _]. exact SAME.
Qed.

Lemma flows_connect cached : flows (connect cached).
Proof.
  exists Greeted. split; [|split; reflexivity].
  change (log (connect cached)) with ([] ++ [Sent Clear greeting]). apply (c_snoc cfg [] _ Start); constructor.
Qed.

Lemma flows_session cached reads c b : consistent cfg cached -> Forall all_bytes reads ->
  session cfg e (connect cached, []) reads = Ok (c, b) -> flows c.
Proof.
  intros Co Fo E.
  destruct (session_inv cfg e (fun c _ => good cfg e c /\ flows c)) with (reads := reads) (c := connect cached) (b := @nil (bool * Z))
    (c' := c) (b' := b) as [[_ G] _]; auto.
  - intros c1 b1 c2 n [G Fl] R St. split; [now apply (good_step cfg e c1 b1 c2 n)|now apply (flows_step c1 b1 c2 n)].
  - split; [now apply good_connect|apply flows_connect].
  - constructor.
Qed.

End Any.
