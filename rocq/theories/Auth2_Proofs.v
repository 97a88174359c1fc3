From Verif Require Import Common CommonProofs Ws_Proofs Pixels_Model Init_Model Auth_Model Auth_Spec Auth_Proofs.

Lemma authenticated_app e l m : authenticated e l -> authenticated e (l ++ m).
Proof.
  intros (a & c & k & u & p & z & -> & A). exists a, c, k, u, p, (z ++ m). split; [|exact A].
  now rewrite <- app_assoc.
Qed.

Lemma before_new_snoc Q l x : before_new_client Q l -> (x = NewClient -> Q l) -> before_new_client Q (l ++ [x]).
Proof.
  intros H1 H2 p q E. apply app_snoc_inv in E as [(_ & -> & <-)|(q' & _ & E)]; [now apply H2|]. now apply (H1 p q').
Qed.

Lemma each_auth_snoc Q l x : each_auth Q l ->
  (forall c k u p a, x = AuthCalled c k u p a -> Q l c k u p a) -> each_auth Q (l ++ [x]).
Proof.
  intros H1 H2 p c k u pw a q E. apply app_snoc_inv in E as [(_ & -> & <-)|(q' & _ & E)]; [now apply H2|].
  now apply (H1 p c k u pw a q').
Qed.

Section Any.
Variable cfg : config.
Variable e : env.

Definition after_upgrade (l : list event) (k : chan) : Prop :=
  encrypted k = true /\ exists s t, In (Upgraded k s t) l.

(* what each state implies about the channel *)
Definition chan_ok (s : cstate) (k : chan) : Prop :=
  match s with
  | SVenPlain => k = Tls
  | SRsaHash | SRsaCred => k = RsaAes
  | SAppleDh => require_encryption cfg = false
  | _ => True
  end.

Definition both : Prop := require_auth cfg = true /\ require_encryption cfg = true.

Record good (c : conn) : Prop := mk_good {
  g_types : init_security_types cfg [] = Ok (types c) \/ (types c = [] /\ (st c = SVersion \/ st c = SError));
  g_chan : chan_ok (st c) (ch c);
  g_adm : require_auth cfg = true -> admitted c = true -> authenticated e (log c);
  g_new : require_auth cfg = true -> before_new_client (authenticated e) (log c);
  g_enc : require_encryption cfg = true -> each_auth (fun l k _ _ _ _ => after_upgrade l k) (log c);
  g_up : encrypted (ch c) = true -> exists s t, In (Upgraded (ch c) s t) (log c);
  g_admenc : both -> admitted c = true -> encrypted (ch c) = true;
  g_newenc : both -> before_new_client (fun l => exists l' k m, l = l' ++ [Sent k m] /\ after_upgrade l k) (log c) }.

Lemma good_ext c c' : st c' = st c -> ch c' = ch c -> types c' = types c -> log c' = log c -> good c -> good c'.
Proof.
  intros E1 E2 E3 E4 []. constructor; unfold admitted in *; rewrite ?E1, ?E2, ?E3, ?E4; auto.
Qed.

Lemma good_send c l : good c -> good (send c l).
Proof.
  intros []. unfold send, note. constructor; cbn [st ch types log]; auto.
  - intros. apply authenticated_app. auto.
  - intros. apply before_new_snoc; [auto|discriminate].
  - intros. apply each_auth_snoc; [auto|discriminate].
  - intros E. destruct (g_up0 E) as (s & t & I). exists s, t. apply in_or_app. auto.
  - intros. apply before_new_snoc; [auto|discriminate].
Qed.

(* states that claim nothing *)
Definition modest (s : cstate) : bool :=
  match s with
  | SError | SVersion | SSecurity | SVenVersion | SVenSubtype | SRsaPub | SRsaChallenge => true
  | _ => false
  end.

Lemma good_goto c s : good c ->
  (init_security_types cfg [] = Ok (types c) \/ s = SError) ->
  modest s = true -> good (goto c s).
Proof.
  intros [] T M. unfold goto. constructor; cbn [st ch types log]; auto.
  - destruct T as [T|T]; [auto|]. destruct g_types0 as [G|[G _]]; auto.
  - destruct s; try discriminate M; exact I.
  - unfold admitted. cbn [st]. destruct s; discriminate.
  - unfold admitted. cbn [st]. destruct s; discriminate.
Qed.

Lemma good_types c : good c -> st c <> SVersion -> st c <> SError -> init_security_types cfg [] = Ok (types c).
Proof. intros [] ? ?. destruct g_types0 as [G|[_ [G|G]]]; tauto. Qed.

Lemma type_none l : init_security_types cfg [] = Ok l -> existsb (fun t => t =? TYPE_NONE) l = true -> require_auth cfg = false.
Proof.
  unfold init_security_types. destruct (require_auth cfg); [|reflexivity].
  destruct (negb (has_auth_fn cfg)); [discriminate|]. intros E X.
  apply bind_ok in E as (m & E & F). apply ok_inj in E. destruct m as [|z m]; [discriminate F|].
  apply ok_inj in F. subst l. rewrite <- E in X. exfalso. clear -X.
  destruct (enable_tls cfg && tls_creds cfg), (have_crypto cfg), (require_encryption cfg); vm_compute in X; discriminate.
Qed.

Lemma type_dh l : init_security_types cfg [] = Ok l -> existsb (fun t => t =? TYPE_APPLE_DH) l = true -> require_encryption cfg = false.
Proof.
  unfold init_security_types. destruct (require_encryption cfg); [|reflexivity].
  destruct (require_auth cfg).
  - destruct (negb (has_auth_fn cfg)); [discriminate|]. intros E X.
    apply bind_ok in E as (m & E & F). apply ok_inj in E. destruct m as [|z m]; [discriminate F|].
    apply ok_inj in F. subst l. rewrite <- E in X. exfalso. clear -X.
    destruct (enable_tls cfg && tls_creds cfg), (have_crypto cfg); vm_compute in X; discriminate.
  - cbn. intros E X. apply ok_inj in E. subst l. vm_compute in X. discriminate.
Qed.

Lemma good_authenticate c used u p : good c ->
  (require_encryption cfg = true -> encrypted (ch c) = true) ->
  init_security_types cfg [] = Ok (types c) ->
  good (authenticate e c used u p).
Proof.
  intros G Ch T. unfold authenticate.
  destruct (auth_fn e (log c) u p) eqn:A; unfold security_handshake_failed, security_handshake_ok, send, note, goto;
    destruct G; cbn [st ch types log]; (constructor; cbn [st ch types log]; auto).
  - cbn. exact I.
  - intros _ _. exists (log c), (ch c). do 4 eexists. split; [|exact A].
    rewrite <- app_assoc. reflexivity.
  - intros. apply before_new_snoc; [|discriminate]. apply before_new_snoc; [auto|discriminate].
  - intros E. apply each_auth_snoc; [|discriminate]. apply each_auth_snoc; [auto|].
    intros c0 k u0 p0 a X. injection X as <- _ _ _ _. split; auto.
  - intros E. destruct (g_up0 E) as (s & t & Hin). exists s, t. apply in_or_app; left; apply in_or_app; left; exact Hin.
  - intros [_ X]. auto.
  - intros. apply before_new_snoc; [|discriminate]. apply before_new_snoc; [auto|discriminate].
  - exact I.
  - discriminate.
  - intros. apply before_new_snoc; [|discriminate]. apply before_new_snoc; [auto|discriminate].
  - intros E. apply each_auth_snoc; [|discriminate]. apply each_auth_snoc; [auto|].
    intros c0 k u0 p0 a X. injection X as <- _ _ _ _. split; auto.
  - intros E. destruct (g_up0 E) as (s & t & Hin). exists s, t. apply in_or_app; left; apply in_or_app; left; exact Hin.
  - discriminate.
  - intros. apply before_new_snoc; [|discriminate]. apply before_new_snoc; [auto|discriminate].
Qed.

Lemma good_upgrade c s k x y : good c -> init_security_types cfg [] = Ok (types c) ->
  chan_ok s k -> (forall c', st c' = s -> admitted c' = false) ->
  good (note (mk_conn s k (types c) (sha256 c) (challenge c) (pub c) (secret c) (log c)) (Upgraded k x y)).
Proof.
  intros [] T C A. unfold note. constructor; cbn [st ch types log]; auto.
  - intros _ X. rewrite A in X; [discriminate|reflexivity].
  - intros. apply before_new_snoc; [auto|discriminate].
  - intros. apply each_auth_snoc; [auto|discriminate].
  - intros _. exists x, y. apply in_or_app. right. now left.
  - intros _ X. rewrite A in X; [discriminate|reflexivity].
  - intros. apply before_new_snoc; [auto|discriminate].
Qed.

Lemma challenge_keeps c c' : rsa_aes_send_challenge e c = Ok c' ->
  st c' = st c /\ ch c' = ch c /\ types c' = types c /\ exists m, log c' = log c ++ [Sent (ch c) m].
Proof.
  unfold rsa_aes_send_challenge. destruct (pub c) as [[size n] x]. cbv zeta.
  destruct (rsa_encrypt _ _ _ _ _); intros H.
  - apply bind_ok in H as (out & _ & H). destruct (1024 <? _); [discriminate|].
    apply ok_inj in H. subst c'. cbn. eauto.
  - apply ok_inj in H. subst c'. cbn. eauto.
Qed.

Lemma good_step c b c' n : good c -> rx_ok b -> try_read cfg e c b = Ok (Some (c', n)) -> good c'.
Proof.
  intros G R H. assert (GT := good_types c G). unfold try_read in H.
  destruct (st c) eqn:S;
    try (assert (T : init_security_types cfg [] = Ok (types c)) by (apply GT; discriminate); clear GT).
  - apply taken_inj in H as [-> _]. exact G.
  - unfold on_version_message in H. destruct (avail b <? 12); [apply taken_inj in H as [-> _]; exact G|].
    destruct (negb _).
    + apply taken_inj in H as [-> _]. apply good_send, good_goto; auto.
    + apply bind_ok in H as (l & L & H). apply taken_inj in H as [-> _].
      assert (Tl : init_security_types cfg [] = Ok l).
      { destruct (types c) as [|z m] eqn:Tc; [exact L|]. apply ok_inj in L. subst l.
        destruct G. rewrite Tc in g_types0. destruct g_types0 as [G|[G _]]; [exact G|discriminate]. }
      apply good_goto; [|auto|reflexivity]. apply good_send.
      destruct G. constructor; cbn [st ch types log]; auto.
  - unfold on_security_message in H. destruct (bytes b) as [|type rest]; [apply taken_inj in H as [-> _]; exact G|].
    destruct (existsb _ _) eqn:X; cbn [negb] in H.
    2:{ apply taken_inj in H as [-> _]. apply good_send, good_goto; auto. }
    assert (RSA : forall is256 len c' n,
      (let c0 := mk_conn (st c) (ch c) (types c) is256 (repeat 0 len) (pub c) (secret c) (log c) in
       let* c1 := rsa_aes_send_public_key e c0 in Ok (Some (goto c1 SRsaPub, 1))) = Ok (Some (c', n)) -> good c').
    { intros is256 len c2 n2 H2. cbv zeta in H2. apply bind_ok in H2 as (c1 & K & H2). apply taken_inj in H2 as [-> _].
      unfold rsa_aes_send_public_key in K. destruct (server_key e) as [[l0 n0] x0].
      apply bind_ok in K as (m & _ & K). apply bind_ok in K as (q & _ & K). apply ok_inj in K. subst c1.
      apply good_goto; [|left; exact T|reflexivity]. apply good_send.
      eapply good_ext; [..|exact G]; reflexivity. }
    cbv zeta in H, RSA.
    destruct (type =? TYPE_NONE) eqn:Tn.
    { apply taken_inj in H as [-> _]. assert (type = TYPE_NONE) by lia. subst type.
      assert (NA := type_none _ T X).
      unfold security_handshake_ok, send, note, goto. destruct G.
      constructor; cbn [st ch types log]; auto; unfold both; try (intros; congruence);
        try (intros [? ?]; congruence).
      - exact I.
      - intros. apply each_auth_snoc; [auto|discriminate].
      - intros E. destruct (g_up0 E) as (s & t & Hin). exists s, t. apply in_or_app; auto. }
    destruct (enable_tls cfg && _).
    { apply taken_inj in H as [-> _]. apply good_goto; [|auto|reflexivity]. now apply good_send. }
    destruct (have_crypto cfg && (type =? TYPE_APPLE_DH)) eqn:Td.
    { assert (type = TYPE_APPLE_DH) by lia. subst type. assert (NE := type_dh _ T X).
      apply bind_ok in H as (c1 & K & H). apply taken_inj in H as [-> _].
      unfold apple_dh_send_public_key in K. cbv zeta in K. apply bind_ok in K as (m & _ & K).
      destruct (negb _); [discriminate|]. apply bind_ok in K as (q & _ & K).
      destruct (negb _); [discriminate|]. apply ok_inj in K. subst c1.
      set (c0 := mk_conn _ _ _ _ _ _ _ _). assert (G0 : good c0) by (eapply good_ext; [..|exact G]; reflexivity).
      assert (T0 : types c0 = types c) by reflexivity. clearbody c0.
      assert (G1 : good (send (send (send c0 (be 2 2 ++ be 2 256)) (fst m)) (fst q))) by (do 3 apply good_send; exact G0).
      assert (T1 : types (send (send (send c0 (be 2 2 ++ be 2 256)) (fst m)) (fst q)) = types c) by exact T0.
      revert G1 T1. generalize (send (send (send c0 (be 2 2 ++ be 2 256)) (fst m)) (fst q)). intros c1 [] T1.
      unfold goto. constructor; cbn [st ch types log]; auto; try (unfold admitted; cbn [st]; discriminate).
      rewrite T1. now left. }
    destruct (have_crypto cfg && (type =? TYPE_RSA_AES)); [now apply RSA in H|].
    destruct (have_crypto cfg && (type =? TYPE_RSA_AES256)); [now apply RSA in H|].
    apply taken_inj in H as [-> _]. apply good_send, good_goto; auto.
  - unfold on_vencrypt_version in H. destruct (bytes b) as [|x [|y r]]; try (apply taken_inj in H as [-> _]; exact G).
    destruct (negb (x =? 0) || negb (y =? 2)); apply taken_inj in H as [-> _].
    + apply good_send, good_goto; auto.
    + apply good_goto; [do 2 apply good_send; exact G|auto|reflexivity].
  - unfold on_vencrypt_subtype in H. destruct (avail b <? 4); [apply taken_inj in H as [-> _]; exact G|].
    destruct (negb _); [apply taken_inj in H as [-> _]; apply good_send, good_goto; auto|].
    cbv zeta in H. destruct (tls_accepts _ _); [|discriminate]. apply taken_inj in H as [-> _].
    apply (good_upgrade (send c [1])); [now apply good_send|exact T|reflexivity|].
    unfold admitted. intros ? ->. reflexivity.
  - unfold on_vencrypt_plain in H. destruct (avail b <? 8); [apply taken_inj in H as [-> _]; exact G|].
    cbv zeta in H. destruct (avail b <? _); apply taken_inj in H as [-> _]; [exact G|].
    apply good_authenticate; auto. intros _. destruct G. rewrite S in g_chan0. cbn in g_chan0. now rewrite g_chan0.
  - unfold apple_dh_handle_response in H. destruct (avail b <? _); apply taken_inj in H as [-> _]; [exact G|].
    apply good_authenticate; auto. destruct G. rewrite S in g_chan0. cbn in g_chan0. congruence.
  - unfold on_rsa_aes_public_key in H. destruct (avail b <? 4); [apply taken_inj in H as [-> _]; exact G|].
    cbv zeta in H. destruct (avail b <? _); [apply taken_inj in H as [-> _]; exact G|].
    apply bind_ok in H as (c1 & K & H). apply taken_inj in H as [-> _].
    apply challenge_keeps in K as (K1 & K2 & K3 & m & K4). cbn [st ch types log] in *.
    apply (good_ext (send (goto c SRsaChallenge) m)); try assumption.
    apply good_send, good_goto; auto.
  - unfold on_rsa_aes_challenge in H. destruct (avail b <? 2); [apply taken_inj in H as [-> _]; exact G|].
    cbv zeta in H. destruct (avail b <? _); [apply taken_inj in H as [-> _]; exact G|].
    destruct (rsa_decrypt _ _); [|discriminate].
    apply bind_ok in H as (s & _ & H). apply bind_ok in H as (k & _ & H). apply taken_inj in H as [-> _].
    match goal with |- good (goto (send (note _ (Upgraded RsaAes ?x ?y)) ?m) _) =>
      eapply (good_ext (send (note (mk_conn SRsaHash RsaAes (types c) (sha256 c) (challenge c) (pub c) (secret c) (log c))
               (Upgraded RsaAes x y)) m)); [reflexivity..|]
    end.
    apply good_send, good_upgrade; [exact G|exact T|reflexivity|].
    unfold admitted. intros ? ->. reflexivity.
  - unfold on_rsa_aes_client_hash in H. destruct (avail b <? _); [apply taken_inj in H as [-> _]; exact G|].
    apply bind_ok in H as (s & _ & H). apply bind_ok in H as (k & _ & H).
    destruct (list_eq_dec _ _ _); [|discriminate]. apply taken_inj in H as [-> _].
    assert (Cc : ch c = RsaAes) by (destruct G; rewrite S in g_chan0; exact g_chan0).
    assert (G1 : good (send c [1])) by now apply good_send.
    destruct G1. unfold goto. constructor; cbn [st ch types log send note] in *; auto;
      try (unfold admitted; cbn [st]; discriminate).
  - unfold on_rsa_aes_credentials in H. destruct (avail b <? 2); [apply taken_inj in H as [-> _]; exact G|].
    cbv zeta in H. destruct (avail b <? _); [apply taken_inj in H as [-> _]; exact G|].
    destruct (avail b <? _); apply taken_inj in H as [-> _]; [exact G|].
    apply good_authenticate; auto. intros _. destruct G. rewrite S in g_chan0. cbn in g_chan0. now rewrite g_chan0.
  - unfold on_init_message in H. destruct (bytes b) as [|z r]; [apply taken_inj in H as [-> _]; exact G|].
    cbv zeta in H.
    assert (G1 : good (if z =? 0 then note c OthersDisconnected else c)).
    { destruct (z =? 0); [|exact G]. destruct G. constructor; cbn [st ch types log note]; auto.
      - intros. apply authenticated_app. auto.
      - intros. apply before_new_snoc; [auto|discriminate].
      - intros. apply each_auth_snoc; [auto|discriminate].
      - intros E. destruct (g_up0 E) as (s & t & Hin). exists s, t. apply in_or_app. auto.
      - intros. apply before_new_snoc; [auto|discriminate]. }
    assert (S1 : st (if z =? 0 then note c OthersDisconnected else c) = SInit) by (destruct (z =? 0); exact S).
    revert G1 S1 H. generalize (if z =? 0 then note c OthersDisconnected else c). intros c1 G1 S1 H.
    destruct (send_server_init_message _ _) as [[m f]|]; [|discriminate]. apply taken_inj in H as [-> _].
    apply (good_send c1 m) in G1. destruct G1.
    assert (Ad : admitted (send c1 m) = true) by (unfold admitted; cbn; now rewrite S1).
    unfold goto, note. constructor; cbn [st ch types log] in *; auto.
    + destruct g_types0 as [?|[_ [X|X]]]; [now left|cbn in X; congruence..].
    + exact I.
    + intros E _. apply authenticated_app. auto.
    + intros. apply before_new_snoc; [auto|]. auto.
    + intros. apply each_auth_snoc; [auto|discriminate].
    + intros E. destruct (g_up0 E) as (s & t & Hin). exists s, t. apply in_or_app. auto.
    + intros Bo. apply before_new_snoc; [auto|]. intros _.
      exists (log c1), (ch c1), m. split; [reflexivity|]. split; [now apply g_admenc0|].
      apply g_up0. now apply g_admenc0.
  - apply taken_inj in H as [-> _]. exact G.
Qed.

Lemma good_connect cached : consistent cfg cached -> good (connect cached).
Proof.
  intros C. unfold connect. constructor; cbn [st ch types log]; try (intros; discriminate).
  - destruct C as [C|C]; [right; auto|now left].
  - exact I.
  - intros _ p q E. destruct p as [|? [|? ?]]; discriminate.
  - intros _ p c k u pw a q E. destruct p as [|? [|? ?]]; discriminate.
  - intros _ p q E. destruct p as [|? [|? ?]]; discriminate.
Qed.

Lemma good_session cached reads c b : consistent cfg cached -> Forall all_bytes reads ->
  session cfg e (connect cached, []) reads = Ok (c, b) -> good c.
Proof.
  intros C F E.
  destruct (session_inv cfg e (fun c _ => good c)) with (reads := reads) (c := connect cached) (b := @nil (bool * Z))
    (c' := c) (b' := b) as [G _]; auto.
  - intros c1 b1 c2 n G R S. now apply (good_step c1 b1 c2 n).
  - now apply good_connect.
  - constructor.
Qed.
End Any.
