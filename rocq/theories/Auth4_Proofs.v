From Verif Require Import Common CommonProofs Ws_Proofs WsStream_Proofs Pixels_Model Init_Model Auth_Model Auth_Spec Auth_Proofs Auth2_Proofs Auth3_Proofs.

Definition is_auth (x : event) : bool := match x with AuthCalled _ _ _ _ _ => true | _ => false end.
Definition calls (l : list event) : list event := filter is_auth l.

Definition awaits_credentials (s : cstate) : bool :=
  match s with SVenPlain | SAppleDh | SRsaCred => true | _ => false end.

Section Any.
Variable cfg : config.
Variable e : env.

(* what a message can do to the log *)
Lemma step_shape c b c' n : try_read cfg e c b = Ok (Some (c', n)) ->
  c' = c \/
  (st c <> SError /\ (encrypted (ch c) = true -> encrypted (ch c') = true) /\
   exists evs, log c' = log c ++ evs /\ calls evs = [] /\ (admitted c = true -> admitted c' = true)) \/
  (awaits_credentials (st c) = true /\ exists k u p, c' = authenticate e c (firstn k b) u p).
Proof.
  intros H. unfold try_read in H. destruct (st c) eqn:S.
  - left. now apply taken_inj in H as [-> _].
  - unfold on_version_message in H. destruct (avail b <? 12); [left; now apply taken_inj in H as [-> _]|].
    right; left. split; [discriminate|]. destruct (negb _).
    + apply taken_inj in H as [-> _]. split; [auto|]. eexists. split; [reflexivity|]. split; [reflexivity|].
      unfold admitted. rewrite S. discriminate.
    + apply bind_ok in H as (l & _ & H). apply taken_inj in H as [-> _]. split; [auto|].
      eexists. split; [reflexivity|]. split; [reflexivity|]. unfold admitted. rewrite S. discriminate.
  - unfold on_security_message in H. destruct (bytes b) as [|type rest]; [left; now apply taken_inj in H as [-> _]|].
    right; left. split; [discriminate|].
    assert (NA : admitted c = false) by (unfold admitted; now rewrite S). rewrite NA.
    cbv zeta in H.
    assert (RSA : forall is256 len c' n,
      (let* c1 := rsa_aes_send_public_key e (mk_conn (st c) (ch c) (types c) is256 (repeat 0 len) (pub c) (secret c) (log c)) in
       Ok (Some (goto c1 SRsaPub, 1))) = Ok (Some (c', n)) ->
      ch c' = ch c /\ exists evs, log c' = log c ++ evs /\ calls evs = []).
    { intros is256 len c2 n2 H2. apply bind_ok in H2 as (c1 & K & H2). apply taken_inj in H2 as [-> _].
      unfold rsa_aes_send_public_key in K. destruct (server_key e) as [[l0 n0] x0].
      apply bind_ok in K as (m & _ & K). apply bind_ok in K as (q & _ & K). apply ok_inj in K. subst c1.
      split; [reflexivity|]. eexists. split; reflexivity. }
    destruct (negb _).
    { apply taken_inj in H as [-> _]. split; [auto|]. eexists. split; [reflexivity|]. split; [reflexivity|discriminate]. }
    destruct (type =? TYPE_NONE).
    { apply taken_inj in H as [-> _]. split; [auto|]. eexists. split; [reflexivity|]. split; [reflexivity|discriminate]. }
    destruct (enable_tls cfg && _).
    { apply taken_inj in H as [-> _]. split; [auto|]. eexists. split; [reflexivity|]. split; [reflexivity|discriminate]. }
    destruct (have_crypto cfg && (type =? TYPE_APPLE_DH)).
    { apply bind_ok in H as (c1 & K & H). apply taken_inj in H as [-> _].
      unfold apple_dh_send_public_key in K. cbv zeta in K. apply bind_ok in K as (m & _ & K).
      destruct (negb _); [discriminate|]. apply bind_ok in K as (q & _ & K).
      destruct (negb _); [discriminate|]. apply ok_inj in K. subst c1. split; [auto|].
      exists [Sent (ch c) (be 2 2 ++ be 2 256); Sent (ch c) (fst m); Sent (ch c) (fst q)].
      split; [|split; [reflexivity|discriminate]]. cbn [log goto send note ch]. now rewrite <- !app_assoc. }
    destruct (have_crypto cfg && (type =? TYPE_RSA_AES)).
    { apply RSA in H as (-> & evs & -> & F). split; [auto|]. exists evs. split; [auto|]. split; [auto|discriminate]. }
    destruct (have_crypto cfg && (type =? TYPE_RSA_AES256)).
    { apply RSA in H as (-> & evs & -> & F). split; [auto|]. exists evs. split; [auto|]. split; [auto|discriminate]. }
    apply taken_inj in H as [-> _]. split; [auto|]. eexists. split; [reflexivity|]. split; [reflexivity|discriminate].
  - unfold on_vencrypt_version in H.
    destruct (bytes b) as [|x [|y r]]; try (left; now apply taken_inj in H as [-> _]).
    right; left. split; [discriminate|].
    assert (NA : admitted c = false) by (unfold admitted; now rewrite S). rewrite NA.
    destruct (negb (x =? 0) || negb (y =? 2)); apply taken_inj in H as [-> _]; (split; [auto|]).
    + eexists. split; [reflexivity|]. split; [reflexivity|discriminate].
    + exists [Sent (ch c) [0]; Sent (ch c) ([1] ++ be 4 X509_PLAIN)]. split; [|split; [reflexivity|discriminate]].
      cbn [log goto send note ch]. now rewrite <- app_assoc.
  - unfold on_vencrypt_subtype in H. destruct (avail b <? 4); [left; now apply taken_inj in H as [-> _]|].
    right; left. split; [discriminate|].
    assert (NA : admitted c = false) by (unfold admitted; now rewrite S). rewrite NA.
    destruct (negb _).
    + apply taken_inj in H as [-> _]. split; [auto|]. eexists. split; [reflexivity|]. split; [reflexivity|discriminate].
    + cbv zeta in H. destruct (tls_accepts _ _); [|discriminate]. apply taken_inj in H as [-> _].
      split; [auto|]. exists [Sent (ch c) [1]; Upgraded Tls [] []]. split; [|split; [reflexivity|discriminate]].
      cbn [log note send]. now rewrite <- app_assoc.
  - unfold on_vencrypt_plain in H. destruct (avail b <? 8); [left; now apply taken_inj in H as [-> _]|].
    cbv zeta in H. destruct (avail b <? _); apply taken_inj in H as [-> _]; [now left|].
    right; right. split; [reflexivity|]. eauto.
  - unfold apple_dh_handle_response in H. destruct (avail b <? _); apply taken_inj in H as [-> _]; [now left|].
    right; right. split; [reflexivity|]. eauto.
  - unfold on_rsa_aes_public_key in H. destruct (avail b <? 4); [left; now apply taken_inj in H as [-> _]|].
    cbv zeta in H. destruct (avail b <? _); [left; now apply taken_inj in H as [-> _]|].
    apply bind_ok in H as (c1 & K & H). apply taken_inj in H as [-> _].
    apply challenge_keeps in K as (K1 & K2 & K3 & m & K4). cbn [st ch types log] in *.
    right; left. split; [discriminate|]. rewrite K2. split; [auto|]. exists [Sent (ch c) m]. split; [exact K4|].
    split; [reflexivity|]. unfold admitted. rewrite S. discriminate.
  - unfold on_rsa_aes_challenge in H. destruct (avail b <? 2); [left; now apply taken_inj in H as [-> _]|].
    cbv zeta in H. destruct (avail b <? _); [left; now apply taken_inj in H as [-> _]|].
    destruct (rsa_decrypt _ _); [|discriminate].
    apply bind_ok in H as (s & _ & H). apply bind_ok in H as (k & _ & H). apply taken_inj in H as [-> _].
    right; left. split; [discriminate|]. split; [auto|].
    match goal with |- context [goto (send (note _ ?u) ?m) _] => exists [u; Sent RsaAes m] end.
    split; [cbn [log goto send note ch]; now rewrite <- app_assoc|]. split; [reflexivity|].
    unfold admitted. rewrite S. discriminate.
  - unfold on_rsa_aes_client_hash in H. destruct (avail b <? _); [left; now apply taken_inj in H as [-> _]|].
    apply bind_ok in H as (s & _ & H). apply bind_ok in H as (k & _ & H).
    destruct (list_eq_dec _ _ _); [|discriminate]. apply taken_inj in H as [-> _].
    right; left. split; [discriminate|]. split; [auto|]. eexists. split; [reflexivity|]. split; [reflexivity|].
    unfold admitted. rewrite S. discriminate.
  - unfold on_rsa_aes_credentials in H. destruct (avail b <? 2); [left; now apply taken_inj in H as [-> _]|].
    cbv zeta in H. destruct (avail b <? _); [left; now apply taken_inj in H as [-> _]|].
    destruct (avail b <? _); apply taken_inj in H as [-> _]; [now left|].
    right; right. split; [reflexivity|]. eauto.
  - unfold on_init_message in H. destruct (bytes b) as [|z r]; [left; now apply taken_inj in H as [-> _]|].
    cbv zeta in H. destruct (send_server_init_message _ _) as [[m f]|]; [|discriminate]. apply taken_inj in H as [-> _].
    right; left. split; [discriminate|].
    split; [destruct (z =? 0); auto|].
    exists ((if z =? 0 then [OthersDisconnected] else []) ++ [Sent (ch c) m; NewClient]).
    split; [|split; [destruct (z =? 0); reflexivity|reflexivity]].
    destruct (z =? 0); cbn [log goto send note ch app]; now rewrite <- !app_assoc.
  - left. now apply taken_inj in H as [-> _].
Qed.

(** ** At most one attempt per connection, and nothing after a refusal *)

Lemma calls_app a b : calls (a ++ b) = calls a ++ calls b.
Proof. apply filter_app. Qed.

Lemma calls_none evs : calls evs = [] -> forall p k cl u w a q, evs <> p ++ AuthCalled k cl u w a :: q.
Proof.
  intros F p k cl u w a q E. rewrite E, calls_app in F. apply app_eq_nil in F as [_ F]. discriminate.
Qed.

Definition refusal (k : chan) : event := Sent k (be 4 1 ++ be 4 28 ++ codes "Invalid username or password").

Record once (c : conn) : Prop := mk_once {
  o_before : admitted c = false -> st c <> SError -> calls (log c) = [];
  o_count : (length (calls (log c)) <= 1)%nat;
  o_refused : forall p k cl u w q, log c = p ++ AuthCalled k cl u w false :: q -> st c = SError /\ q = [refusal k] }.

Lemma split_app_auth l evs p k cl u w a q : calls evs = [] -> l ++ evs = p ++ AuthCalled k cl u w a :: q ->
  exists q', l = p ++ AuthCalled k cl u w a :: q' /\ q = q' ++ evs.
Proof.
  revert q. induction evs as [|x evs IH] using rev_ind; intros q F E.
  - rewrite app_nil_r in E. exists q. split; [exact E|]. now rewrite app_nil_r.
  - rewrite app_assoc in E. apply app_snoc_inv in E as [(_ & _ & <-)|(q' & -> & E)].
    + exfalso. rewrite calls_app in F. apply app_eq_nil in F as [_ F]. discriminate.
    + rewrite calls_app in F. apply app_eq_nil in F as [F _].
      apply IH in E as (q2 & E1 & ->); [|exact F]. exists q2. split; [exact E1|]. now rewrite app_assoc.
Qed.

Lemma once_step c b c' n : once c -> try_read cfg e c b = Ok (Some (c', n)) -> once c'.
Proof.
  intros O H. apply step_shape in H as [->|[(Ne & _ & evs & L & F & Ad)|(W & k & u & p & ->)]]; [exact O| |].
  - destruct O as [O1 O2 O3]. constructor.
    + intros A N. rewrite L, calls_app, F, app_nil_r.
      destruct (admitted c) eqn:Ac; [rewrite Ad in A by reflexivity; discriminate|]. now apply O1.
    + rewrite L, calls_app, F, app_nil_r. exact O2.
    + intros p k cl u w q E. rewrite L in E. apply split_app_auth in E as (q' & E & ->); [|exact F].
      apply O3 in E as [E _]. contradiction.
  - destruct O as [O1 O2 O3].
    assert (Z0 : calls (log c) = []).
    { apply O1; [|intros X; rewrite X in W; discriminate]. unfold admitted. revert W. destruct (st c); cbn; congruence. }
    destruct (authenticate_log e c (firstn k b) u p) as [L St].
    set (a := auth_fn e (log c) u p) in *. constructor.
    + intros A N. unfold admitted in A. rewrite St in A, N. destruct a; [discriminate|contradiction].
    + rewrite L, calls_app, Z0. cbn. lia.
    + intros p0 k0 cl u0 w q E. rewrite L in E. rewrite St.
      change (log c ++ ?x :: ?y) with (log c ++ ([x] ++ y)) in E. rewrite app_assoc in E.
      apply app_snoc_inv in E as [(_ & _ & E)|(q' & -> & E)]; [discriminate|].
      apply app_snoc_inv in E as [(-> & _ & E)|(q2 & _ & E)].
      * injection E as -> _ _ _ E. rewrite <- E. split; reflexivity.
      * exfalso. rewrite E, calls_app in Z0. apply app_eq_nil in Z0 as [_ Z0]. discriminate.
Qed.

Lemma once_session cached reads c b : Forall all_bytes reads ->
  session cfg e (connect cached, []) reads = Ok (c, b) -> once c.
Proof.
  intros F E.
  destruct (session_inv cfg e (fun c _ => once c)) with (reads := reads) (c := connect cached) (b := @nil (bool * Z))
    (c' := c) (b' := b) as [G _]; auto.
  - intros c1 b1 c2 n G R S. now apply (once_step c1 b1 c2 n).
  - constructor.
    + reflexivity.
    + cbn. lia.
    + intros p k cl u w q E1. cbn in E1. destruct p as [|? [|? ?]]; discriminate.
  - constructor.
Qed.

(** ** Nothing that came in the clear, if nothing was left over *)

Definition sealed (l0 : list event) (c : conn) (b : rx) : Prop :=
  encrypted (ch c) = true /\ Forall (fun x => fst x = true) b /\
  exists new, log c = l0 ++ new /\ forall k cl u p a, In (AuthCalled k cl u p a) new -> encrypted k = true /\ cl = false.

Lemma not_clear b : Forall (fun x : bool * Z => fst x = true) b -> existsb (fun x => negb (fst x)) b = false.
Proof. induction 1 as [|x b Hx _ IH]; cbn; [reflexivity|]. now rewrite Hx, IH. Qed.

Lemma sealed_step l0 c b c' n : sealed l0 c b -> try_read cfg e c b = Ok (Some (c', n)) ->
  sealed l0 c' (skipn (Z.to_nat n) b).
Proof.
  intros (E & T & new & L & A) H.
  assert (T' : Forall (fun x => fst x = true) (skipn (Z.to_nat n) b)) by now apply Forall_skipn.
  apply step_shape in H as [->|[(_ & En & evs & L' & F & _)|(W & k & u & p & ->)]].
  - repeat split; eauto.
  - split; [auto|]. split; [auto|]. exists (new ++ evs). split; [now rewrite L', L, app_assoc|].
    intros k cl u p a I. apply in_app_or in I as [I|I]; [eauto|].
    exfalso. apply in_split in I as (x & y & ->). eapply calls_none; [exact F|reflexivity].
  - destruct (authenticate_log e c (firstn k b) u p) as [L' _]. cbv zeta in L'.
    assert (Ch : ch (authenticate e c (firstn k b) u p) = ch c) by (unfold authenticate; destruct (auth_fn _ _ _ _); reflexivity).
    split; [now rewrite Ch|]. split; [auto|]. eexists. split; [rewrite L', L, <- app_assoc; reflexivity|].
    intros k0 cl u0 p0 a I. apply in_app_or in I as [I|I]; [eauto|].
    cbn [In] in I. destruct I as [I|[I|[]]]; [|discriminate]. injection I as <- <- _ _ _. split; [exact E|].
    apply not_clear. now apply Forall_firstn.
Qed.

Lemma sealed_session c reads c' b' : encrypted (ch c) = true -> Forall all_bytes reads ->
  session cfg e (c, []) reads = Ok (c', b') -> sealed (log c) c' b'.
Proof.
  intros E F H.
  destruct (session_inv cfg e (sealed (log c))) with (reads := reads) (c := c) (b := @nil (bool * Z))
    (c' := c') (b' := b') as [G _]; auto.
  - intros c1 b1 c2 n G R S. now apply (sealed_step (log c) c1 b1 c2 n).
  - intros c1 b1 l (E1 & T & X). split; [exact E1|]. split; [|exact X]. apply Forall_app. split; [exact T|].
    unfold tag. apply Forall_map. apply Forall_forall. intros x _. exact E1.
  - split; [exact E|]. split; [constructor|]. exists []. split; [now rewrite app_nil_r|]. intros ? ? ? ? ? [].
  - constructor.
Qed.
End Any.
