(** Properties of the handshake as a conversation: C118-C121. *)
From Verif Require Import Common CommonProofs Ws_Proofs WsStream_Proofs Pixels_Model Init_Model Auth_Model Auth_Spec
  Auth_Proofs Auth2_Proofs Auth3_Proofs Auth4_Proofs Auth5_Proofs Auth_Props Hand_Spec Hand_Proofs Hand2_Proofs Hand3_Proofs.

(** ** C118: the conversation is one of the protocol *)

(* After every read, everything that happened on the connection is a conversation the
   protocol allows, up to a point at which the client is to speak (or the end). *)
Theorem C118_handshake_follows_the_protocol : forall cfg e cached reads c b,
  consistent cfg cached -> Forall all_bytes reads ->
  session cfg e (connect cached, []) reads = Ok (c, b) ->
  exists p, conversation cfg (log c) p /\ waits p.
Proof.
  intros cfg e cached reads c b C F E. destruct (flows_session cfg e cached reads c b C F E) as (p & P & S).
  exists p. split; [exact P|]. destruct (st c); cbn in S; try (lazymatch type of S with _ /\ _ => destruct S as [S _] end); subst p; exact I.
Qed.
Print Assumptions C118_handshake_follows_the_protocol.

(* The application is told of a client once, as the last thing of the handshake; of
   one that was refused, never. *)
Theorem C118_announced_once_at_the_end : forall cfg e cached reads c b,
  consistent cfg cached -> Forall all_bytes reads ->
  session cfg e (connect cached, []) reads = Ok (c, b) ->
  (st c = SReady -> exists l, log c = l ++ [NewClient] /\ ~ In NewClient l) /\
  (st c <> SReady -> ~ In NewClient (log c)).
Proof.
  intros cfg e cached reads c b C F E. destruct (flows_session cfg e cached reads c b C F E) as (p & P & S). split; intros N.
  - rewrite N in S. cbn in S. subst p. now apply (conv_inside cfg).
  - apply (conv_refused cfg _ p P). intros ->. destruct (st c); cbn in S; try (lazymatch type of S with _ /\ _ => destruct S as [S _] end); congruence.
Qed.
Print Assumptions C118_announced_once_at_the_end.

(* The version of the client: 3.8 gets the security types of the configuration,
   anything else a refusal in words. *)
Theorem C118_version_is_answered : forall cfg e c b c' n,
  st c = SVersion -> init_security_types cfg [] = Ok (types c) -> 12 <= avail b ->
  try_read cfg e c b = Ok (Some (c', n)) ->
  (firstn 12 (bytes b) = greeting ->
     st c' = SSecurity /\ exists l, log c' = log c ++ [Sent (ch c) (Z.of_nat (length l) :: l)] /\
       NoDup l /\ forall t, In t l <-> offers cfg t) /\
  (firstn 12 (bytes b) <> greeting ->
     st c' = SError /\ exists m, no_types m /\ log c' = log c ++ [Sent (ch c) m]).
Proof.
  intros cfg e c b c' n S T A H. unfold try_read in H. rewrite S in H. unfold on_version_message in H.
  replace (avail b <? 12) with false in H by lia. fold greeting in H.
  destruct (list_eq_dec Z.eq_dec (firstn 12 (bytes b)) greeting) as [V|V]; cbn [negb] in H.
  - split; [|tauto]. intros _. apply bind_ok in H as (l & L & H). apply taken_inj in H as [-> _].
    assert (l = types c); [|subst l].
    { unfold init_security_types in L. destruct (types c) eqn:Tc; [|now apply ok_inj in L].
      fold (init_security_types cfg []) in L. rewrite T in L. now apply ok_inj in L. }
    destruct (offered cfg _ T) as (_ & O2 & O3). split; [reflexivity|]. exists (types c). split; [reflexivity|]. auto.
  - split; [tauto|]. intros _. apply taken_inj in H as [-> _]. split; [reflexivity|].
    eexists. split; [|reflexivity]. eexists. split; [|split; [|reflexivity]]; [discriminate|reflexivity].
Qed.
Print Assumptions C118_version_is_answered.

(* VeNCrypt: version 0.2 and the subtype X509Plain (262) lead to TLS, all others to a
   refusal; the protocol has no reason in words for the second. *)
Theorem C118_vencrypt_choices_are_checked : forall cfg e c b c' n, rx_ok b ->
  try_read cfg e c b = Ok (Some (c', n)) ->
  (st c = SVenVersion -> 2 <= avail b -> n = 2 /\
     (firstn 2 (bytes b) = [0; 2] -> st c' = SVenSubtype /\ log c' = log c ++ [Sent (ch c) [0]; Sent (ch c) (1 :: be 4 262)]) /\
     (firstn 2 (bytes b) <> [0; 2] -> st c' = SError /\ exists m, refusal m /\ log c' = log c ++ [Sent (ch c) m])) /\
  (st c = SVenSubtype -> 4 <= avail b -> n = 4 /\
     (firstn 4 (bytes b) = be 4 262 -> st c' = SVenPlain /\ ch c' = Tls /\ log c' = log c ++ [Sent (ch c) [1]; Upgraded Tls [] []]) /\
     (firstn 4 (bytes b) <> be 4 262 -> st c' = SError /\ ch c' = ch c /\ log c' = log c ++ [Sent (ch c) [0]])).
Proof.
  intros cfg e c b c' n R H. unfold try_read in H. split; intros S A; rewrite S in H.
  - unfold on_vencrypt_version in H. pose proof (bytes_length b) as L. destruct (bytes b) as [|x [|y l]]; cbn [length] in L; [lia|lia|].
    destruct (negb (x =? 0) || negb (y =? 2)) eqn:V; apply taken_inj in H as [-> ->]; (split; [reflexivity|]); cbn [firstn].
    + split; [intros [= -> ->]; discriminate|]. intros _. split; [reflexivity|]. eexists. split; [|reflexivity].
      eexists. split; [|split; [|reflexivity]]; [discriminate|reflexivity].
    + assert (x = 0 /\ y = 2) as [-> ->] by lia. split; [|intros X; now destruct X]. intros _. split; [reflexivity|].
      cbn [log goto send note ch]. rewrite <- app_assoc. reflexivity.
  - unfold on_vencrypt_subtype in H. replace (avail b <? 4) with false in H by lia.
    assert (X : unbe (firstn 4 (bytes b)) = 262 <-> firstn 4 (bytes b) = be 4 262).
    { split; [|intros ->; reflexivity]. intros X. rewrite <- X. symmetry.
      assert (L : length (firstn 4 (bytes b)) = 4%nat) by (pose proof (bytes_length b); rewrite firstn_length; lia).
      rewrite <- L at 1. apply be_unbe. apply Forall_firstn, R. }
    unfold X509_PLAIN in H. destruct (unbe (firstn 4 (bytes b)) =? 262) eqn:E; cbn [negb] in H.
    + cbv zeta in H. destruct (tls_accepts e _); [|discriminate]. apply taken_inj in H as [-> ->]. split; [reflexivity|].
      split; [|intros Y; destruct Y; apply X; lia]. intros _. split; [reflexivity|]. split; [reflexivity|].
      cbn [log goto send note ch]. rewrite <- app_assoc. reflexivity.
    + apply taken_inj in H as [-> ->]. split; [reflexivity|]. split; [intros Y; apply X in Y; lia|]. intros _. auto.
Qed.
Print Assumptions C118_vencrypt_choices_are_checked.

(* a conversation over TLS, one refused *)
Example C118_ex : exists c b c1 b1, session toy_cfg toy (connect [], []) good_reads = Ok (c, b) /\ conversation toy_cfg (log c) Inside /\
  session toy_cfg toy (connect [], []) [codes "RFB 003.003" ++ [10]] = Ok (c1, b1) /\ conversation toy_cfg (log c1) Out /\
  st c = SReady /\ st c1 = SError.
Proof.
  assert (F : Forall all_bytes good_reads) by (apply bytesbs_ok; vm_compute; reflexivity).
  destruct (session toy_cfg toy (connect [], []) good_reads) as [[c b]|] eqn:E; [|vm_compute in E; discriminate].
  destruct (session toy_cfg toy (connect [], []) [codes "RFB 003.003" ++ [10]]) as [[c1 b1]|] eqn:E1; [|vm_compute in E1; discriminate].
  destruct (flows_session toy_cfg toy [] _ c b (or_introl eq_refl) F E) as (p & P & S).
  assert (F1 : Forall all_bytes [codes "RFB 003.003" ++ [10]]) by (apply bytesbs_ok; vm_compute; reflexivity).
  destruct (flows_session toy_cfg toy [] _ c1 b1 (or_introl eq_refl) F1 E1) as (p1 & P1 & S1).
  assert (R : st c = SReady) by (vm_compute in E; injection E as <- _; reflexivity).
  assert (R1 : st c1 = SError) by (vm_compute in E1; injection E1 as <- _; reflexivity).
  rewrite R in S. rewrite R1 in S1. cbn in S, S1. subst p p1. exists c, b, c1, b1. auto 10.
Qed.
Example C118_version_ex : exists c' n, try_read toy_cfg toy (connect [19; 129; 5]) (map (pair false) hello) = Ok (Some (c', n)) /\
  init_security_types toy_cfg [] = Ok [19; 129; 5] /\ In (Sent Clear [3; 19; 129; 5]) (log c').
Proof. eexists _, _. split; [vm_compute; reflexivity|]. split; [vm_compute; reflexivity|]. find_in. Qed.

Example C118_vencrypt_ex : exists c b c' n, session toy_cfg toy (connect [], []) [hello; [19]; [0; 2]] = Ok (c, b) /\ st c = SVenSubtype /\
  try_read toy_cfg toy c (map (pair false) (be 4 261)) = Ok (Some (c', n)) /\ st c' = SError.
Proof. eexists _, _, _, _. split; [vm_compute; reflexivity|]. split; [reflexivity|]. split; [vm_compute; reflexivity|]. reflexivity. Qed.

(** ** C119: how the bytes arrive does not matter *)

(* Two ways of cutting the same bytes into reads lead to the same connection, with
   the same things sent and the same calls of the application, while the channel does
   not change (what is read before an upgrade is another matter, see C75) and all fits
   the receive buffer. *)
Theorem C119_cutting_of_reads_does_not_matter : forall cfg e c reads reads' c1 b1,
  Forall all_bytes reads -> Forall all_bytes reads' -> concat reads = concat reads' -> zlen (concat reads) <= 4096 ->
  session cfg e (c, []) reads = Ok (c1, b1) -> encrypted (ch c1) = encrypted (ch c) ->
  exists b2, session cfg e (c, []) reads' = Ok (c1, b2).
Proof.
  intros cfg e c reads reads' c1 b1 F F' C L E K.
  apply (any_pieces cfg e reads reads' c [] c1 b1); auto; [constructor|]. cbn [length]. unfold zlen in L. lia.
Qed.
Print Assumptions C119_cutting_of_reads_does_not_matter.

(* without the condition on the channel it is false: credentials sent together with
   the VeNCrypt subtype count as received in the clear (C75) *)
Theorem C119_cutting_across_the_upgrade_matters : exists reads reads' c1 b1 c2 b2,
  Forall all_bytes reads /\ Forall all_bytes reads' /\ concat reads = concat reads' /\ zlen (concat reads) <= 4096 /\
  session toy_cfg toy (connect [], []) reads = Ok (c1, b1) /\ session toy_cfg toy (connect [], []) reads' = Ok (c2, b2) /\
  log c1 <> log c2.
Proof.
  exists good_reads, [concat good_reads].
  destruct (session toy_cfg toy (connect [], []) good_reads) as [[c1 b1]|] eqn:E1; [|vm_compute in E1; discriminate].
  destruct (session toy_cfg toy (connect [], []) [concat good_reads]) as [[c2 b2]|] eqn:E2; [|vm_compute in E2; discriminate].
  exists c1, b1, c2, b2. split; [apply bytesbs_ok; vm_compute; reflexivity|].
  split; [apply bytesbs_ok; vm_compute; reflexivity|]. split; [vm_compute; reflexivity|].
  split; [vm_compute; discriminate|]. split; [reflexivity|]. split; [reflexivity|].
  vm_compute in E1, E2. injection E1 as <- _. injection E2 as <- _. cbn [log]. congruence.
Qed.
Print Assumptions C119_cutting_across_the_upgrade_matters.

Example C119_ex : exists c b, session open_cfg toy (connect [], []) [hello ++ [1]; [0; 7; 8]] = Ok (c, b) /\ st c = SReady /\
  exists b2, session open_cfg toy (connect [], []) (map (fun x => [x]) (hello ++ [1; 0; 7; 8])) = Ok (c, b2).
Proof.
  destruct (session open_cfg toy (connect [], []) [hello ++ [1]; [0; 7; 8]]) as [[c b]|] eqn:E; [|vm_compute in E; discriminate].
  exists c, b. split; [reflexivity|]. split; [vm_compute in E; now injection E as <- _|].
  apply (C119_cutting_of_reads_does_not_matter open_cfg toy (connect []) [hello ++ [1]; [0; 7; 8]] _ c b).
  - apply bytesbs_ok. vm_compute. reflexivity.
  - apply bytesbs_ok. vm_compute. reflexivity.
  - vm_compute. reflexivity.
  - vm_compute. discriminate.
  - exact E.
  - vm_compute in E. now injection E as <- _.
Qed.

(** ** C120: ClientInit *)

(* A client that does not share disconnects all others, before it gets in; one that
   shares disconnects nobody. *)
Theorem C120_shared_flag_decides : forall cfg e c flag rest c' n,
  st c = SInit -> try_read cfg e c (tag c (flag :: rest)) = Ok (Some (c', n)) ->
  n = 1 /\ st c' = SReady /\
  exists m, server_init m /\
    log c' = log c ++ (if flag =? 0 then [OthersDisconnected] else []) ++ [Sent (ch c) m; NewClient].
Proof.
  intros cfg e c flag rest c' n S H. unfold try_read in H. rewrite S in H. unfold on_init_message, tag in H.
  rewrite bytes_tag in H. cbv zeta in H.
  destruct (send_server_init_message _ _) as [[m f]|] eqn:M; [|discriminate]. apply taken_inj in H as [-> ->].
  split; [reflexivity|]. split; [reflexivity|]. exists m. split; [now apply init_shape in M|].
  destruct (flag =? 0); cbn [log goto note send ch]; now rewrite <- !app_assoc.
Qed.
Print Assumptions C120_shared_flag_decides.

(* over the whole run: others are disconnected at most once, by a client that is past
   authentication *)
Theorem C120_others_disconnected_by_admitted_clients_only : forall cfg e cached reads c b,
  consistent cfg cached -> Forall all_bytes reads ->
  session cfg e (connect cached, []) reads = Ok (c, b) ->
  In OthersDisconnected (log c) ->
  exists l k m, log c = l ++ [OthersDisconnected; Sent k m; NewClient] /\ conversation cfg l (Accepted k).
Proof.
  intros cfg e cached reads c b C F E X. destruct (flows_session cfg e cached reads c b C F E) as (p & P & S).
  assert (N : forall l q, conversation cfg l q -> (forall k, q <> Alone k) -> (forall k, q <> Told k) -> q <> Inside -> ~ In OthersDisconnected l).
  { clear. induction 1 as [|l ev q q' C IH N]; intros A T I; [intros []|]. intros X. apply in_app_or in X as [X|[->|[]]].
    - revert X. apply IH; intros; intros ->; inversion N; subst; try (now apply (T c)); try congruence.
    - inversion N. subst. now apply (A c). }
  assert (p = Inside).
  { destruct (st c); cbn in S; try (lazymatch type of S with _ /\ _ => destruct S as [S _] end); subst p; try reflexivity; exfalso; revert X; apply (N _ _ P); intros; discriminate. }
  subst p. inversion P as [|l0 ev p p' C0 N0 L0]; subst. inversion N0; subst.
  rewrite <- L0 in X. apply in_app_or in X as [X|[X|[]]]; [|discriminate].
  inversion C0 as [|l1 ev p p' C1 N1 L1]; subst. apply in_app_or in X as [X|[X|[]]].
  - inversion N1; subst.
    + exfalso. revert X. apply (N _ _ C1); intros; discriminate.
    + inversion C1 as [|l2 ev p p' C2 N2 L2]; subst. inversion N2; subst.
      eexists l2, _, _. split; [|exact C2]. rewrite <- !app_assoc. reflexivity.
  - subst ev. inversion N1.
Qed.
Print Assumptions C120_others_disconnected_by_admitted_clients_only.

Example C120_ex : exists c b, session open_cfg toy (connect [], []) [hello; [1]; [0]] = Ok (c, b) /\ In OthersDisconnected (log c) /\
  exists c' b', session open_cfg toy (connect [], []) [hello; [1]; [1]] = Ok (c', b') /\ st c' = SReady /\ length (log c') = 5%nat.
Proof.
  eexists _, _. split; [vm_compute; reflexivity|]. split; [find_in|].
  eexists _, _. split; [vm_compute; reflexivity|]. split; vm_compute; reflexivity.
Qed.

(** ** C121: keys from fresh random numbers *)

(* Whatever the client sends, the keys of an RSA-AES connection are hashes of a number
   the random generator gave for this connection, of the size of the method, drawn
   when the challenge was sent. *)
Theorem C121_keys_come_from_fresh_random_numbers : forall cfg e cached reads c b,
  random_ok e -> consistent cfg cached -> Forall all_bytes reads ->
  session cfg e (connect cached, []) reads = Ok (c, b) ->
  forall before server client after, log c = before ++ Upgraded RsaAes server client :: after ->
    fresh_keys e before server client.
Proof. intros cfg e cached reads c b RO C F E. exact (drawn_session cfg e RO cached reads c b C F E). Qed.
Print Assumptions C121_keys_come_from_fresh_random_numbers.

Definition rsa_reads : list (list Z) :=
  [hello; [5]; be 4 512 ++ be 64 (2 ^ 511 + 1) ++ be 64 65537; be 2 16 ++ repeat 9 16].
Example C121_ex : random_ok toy /\ exists c b, session toy_cfg toy (connect [], []) rsa_reads = Ok (c, b) /\
  In (Upgraded RsaAes (repeat 9 16 ++ repeat 7 4) (repeat 7 16 ++ repeat 9 4)) (log c).
Proof.
  split; [intros l n; apply repeat_length|]. eexists _, _. split; [vm_compute; reflexivity|]. find_in.
Qed.
