From Verif Require Import Common CommonProofs Ws_Proofs WsStream_Proofs RsaAes_Model RsaAes_Spec.

Lemma be_split : forall b a v, be (a + b) v = be a (v / 256 ^ Z.of_nat b) ++ be b v.
Proof.
  induction b; intros a v.
  - rewrite Nat.add_0_r. cbn [be]. rewrite app_nil_r. change (256 ^ Z.of_nat 0) with 1.
    rewrite Z.div_1_r. reflexivity.
  - rewrite Nat.add_succ_r. cbn [be]. rewrite IHb, <- app_assoc. do 2 f_equal.
    rewrite Z.div_div by lia. f_equal.
    rewrite Nat2Z.inj_succ, Z.pow_succ_r by lia. reflexivity.
Qed.

Lemma be_mod : forall n v, be n (v mod 256 ^ Z.of_nat n) = be n v.
Proof.
  induction n; intros v; [reflexivity|].
  cbn [be]. rewrite Nat2Z.inj_succ, Z.pow_succ_r by lia.
  assert (P : 0 < 256 ^ Z.of_nat n) by (apply Z.pow_pos_nonneg; lia).
  rewrite Z.rem_mul_r by lia.
  f_equal.
  - transitivity (be n ((v / 256) mod 256 ^ Z.of_nat n)); [f_equal|apply IHn].
    rewrite (Z.mul_comm 256), Z.div_add by lia.
    rewrite (Z.div_small (v mod 256)) by (apply Z.mod_pos_bound; lia). reflexivity.
  - f_equal. rewrite (Z.mul_comm 256), Z.mod_add, Z.mod_mod by lia. reflexivity.
Qed.

Definition counter_of (k : Z) : counter := (k mod 2 ^ 64, (k / 2 ^ 64) mod 2 ^ 64).

Lemma update_nonce_of : forall k, 0 <= k ->
  update_nonce (counter_of k) = (nonce_of k, counter_of (k + 1)).
Proof.
  intros k Hk. unfold update_nonce, counter_of. cbv zeta. apply f_equal2.
  - unfold nonce_of, le. rewrite <- rev_app_distr. f_equal.
    change 16%nat with (8 + 8)%nat. rewrite (be_split 8 8 k). f_equal.
    + rewrite <- (be_mod 8 (k / _)). reflexivity.
    + rewrite <- (be_mod 8 k). reflexivity.
  - rewrite Z.add_mod_idemp_l by lia. f_equal.
    set (m := 2 ^ 64) in *. assert (Hm : 0 < m) by reflexivity.
    destruct ((k + 1) mod m =? 0) eqn:E.
    + rewrite Z.add_mod_idemp_l by lia. f_equal.
      apply Z.eqb_eq in E. apply Z.mod_divide in E; [|lia]. destruct E as [q E].
      rewrite E, Z.div_mul by lia. replace k with (m - 1 + (q - 1) * m) by lia.
      rewrite Z.div_add, Z.div_small by lia. lia.
    + f_equal. pose proof (Z.div_mod (k + 1) m ltac:(lia)) as D.
      pose proof (Z.mod_pos_bound (k + 1) m Hm). 
      symmetry. apply (Z.div_unique k m _ ((k + 1) mod m - 1)); lia.
Qed.

Lemma nonce_inj : forall i j, 0 <= i < 2 ^ 128 -> 0 <= j < 2 ^ 128 ->
  nonce_of i = nonce_of j -> i = j.
Proof.
  intros i j Hi Hj E. apply (f_equal (@rev Z)) in E. unfold nonce_of, le in E.
  rewrite !rev_involutive in E. apply be_inj in E; [exact E|lia|lia].
Qed.

Section Eax.
Variable seal unseal mac : list Z -> list Z -> list Z -> list Z.

Notation decodes := (decodes unseal mac).
Notation frame := (frame seal mac).
Notation wire := (wire seal mac).
Notation send_loop := (send_loop seal mac).
Notation send := (send seal mac).
Notation send_all := (send_all seal mac).
Notation read_message := (read_message unseal mac).
Notation read_loop := (read_loop unseal mac).
Notation read := (read unseal mac).
Notation drain := (drain unseal mac).
Notation receive := (receive unseal mac).

Lemma decodes_app : forall k b ps r, decodes k b ps r ->
  forall qs r', decodes (k + Z.of_nat (length ps)) r qs r' -> decodes k b (ps ++ qs) r'.
Proof.
  induction 1; intros qs r' H'; cbn [app length] in *.
  - rewrite Z.add_0_r in H'. exact H'.
  - constructor; auto. apply IHdecodes.
    replace (k + 1 + Z.of_nat (length ps)) with (k + Z.of_nat (S (length ps))) by lia. exact H'.
Qed.

Lemma decodes_more : forall k b ps r, decodes k b ps r ->
  forall x, decodes k (b ++ x) ps (r ++ x).
Proof.
  induction 1; intros x.
  - constructor.
  - rewrite <- !app_assoc. constructor; auto.
Qed.

Lemma decodes_wire : cipher_ok seal unseal mac -> forall ms k,
  Forall (fun m => zlen m < 2 ^ 16) ms -> forall r, decodes k (wire k ms ++ r) ms r.
Proof.
  intros [Hl [Hi Hm]]. induction ms as [|m ms IH]; intros k H r.
  - constructor.
  - inversion H; subst. cbn [RsaAes_Spec.wire]. unfold RsaAes_Spec.frame.
    rewrite <- !app_assoc.
    replace (m :: ms) with (unseal (nonce_of k) (be 2 (zlen m))
      (seal (nonce_of k) (be 2 (zlen m)) m) :: ms) by (rewrite Hi; reflexivity).
    apply dec_msg.
    + apply Hl.
    + pose proof (zlen_nonneg m). lia.
    + apply IH. assumption.
Qed.

Lemma app_zlen_inj : forall (a b c d : list Z), zlen a = zlen c -> a ++ b = c ++ d -> a = c /\ b = d.
Proof.
  induction a; intros b c d L E; destruct c; unfold zlen in L; cbn [length] in L; try lia.
  - auto.
  - cbn [app] in E. inversion E; subst. destruct (IHa b c d); [unfold zlen; lia|assumption|].
    subst. auto.
Qed.

(** Full decodings are unique. *)
Lemma decodes_unique : (forall n ad m, zlen (mac n ad m) = 16) -> forall k b ps r,
  decodes k b ps r -> r = [] -> forall qs, decodes k b qs [] -> qs = ps.
Proof.
  intros Hm. induction 1; intros -> qs Q.
  - assert (W : forall b r, decodes k b qs r -> b = [] -> qs = []).
    { clear Q. intros b r Q Eb. destruct Q as [|k n text bytes ps rest L B D]; [reflexivity|].
    apply (f_equal (@length Z)) in Eb. rewrite !app_length, be_length in Eb. cbn [length] in Eb. lia. }
    eapply W; eauto.
  - remember (be 2 n ++ text ++ mac (nonce_of k) (be 2 n) text ++ bytes) as b eqn:Eb.
    remember (@nil Z) as r0 eqn:Er in Q.
    destruct Q as [k' r'|k' n' text' bytes' ps' rest' L' B' D'].
    + rewrite Er in Eb. apply (f_equal (@length Z)) in Eb. rewrite !app_length, be_length in Eb.
      cbn [length] in Eb. lia.
    + rename Eb into EQ. subst.
      apply app_zlen_inj in EQ as [E1 EQ]; [|unfold zlen; rewrite !be_length; reflexivity].
      apply be_inj in E1; [|change (256 ^ Z.of_nat 2) with (2 ^ 16); lia ..].
      apply app_zlen_inj in EQ as [E2 EQ]; [|exact E1]. subst text'.
      apply app_zlen_inj in EQ as [_ EQ]; [|rewrite !Hm; reflexivity]. subst bytes'.
      f_equal. apply IHdecodes; auto.
Qed.

(** Sending. *)
Lemma get_sub : forall b o n, 0 <= o -> 0 <= n -> o + n <= zlen b ->
  get b o n = Ok (firstn (Z.to_nat n) (skipn (Z.to_nat o) b)).
Proof.
  intros b o n H1 H2 H3. unfold get, zlen in *. replace (_ && _ && _) with true by lia. reflexivity.
Qed.

Lemma zlen_firstn : forall n (l : list Z), 0 <= n <= zlen l -> zlen (firstn (Z.to_nat n) l) = n.
Proof. intros n l H. unfold zlen in *. rewrite firstn_length. lia. Qed.

Lemma send_loop_wire : forall n i payload k, 0 <= i -> 0 <= k ->
  (Z.of_nat n = (zlen payload + BUFSIZE - 1) / BUFSIZE - i) ->
  exists chunks,
    send_loop n i payload (counter_of k) =
      Ok (counter_of (k + Z.of_nat (length chunks)), wire k chunks) /\
    concat chunks = skipn (Z.to_nat (i * BUFSIZE)) payload /\
    Forall (fun c => 0 < zlen c <= BUFSIZE) chunks.
Proof.
  induction n; intros i payload k Hi Hk Hn; unfold BUFSIZE in *.
  - exists []. cbn [RsaAes_Model.send_loop RsaAes_Spec.wire length concat]. rewrite Z.add_0_r.
    split; [reflexivity|]. split; [|constructor].
    symmetry. apply skipn_all2. unfold zlen in Hn.
    pose proof (Z.div_mod (Z.of_nat (length payload) + 8192 - 1) 8192).
    pose proof (Z.mod_pos_bound (Z.of_nat (length payload) + 8192 - 1) 8192). lia.
  - assert (Hlt : 0 < zlen payload - i * 8192).
    { pose proof (Z.div_mod (zlen payload + 8192 - 1) 8192).
      pose proof (Z.mod_pos_bound (zlen payload + 8192 - 1) 8192). lia. }
    destruct (IHn (i + 1) payload (k + 1)) as [chunks [E [C F]]]; [lia|lia|lia|].
    set (m := firstn (Z.to_nat (Z.min (zlen payload - i * 8192) 8192))
                     (skipn (Z.to_nat (i * 8192)) payload)).
    assert (Lm : zlen m = Z.min (zlen payload - i * 8192) 8192).
    { apply zlen_firstn. unfold zlen in *. rewrite skipn_length. lia. }
    exists (m :: chunks). split; [|split].
    + cbn [RsaAes_Model.send_loop]. unfold BUFSIZE.
      rewrite get_sub by lia. fold m. cbn [bind]. unfold encrypt.
      rewrite update_nonce_of by lia. rewrite E. cbn [bind fst snd length].
      rewrite Z.mod_small by (change (2 ^ 16) with 65536; lia). rewrite <- Lm.
      cbn [RsaAes_Spec.wire]. unfold RsaAes_Spec.frame. rewrite <- !app_assoc.
      replace (k + Z.of_nat (S (length chunks))) with (k + 1 + Z.of_nat (length chunks)) by lia.
      reflexivity.
    + cbn [concat]. rewrite C. unfold m.
      rewrite <- (firstn_skipn (Z.to_nat (Z.min (zlen payload - i * 8192) 8192))
                   (skipn (Z.to_nat (i * 8192)) payload)) at 2.
      f_equal. rewrite skipn_skipn.
      destruct (Z.min_spec (zlen payload - i * 8192) 8192) as [[A B]|[A B]]; rewrite B.
      * rewrite !skipn_all2; [reflexivity| |]; unfold zlen in *; lia.
      * f_equal. lia.
    + constructor; [lia|assumption].
Qed.

Lemma send_wire : forall payload k, 0 <= k -> exists chunks,
  send payload (counter_of k) = Ok (counter_of (k + Z.of_nat (length chunks)), wire k chunks) /\
  concat chunks = payload /\ Forall (fun c => 0 < zlen c <= BUFSIZE) chunks.
Proof.
  intros payload k Hk.
  destruct (send_loop_wire (Z.to_nat ((zlen payload + BUFSIZE - 1) / BUFSIZE)) 0 payload k)
    as [chunks [E [C F]]]; [lia|lia| |].
  - rewrite Z2Nat.id; [lia|]. apply Z.div_pos; [|reflexivity].
    pose proof (zlen_nonneg payload). unfold BUFSIZE. lia.
  - exists chunks. auto.
Qed.

Lemma wire_app : forall a b k, wire k (a ++ b) = wire k a ++ wire (k + Z.of_nat (length a)) b.
Proof.
  induction a; intros b k; cbn [app RsaAes_Spec.wire length].
  - f_equal. lia.
  - rewrite IHa, <- app_assoc. do 3 f_equal. lia.
Qed.

Lemma send_all_wire : forall payloads k, 0 <= k -> exists chunks,
  send_all payloads (counter_of k) = Ok (counter_of (k + Z.of_nat (length chunks)), wire k chunks) /\
  concat chunks = concat payloads /\ Forall (fun c => 0 < zlen c <= BUFSIZE) chunks.
Proof.
  induction payloads as [|p ps IH]; intros k Hk.
  - exists []. cbn. rewrite Z.add_0_r. repeat split. constructor.
  - destruct (send_wire p k Hk) as [c1 [E1 [C1 F1]]].
    destruct (IH (k + Z.of_nat (length c1))) as [c2 [E2 [C2 F2]]]; [lia|].
    exists (c1 ++ c2). cbn [RsaAes_Model.send_all]. rewrite E1. cbn [bind fst snd].
    rewrite E2. cbn [bind fst snd]. rewrite wire_app, app_length, concat_app. cbn [concat].
    rewrite C1, C2. split; [|split; [reflexivity|]].
    + rewrite Nat2Z.inj_add, Z.add_assoc. reflexivity.
    + apply Forall_app. auto.
Qed.

(** Receiving: whatever arrives, only authentic messages are delivered. *)
Lemma read_message_ok : forall s size k, 0 <= k -> rcnt s = counter_of k -> all_bytes (rbuf s) ->
  (exists s', read_message s size = Ok (s', MNone) /\ s' = s) \/
  (exists s', read_message s size = Ok (s', MBad)) \/
  (exists s' d, read_message s size = Ok (s', MData d) /\
     decodes k (rbuf s) [d] (rbuf s') /\ rcnt s' = counter_of (k + 1) /\
     rclosed s' = rclosed s /\ (length (rbuf s') < length (rbuf s))%nat).
Proof.
  intros s size k Hk Hc Hb. unfold RsaAes_Model.read_message.
  destruct (parse_header s) as [len|] eqn:E; [|left; eauto].
  unfold parse_header in E.
  destruct (zlen (rbuf s) <=? 2) eqn:E1; [discriminate|].
  destruct (zlen (rbuf s) <? 2 + 16 + unbe (firstn 2 (rbuf s))) eqn:E2; [discriminate|].
  assert (L2 : length (firstn 2 (rbuf s)) = 2%nat)
    by (rewrite firstn_length; unfold zlen in *; lia).
  assert (EL : unbe (firstn 2 (rbuf s)) = len) by congruence. rewrite EL in E2. clear E.
  assert (B : 0 <= len < 2 ^ 16).
  { rewrite <- EL. pose proof (unbe_bound (firstn 2 (rbuf s)) (Forall_firstn _ _ _ _ Hb)) as U.
    rewrite L2 in U. exact U. }
  assert (H2 : be 2 len = firstn 2 (rbuf s)).
  { rewrite <- EL. rewrite <- L2 at 1. apply be_unbe. apply Forall_firstn. exact Hb. }
  assert (LL : 18 + len <= zlen (rbuf s)) by lia. clear E2.
  destruct (size <? len); [left; eauto|]. right.
  rewrite get_sub by lia. cbn [bind]. unfold decrypt. rewrite Hc, update_nonce_of by lia.
  rewrite get_sub by lia. cbn [bind].
  set (text := firstn (Z.to_nat len) (skipn (Z.to_nat 2) (rbuf s))).
  set (actual := firstn (Z.to_nat 16) (skipn (Z.to_nat (2 + len)) (rbuf s))).
  destruct (list_eq_dec Z.eq_dec (mac (nonce_of k) (be 2 len) text) actual) as [M|M]; [|left; eauto].
  right. eexists _, _. split; [reflexivity|]. cbn [rbuf rcnt rclosed]. repeat split.
  - assert (S : rbuf s = be 2 len ++ text ++ mac (nonce_of k) (be 2 len) text
                         ++ skipn (Z.to_nat (2 + 16 + len)) (rbuf s)).
    { rewrite M, H2. unfold text, actual.
      rewrite <- (firstn_skipn 2 (rbuf s)) at 1. f_equal.
      change (Z.to_nat 2) with 2%nat.
      rewrite <- (firstn_skipn (Z.to_nat len) (skipn 2 (rbuf s))) at 1. f_equal.
      rewrite skipn_skipn.
      replace (Z.to_nat len + 2)%nat with (Z.to_nat (2 + len)) by lia.
      rewrite <- (firstn_skipn (Z.to_nat 16) (skipn (Z.to_nat (2 + len)) (rbuf s))) at 1. f_equal.
      rewrite skipn_skipn. f_equal. lia. }
    rewrite S at 1. constructor; [|lia|constructor].
    unfold text. apply zlen_firstn. unfold zlen in *. rewrite skipn_length. lia.
  - rewrite skipn_length. unfold zlen in *. lia.
Qed.

Lemma decodes_bytes : forall k b ps r, decodes k b ps r -> all_bytes b -> all_bytes r.
Proof.
  induction 1; intros B; [exact B|].
  apply IHdecodes. apply Forall_app in B as [_ B]. apply Forall_app in B as [_ B].
  apply Forall_app in B as [_ B]. exact B.
Qed.

Lemma decodes_len : forall k b ps r, decodes k b ps r -> (length r <= length b)%nat.
Proof. induction 1; [lia|]. rewrite !app_length. lia. Qed.

Lemma read_loop_auth : forall fuel s size acc k, 0 <= k -> rcnt s = counter_of k ->
  all_bytes (rbuf s) -> (length (rbuf s) < fuel)%nat ->
  exists s' r, read_loop fuel s size acc = Ok (s', r) /\
    match r with
    | RErr => True
    | RGot d => exists ps, d = acc ++ concat ps /\ decodes k (rbuf s) ps (rbuf s') /\
        rcnt s' = counter_of (k + Z.of_nat (length ps)) /\ rclosed s' = rclosed s
    end.
Proof.
  induction fuel; intros s size acc k Hk Hc Hb Hf; [lia|]. cbn [RsaAes_Model.read_loop].
  destruct (read_message_ok s size k Hk Hc Hb) as [[s' [E ->]]|[[s' E]|[s' [d [E [D [C' [R L]]]]]]]];
    rewrite E; cbn [bind].
  - eexists _, _. split; [reflexivity|]. exists []. cbn. rewrite app_nil_r, Z.add_0_r.
    repeat split; auto. constructor.
  - eexists _, _. split; [reflexivity|exact I].
  - destruct d as [|x d].
    + eexists _, _. split; [reflexivity|]. exists [[]]. cbn [concat app length]. rewrite !app_nil_r.
      repeat split; auto.
    + destruct (IHfuel s' (size - zlen (x :: d)) (acc ++ x :: d) (k + 1)) as [s2 [r [E2 H2]]];
        [lia|exact C'|eapply decodes_bytes; eauto|lia|].
      rewrite E2. eexists _, _. split; [reflexivity|].
      destruct r as [d2|]; [|exact I]. destruct H2 as [ps [-> [D2 [C2 R2]]]].
      exists ((x :: d) :: ps). cbn [concat]. rewrite <- app_assoc. split; [reflexivity|].
      split; [|split; [|congruence]].
      * change ((x :: d) :: ps) with ([x :: d] ++ ps). eapply decodes_app; eauto.
      * rewrite C2. cbn [length]. f_equal. lia.
Qed.

(** The state after part of the stream, [got] being all the bytes so far. *)
Definition inv (got : list Z) (s : rstate) (d : list Z) : Prop :=
  exists ps, d = concat ps /\ decodes 0 got ps (rbuf s) /\
    rcnt s = counter_of (Z.of_nat (length ps)) /\ rclosed s = false /\ zlen (rbuf s) <= BUFSIZE.

Lemma decodes_prefix : forall k b ps r x, decodes k b ps r -> exists r', decodes k (b ++ x) ps r'.
Proof. intros. eexists. eapply decodes_more. eassumption. Qed.

Lemma drain_auth : forall fuel s size avail got d, all_bytes got -> all_bytes avail ->
  (length avail < fuel)%nat -> inv got s d ->
  exists s' d' ok, drain fuel s size avail = Ok (s', d', ok) /\
    if ok then inv (got ++ avail) s' (d ++ d')
    else exists ps rest, d ++ d' = concat ps /\ decodes 0 (got ++ avail) ps rest.
Proof.
  induction fuel; intros s size avail got d Hg Ha Hf [ps [-> [D [C [R L]]]]]; [lia|].
  cbn [RsaAes_Model.drain]. destruct avail as [|a avail0].
  { eexists _, _, _. split; [reflexivity|]. cbn iota. rewrite !app_nil_r.
    exists ps. auto. }
  set (avail := a :: avail0) in *.
  assert (LA : length avail = S (length avail0)) by reflexivity.
  unfold RsaAes_Model.read, read_into_buffer.
  destruct (BUFSIZE - zlen (rbuf s) =? 0) eqn:ER.
  { cbn [rclosed bind]. eexists _, _, _. split; [reflexivity|]. cbn iota. rewrite app_nil_r.
    exists ps. eexists. split; [reflexivity|]. eapply decodes_more; eauto. }
  set (n := Z.to_nat (BUFSIZE - zlen (rbuf s))).
  cbn [rclosed]. rewrite R.
  set (s1 := mk_r (rbuf s ++ firstn n avail) (rcnt s) false).
  assert (Hn : (0 < n)%nat) by (unfold n; lia).
  pose proof (decodes_more _ _ _ _ D (firstn n avail)) as D1.
  assert (Hb1 : all_bytes (got ++ firstn n avail))
    by (apply Forall_app; split; [assumption|apply Forall_firstn; assumption]).
  destruct (read_loop_auth (S (length (rbuf s1))) s1 size [] (Z.of_nat (length ps)))
    as [s2 [r [E H]]]; [lia|exact C| |lia|].
  { eapply decodes_bytes; eauto. }
  rewrite E. cbn [bind fst snd].
  destruct r as [d1|].
  - destruct H as [ps1 [-> [D2 [C2 R2]]]]. rewrite R2. unfold s1 at 1. cbn [rclosed].
    assert (D3 : decodes 0 (got ++ firstn n avail) (ps ++ ps1) (rbuf s2))
      by (eapply decodes_app; eauto).
    destruct (IHfuel s2 size (skipn n avail) (got ++ firstn n avail) (concat ps ++ concat ps1))
      as [s3 [d3 [ok [E3 H3]]]].
    + exact Hb1.
    + apply Forall_skipn. assumption.
    + rewrite skipn_length. lia.
    + exists (ps ++ ps1). rewrite concat_app. repeat split; auto.
      * rewrite C2. rewrite app_length. f_equal. lia.
      * apply decodes_len in D2. unfold s1 in D2. cbn [rbuf] in D2.
        rewrite app_length in D2.
        pose proof (firstn_le_length n avail) as FL. unfold zlen in *.
        assert (Z.of_nat (length (firstn n avail)) <= BUFSIZE - Z.of_nat (length (rbuf s)))
          by (rewrite firstn_length; unfold n; lia).
        lia.
    + rewrite E3. cbn [bind]. eexists _, _, _. split; [reflexivity|].
      rewrite <- !app_assoc, (firstn_skipn n avail) in H3. rewrite (app_nil_l (concat ps1)).
      exact H3.
  - eexists _, _, _. split; [reflexivity|]. cbn iota. rewrite app_nil_r.
    exists ps. eexists. split; [reflexivity|]. eapply decodes_more; eauto.
Qed.

Lemma receive_auth : forall segs s size got d, all_bytes got -> Forall all_bytes segs ->
  inv got s d ->
  exists s' d' ok, receive s size segs = Ok (s', d', ok) /\
    if ok then inv (got ++ concat segs) s' (d ++ d')
    else exists ps rest, d ++ d' = concat ps /\ decodes 0 (got ++ concat segs) ps rest.
Proof.
  induction segs as [|seg segs IH]; intros s size got d Hg Hs I; cbn [RsaAes_Model.receive].
  - eexists _, _, _. split; [reflexivity|]. cbn iota. cbn [concat]. rewrite !app_nil_r. exact I.
  - inversion Hs; subst.
    destruct (drain_auth (S (length seg)) s size seg got d) as [s1 [d1 [ok [E H]]]];
      [assumption|assumption|lia|assumption|].
    rewrite E. cbn [bind]. destruct ok.
    + destruct (IH s1 size (got ++ seg) (d ++ d1)) as [s2 [d2 [ok [E2 HH]]]];
        [apply Forall_app; auto|assumption|assumption|].
      rewrite E2. cbn [bind]. eexists _, _, _. split; [reflexivity|].
      cbn [concat]. rewrite (app_assoc d), (app_assoc got). exact HH.
    + eexists _, _, _. split; [reflexivity|]. cbn iota. destruct H as [ps [rest [E3 D3]]].
      exists ps. eexists. split; [exact E3|]. cbn [concat]. rewrite app_assoc.
      eapply decodes_more; eauto.
Qed.

Lemma inv0 : inv [] rstate0 [].
Proof.
  exists []. cbn. repeat split; try reflexivity; try constructor. unfold BUFSIZE. lia.
Qed.

(** Progress. *)
Hypothesis cipher : cipher_ok seal unseal mac.

Definition good (m : list Z) : Prop := 0 < zlen m <= BUFSIZE - 18.

Lemma frame_len : forall k m, zlen (frame k m) = 18 + zlen m.
Proof.
  intros k m. destruct cipher as [Hl [_ Hm]]. unfold RsaAes_Spec.frame.
  rewrite !zlen_app, Hl, Hm. unfold zlen at 1. rewrite be_length. lia.
Qed.

(** A buffer that starts with a whole frame. *)
Lemma read_message_frame : forall s size k m rest, 0 <= k -> rcnt s = counter_of k ->
  rbuf s = frame k m ++ rest -> zlen m < 2 ^ 16 -> zlen m <= size ->
  read_message s size = Ok (mk_r rest (counter_of (k + 1)) (rclosed s), MData m).
Proof.
  intros s size k m rest Hk Hc Hb Hm Hs.
  assert (L : zlen (rbuf s) = 18 + zlen m + zlen rest) by (rewrite Hb, zlen_app, frame_len; lia).
  pose proof (zlen_nonneg m). pose proof (zlen_nonneg rest).
  destruct cipher as [Hl [Hi Ht]].
  unfold RsaAes_Model.read_message, parse_header.
  set (ad := be 2 (zlen m)) in *. set (text := seal (nonce_of k) ad m) in *.
  assert (Had : zlen ad = 2) by (unfold zlen, ad; rewrite be_length; reflexivity).
  assert (Htx : zlen text = zlen m) by apply Hl.
  assert (Hb' : rbuf s = ad ++ text ++ mac (nonce_of k) ad text ++ rest).
  { rewrite Hb. unfold RsaAes_Spec.frame. fold ad. fold text. rewrite <- !app_assoc. reflexivity. }
  replace (zlen (rbuf s) <=? 2) with false by lia.
  assert (F2 : firstn 2 (rbuf s) = ad) by (rewrite Hb'; apply firstn_app_eq; apply be_length).
  rewrite F2. unfold ad at 1 2. rewrite unbe_be by (cbn; lia).
  replace (zlen (rbuf s) <? 2 + 16 + zlen m) with false by lia.
  replace (size <? zlen m) with false by lia.
  assert (G1 : get (rbuf s) 2 (zlen m) = Ok text).
  { rewrite Hb', <- Htx, <- Had. apply get_mid. }
  rewrite G1. cbn [bind]. unfold decrypt. rewrite Hc, update_nonce_of by lia.
  assert (G2 : get (rbuf s) (2 + zlen m) 16 = Ok (mac (nonce_of k) ad text)).
  { rewrite Hb', app_assoc. replace (2 + zlen m) with (zlen (ad ++ text)) by (rewrite zlen_app; lia).
    rewrite <- (Ht (nonce_of k) ad text) at 1. apply get_mid. }
  rewrite G2. cbn [bind]. fold ad.
  destruct (list_eq_dec Z.eq_dec (mac (nonce_of k) ad text) (mac (nonce_of k) ad text)) as [_|N];
    [|congruence].
  do 3 f_equal.
  - rewrite Hb. apply skipn_app_eq. pose proof (frame_len k m) as FL. unfold zlen in *. lia.
  - unfold text. apply Hi.
Qed.

Lemma prefix_cases : forall (a b c d : list Z), a ++ b = c ++ d ->
  (exists x, a = c ++ x /\ d = x ++ b) \/ (zlen a < zlen c).
Proof.
  intros a b c d E. destruct (Z_lt_le_dec (zlen a) (zlen c)) as [H|H]; [right; exact H|left].
  exists (skipn (length c) a).
  assert (F : firstn (length c) (a ++ b) = c) by (rewrite E; apply firstn_app_exact).
  assert (S : skipn (length c) (a ++ b) = d) by (rewrite E; apply skipn_app_exact).
  unfold zlen in H. rewrite firstn_app in F. rewrite skipn_app in S.
  replace (length c - length a)%nat with 0%nat in * by lia. cbn [firstn skipn] in *.
  rewrite app_nil_r in F. split; [|congruence].
  rewrite <- (firstn_skipn (length c) a) at 1. congruence.
Qed.

(** [rest] are the messages still to come, and the first is incomplete. *)
Definition waiting (k : Z) (buf : list Z) (rest : list (list Z)) : Prop :=
  match rest with [] => buf = [] | m :: _ => zlen buf < zlen (frame k m) end.

Lemma read_loop_progress : forall ms fuel s size acc k future, 0 <= k -> rcnt s = counter_of k ->
  Forall good ms -> rbuf s ++ future = wire k ms -> (length (rbuf s) < fuel)%nat ->
  zlen (rbuf s) <= size + 18 -> 0 <= size ->
  exists s' dn rest, read_loop fuel s size acc = Ok (s', RGot (acc ++ concat dn)) /\
    ms = dn ++ rest /\ rcnt s' = counter_of (k + Z.of_nat (length dn)) /\
    rclosed s' = rclosed s /\ rbuf s' ++ future = wire (k + Z.of_nat (length dn)) rest /\
    waiting (k + Z.of_nat (length dn)) (rbuf s') rest.
Proof.
  induction ms as [|m ms IH]; intros fuel s size acc k future Hk Hc Hg Hw Hf Hs Hsz;
    (destruct fuel; [lia|]); cbn [RsaAes_Model.read_loop].
  - cbn in Hw. apply app_eq_nil in Hw as [Hb ->].
    unfold RsaAes_Model.read_message, parse_header. rewrite Hb. cbn [zlen length Z.of_nat Z.leb].
    replace (zlen [] <=? 2) with true by reflexivity. cbn [bind].
    exists s, [], []. cbn. rewrite app_nil_r, Z.add_0_r. rewrite Hb. repeat split; auto.
  - inversion Hg as [|? ? Gm Gms]; subst. unfold good, BUFSIZE in Gm. cbn [RsaAes_Spec.wire] in Hw.
    destruct (prefix_cases _ _ _ _ Hw) as [[x [Ex Ed]]|Short].
    + assert (Hx : zlen (rbuf s) = 18 + zlen m + zlen x) by (rewrite Ex, zlen_app, frame_len; lia).
      pose proof (zlen_nonneg x).
      rewrite (read_message_frame s size k m x) by (auto; lia). cbn [bind].
      destruct m as [|b m0]; [cbn in Gm; lia|]. set (m := b :: m0) in *.
      destruct (IH fuel (mk_r x (counter_of (k + 1)) (rclosed s)) (size - zlen m) (acc ++ m) (k + 1)
                 future) as [s' [dn [rest [E [A [B [R [C D]]]]]]]]; cbn [rbuf rcnt rclosed] in *;
        [lia|reflexivity|assumption|congruence| | |lia|].
      * unfold zlen in *. lia.
      * lia.
      * exists s', (m :: dn), rest. rewrite E. cbn [concat app length]. rewrite <- app_assoc.
        replace (k + Z.of_nat (S (length dn))) with (k + 1 + Z.of_nat (length dn)) by lia.
        rewrite A. repeat split; auto.
    + exists s, [], (m :: ms). cbn [concat app length]. rewrite app_nil_r, Z.add_0_r.
      assert (E : read_message s size = Ok (s, MNone)).
      { unfold RsaAes_Model.read_message, parse_header.
        destruct (zlen (rbuf s) <=? 2) eqn:E2; [reflexivity|].
        assert (F2 : firstn 2 (rbuf s) = be 2 (zlen m)).
        { assert (F : firstn 2 (rbuf s ++ future) = be 2 (zlen m)).
          { rewrite Hw. unfold RsaAes_Spec.frame. rewrite <- app_assoc.
            apply firstn_app_eq. apply be_length. }
          rewrite firstn_app in F. unfold zlen in E2.
          replace (2 - length (rbuf s))%nat with 0%nat in F by lia.
          cbn [firstn] in F. rewrite app_nil_r in F. exact F. }
        rewrite F2, unbe_be by (cbn; lia). rewrite frame_len in Short.
        replace (zlen (rbuf s) <? 2 + 16 + zlen m) with true by lia. reflexivity. }
      rewrite E. cbn [bind]. repeat split; auto.
Qed.

Lemma waiting_room : forall k buf rest, Forall good rest -> waiting k buf rest -> zlen buf < BUFSIZE.
Proof.
  intros k buf rest G W. destruct rest as [|m rest]; cbn [waiting] in W.
  - subst. reflexivity.
  - inversion G; subst. unfold good in *. rewrite frame_len in W. lia.
Qed.

Lemma drain_progress : forall fuel s size avail k ms future, 0 <= k -> rcnt s = counter_of k ->
  rclosed s = false -> Forall good ms -> waiting k (rbuf s) ms ->
  (rbuf s ++ avail) ++ future = wire k ms -> (length avail < fuel)%nat -> BUFSIZE - 18 <= size ->
  exists s' dn rest, drain fuel s size avail = Ok (s', concat dn, true) /\
    ms = dn ++ rest /\ rcnt s' = counter_of (k + Z.of_nat (length dn)) /\
    rclosed s' = false /\ rbuf s' ++ future = wire (k + Z.of_nat (length dn)) rest /\
    waiting (k + Z.of_nat (length dn)) (rbuf s') rest.
Proof.
  induction fuel; intros s size avail k ms future Hk Hc Hcl Hg Hwt Hw Hf Hs; [lia|].
  cbn [RsaAes_Model.drain]. destruct avail as [|a avail0].
  { exists s, [], ms. cbn [concat app length]. rewrite Z.add_0_r. rewrite app_nil_r in Hw.
    repeat split; auto. }
  set (avail := a :: avail0) in *.
  assert (LA : length avail = S (length avail0)) by reflexivity.
  pose proof (waiting_room _ _ _ Hg Hwt) as Room.
  unfold RsaAes_Model.read, read_into_buffer.
  replace (BUFSIZE - zlen (rbuf s) =? 0) with false by lia.
  set (n := Z.to_nat (BUFSIZE - zlen (rbuf s))).
  cbn [rclosed]. rewrite Hcl.
  assert (Hn : (0 < n)%nat) by (unfold n; lia).
  set (s1 := mk_r (rbuf s ++ firstn n avail) (rcnt s) false).
  destruct (read_loop_progress ms (S (length (rbuf s1))) s1 size [] k (skipn n avail ++ future))
    as [s2 [d1 [r1 [E [A [B [R [C D]]]]]]]]; [assumption|exact Hc|assumption| |lia| | |].
  - unfold s1. cbn [rbuf]. rewrite <- Hw, <- !app_assoc. f_equal.
    rewrite app_assoc, firstn_skipn. reflexivity.
  - unfold s1. cbn [rbuf]. rewrite zlen_app. unfold zlen at 2. rewrite firstn_length.
    pose proof (zlen_nonneg (rbuf s)). unfold n. lia.
  - unfold BUFSIZE in Hs. lia.
  - rewrite E. cbn [bind fst snd]. unfold s1 in R. cbn [rclosed] in R. rewrite R.
    rewrite A in Hg. apply Forall_app in Hg as [_ Hg1].
    destruct (IHfuel s2 size (skipn n avail) (k + Z.of_nat (length d1)) r1 future)
      as [s3 [d2 [r2 [E2 [A2 [B2 [R2 [C2 D2]]]]]]]]; try assumption; [lia| | |].
    + rewrite <- app_assoc. exact C.
    + rewrite skipn_length. lia.
    + exists s3, (d1 ++ d2), r2. rewrite E2. cbn [bind]. rewrite concat_app, app_length.
      rewrite Nat2Z.inj_add, Z.add_assoc. rewrite A, A2, app_assoc. rewrite app_nil_l.
      repeat split; auto.
Qed.

Lemma receive_progress : forall segs s size k ms future, 0 <= k -> rcnt s = counter_of k ->
  rclosed s = false -> Forall good ms -> waiting k (rbuf s) ms ->
  (rbuf s ++ concat segs) ++ future = wire k ms -> BUFSIZE - 18 <= size ->
  exists s' dn rest, receive s size segs = Ok (s', concat dn, true) /\
    ms = dn ++ rest /\ rcnt s' = counter_of (k + Z.of_nat (length dn)) /\
    rclosed s' = false /\ rbuf s' ++ future = wire (k + Z.of_nat (length dn)) rest /\
    waiting (k + Z.of_nat (length dn)) (rbuf s') rest.
Proof.
  induction segs as [|seg segs IH]; intros s size k ms future Hk Hc Hcl Hg Hwt Hw Hs;
    cbn [RsaAes_Model.receive].
  { exists s, [], ms. cbn [concat app length] in *. rewrite Z.add_0_r. rewrite app_nil_r in Hw.
    repeat split; auto. }
  cbn [concat] in Hw.
  destruct (drain_progress (S (length seg)) s size seg k ms (concat segs ++ future))
    as [s2 [d1 [r1 [E [A [B [R [C D]]]]]]]]; try assumption; [|lia|].
  { rewrite <- Hw, <- !app_assoc. reflexivity. }
  rewrite E. cbn [bind]. rewrite A in Hg. apply Forall_app in Hg as [_ Hg1].
  destruct (IH s2 size (k + Z.of_nat (length d1)) r1 future)
    as [s3 [d2 [r2 [E2 [A2 [B2 [R2 [C2 D2]]]]]]]]; try assumption; [lia| |].
  { rewrite <- app_assoc. exact C. }
  exists s3, (d1 ++ d2), r2. rewrite E2. cbn [bind]. rewrite concat_app, app_length.
  rewrite Nat2Z.inj_add, Z.add_assoc. rewrite A, A2, app_assoc. repeat split; auto.
Qed.

Lemma receive_messages : forall segs size ms future, Forall good ms ->
  concat segs ++ future = wire 0 ms -> BUFSIZE - 18 <= size ->
  exists s dn rest, receive rstate0 size segs = Ok (s, concat dn, true) /\ ms = dn ++ rest /\
    match rest with
    | [] => future = []
    | m :: _ => zlen (concat segs) < zlen (wire 0 (dn ++ [m]))
    end.
Proof.
  intros segs size ms future Hg Hw Hs.
  destruct (receive_progress segs rstate0 size 0 ms future)
    as [s [dn [rest [E [A [B [R [C D]]]]]]]]; try assumption; try reflexivity; try lia.
  { destruct ms as [|m ms]; [reflexivity|]. cbn [waiting rbuf rstate0]. rewrite frame_len.
    pose proof (zlen_nonneg m). change (zlen []) with 0. lia. }
  exists s, dn, rest. split; [exact E|]. split; [exact A|].
  rewrite Z.add_0_l in *.
  assert (T : zlen (concat segs) = zlen (wire 0 dn) + zlen (rbuf s)).
  { rewrite A, wire_app, Z.add_0_l, <- C in Hw.
    apply (f_equal zlen) in Hw. rewrite !zlen_app in Hw. lia. }
  destruct rest as [|m rest]; cbn [waiting] in D.
  - cbn [RsaAes_Spec.wire] in C. apply app_eq_nil in C as [_ C]. exact C.
  - rewrite wire_app, zlen_app, Z.add_0_l. cbn [RsaAes_Spec.wire]. rewrite app_nil_r. lia.
Qed.
(** A message the buffer cannot hold. *)
Lemma drain_stuck : forall m fuel s size avail future,
  BUFSIZE - 18 < zlen m -> zlen m < 2 ^ 16 -> rclosed s = false ->
  (rbuf s ++ avail) ++ future = frame 0 m -> zlen (rbuf s) <= BUFSIZE -> (length avail < fuel)%nat ->
  exists s' ok, drain fuel s size avail = Ok (s', [], ok) /\
    (ok = true -> rclosed s' = false /\ rbuf s' = rbuf s ++ avail /\ zlen (rbuf s') <= BUFSIZE).
Proof.
  intros m. induction fuel; intros s size avail future Hm Hm2 Hc Hw Hb Hf; [lia|].
  cbn [RsaAes_Model.drain]. destruct avail as [|a avail0].
  { eexists _, _. split; [reflexivity|]. intros _. rewrite app_nil_r. auto. }
  set (avail := a :: avail0) in *.
  assert (LA : length avail = S (length avail0)) by reflexivity.
  unfold RsaAes_Model.read, read_into_buffer.
  destruct (BUFSIZE - zlen (rbuf s) =? 0) eqn:ER.
  { cbn [rclosed bind]. eexists _, _. split; [reflexivity|]. discriminate. }
  set (n := Z.to_nat (BUFSIZE - zlen (rbuf s))).
  assert (Hn : (0 < n)%nat) by (unfold n; lia).
  cbn [rclosed]. rewrite Hc.
  set (s1 := mk_r (rbuf s ++ firstn n avail) (rcnt s) false).
  assert (B1 : zlen (rbuf s1) <= BUFSIZE).
  { unfold s1. cbn [rbuf]. rewrite zlen_app. unfold zlen at 2. rewrite firstn_length. unfold n. lia. }
  assert (W1 : rbuf s1 ++ skipn n avail ++ future = frame 0 m).
  { unfold s1. cbn [rbuf]. rewrite <- Hw, <- !app_assoc. f_equal.
    rewrite app_assoc, firstn_skipn. reflexivity. }
  assert (E : read_message s1 size = Ok (s1, MNone)).
  { unfold RsaAes_Model.read_message, parse_header.
    destruct (zlen (rbuf s1) <=? 2) eqn:E2; [reflexivity|].
    assert (F2 : firstn 2 (rbuf s1) = be 2 (zlen m)).
    { assert (F : firstn 2 (rbuf s1 ++ skipn n avail ++ future) = be 2 (zlen m)).
      { rewrite W1. unfold RsaAes_Spec.frame. apply firstn_app_eq. apply be_length. }
      rewrite firstn_app in F. unfold zlen in E2.
      replace (2 - length (rbuf s1))%nat with 0%nat in F by lia.
      cbn [firstn] in F. rewrite app_nil_r in F. exact F. }
    rewrite F2, unbe_be by (pose proof (zlen_nonneg m); change (256 ^ Z.of_nat 2) with (2 ^ 16); lia).
    replace (zlen (rbuf s1) <? 2 + 16 + zlen m) with true by lia. reflexivity. }
  cbn [RsaAes_Model.read_loop]. rewrite E. cbn [bind fst snd]. unfold s1 at 1. cbn [rclosed].
  destruct (IHfuel s1 size (skipn n avail) future) as [s2 [ok [E2 H2]]]; try assumption.
  - reflexivity.
  - rewrite <- app_assoc. exact W1.
  - rewrite skipn_length. lia.
  - rewrite E2. cbn [bind]. eexists _, _. split; [reflexivity|]. intros K.
    destruct (H2 K) as [C [D F]]. split; [exact C|]. split; [|exact F].
    rewrite D. unfold s1. cbn [rbuf]. rewrite <- app_assoc, firstn_skipn. reflexivity.
Qed.

Lemma receive_stuck : forall m segs s size future,
  BUFSIZE - 18 < zlen m -> zlen m < 2 ^ 16 -> rclosed s = false ->
  (rbuf s ++ concat segs) ++ future = frame 0 m -> zlen (rbuf s) <= BUFSIZE ->
  exists s' ok, receive s size segs = Ok (s', [], ok) /\
    (ok = true -> zlen (rbuf s ++ concat segs) <= BUFSIZE).
Proof.
  intros m. induction segs as [|seg segs IH]; intros s size future Hm Hm2 Hc Hw Hb;
    cbn [RsaAes_Model.receive].
  { eexists _, _. split; [reflexivity|]. cbn [concat]. rewrite app_nil_r. auto. }
  cbn [concat] in *.
  destruct (drain_stuck m (S (length seg)) s size seg (concat segs ++ future)) as [s1 [ok [E H]]];
    try assumption; [|lia|].
  { rewrite <- Hw, <- !app_assoc. reflexivity. }
  rewrite E. cbn [bind]. destruct ok.
  - destruct (H eq_refl) as [C [D F]].
    destruct (IH s1 size future) as [s2 [ok [E2 H2]]]; try assumption.
    { rewrite D, <- Hw, <- !app_assoc. reflexivity. }
    rewrite E2. cbn [bind app]. eexists _, _. split; [reflexivity|]. intros K.
    rewrite app_assoc, <- D. auto.
  - eexists _, _. split; [reflexivity|]. discriminate.
Qed.

(** A complete message at the front is delivered by one read. *)
Lemma read_front : forall s size k m rest, 0 <= k -> rcnt s = counter_of k -> rclosed s = false ->
  all_bytes (rbuf s) -> rbuf s = frame k m ++ rest -> 0 < zlen m -> zlen m < 2 ^ 16 ->
  zlen m <= size -> zlen (rbuf s) < BUFSIZE ->
  exists s' r, read s size [] = Ok (s', r, []) /\
    match r with RGot d => exists d', d = m ++ d' | RErr => True end.
Proof.
  intros s size k m rest Hk Hc Hcl Hby Hb Hm Hm2 Hs Hz.
  unfold RsaAes_Model.read, read_into_buffer.
  replace (BUFSIZE - zlen (rbuf s) =? 0) with false by lia. rewrite firstn_nil, skipn_nil, app_nil_r.
  cbn [rclosed]. rewrite Hcl. cbn [RsaAes_Model.read_loop rbuf].
  rewrite (read_message_frame _ size k m rest) by auto. cbn [bind].
  destruct m as [|x m0]; [cbn in Hm; lia|]. set (m := x :: m0) in *.
  destruct (read_loop_auth (length (rbuf s)) (mk_r rest (counter_of (k + 1)) false)
     (size - zlen m) ([] ++ m) (k + 1)) as [s2 [r [E H]]]; cbn [rbuf rcnt]; auto.
  - lia.
  - rewrite Hb in Hby. apply Forall_app in Hby. apply Hby.
  - rewrite Hb, app_length. pose proof (frame_len k m) as FL. unfold zlen in FL. lia.
  - cbn [rclosed]. rewrite E. cbn [bind fst snd]. eexists _, _. split; [reflexivity|].
    destruct r; [|exact I]. destruct H as [ps [-> _]]. cbn [app]. eauto.
Qed.
End Eax.
