From Verif Require Import Common CommonProofs Base64_Model Base64_Spec Base64_Proofs
  Http_Model Http_Spec Http_Proofs Http2_Spec.

Lemma lower_lower : forall c, lower (lower c) = lower c.
Proof.
  intros c. unfold lower. destruct ((65 <=? c) && (c <=? 90)) eqn:E; [|rewrite E; reflexivity].
  replace ((65 <=? c + 32) && (c + 32 <=? 90)) with false by lia. reflexivity.
Qed.

Lemma lower_space : forall c, isspace (lower c) = isspace c.
Proof.
  intros c. unfold isspace, lower. destruct ((65 <=? c) && (c <=? 90)) eqn:E; [|reflexivity]. lia.
Qed.

Definition visible (s : list Z) : Prop := Forall (fun c => isspace c = false) s.

Lemma map_lower_lower : forall s, map lower (map lower s) = map lower s.
Proof. intros s. rewrite map_map. apply map_ext. apply lower_lower. Qed.

Lemma visible_lower : forall s, visible s -> visible (map lower s).
Proof.
  intros s H. apply Forall_map. eapply Forall_impl; [|exact H]. cbn beta. intros c Hc. rewrite lower_space. exact Hc.
Qed.

Lemma offer_snoc : forall vs v, offer (vs ++ [v]) = offer vs ++ map lower v ++ [44].
Proof.
  intros vs v. unfold offer. rewrite map_app, concat_app. cbn [map concat app]. rewrite app_nil_r. reflexivity.
Qed.

Lemma offer_visible : forall vs, Forall visible vs -> visible (offer vs).
Proof.
  intros vs H. unfold offer. constructor; [reflexivity|]. induction H as [|v vs Hv _ IH]; [constructor|].
  cbn [map concat]. apply Forall_app. split; [|exact IH]. apply Forall_app. split; [apply visible_lower; exact Hv|].
  repeat constructor.
Qed.

Lemma offer_lower : forall vs, map lower (offer vs) = offer vs.
Proof.
  intros vs. unfold offer. cbn [map]. f_equal.
  induction vs as [|v vs IH]; [reflexivity|]. cbn [map concat]. rewrite !map_app, map_lower_lower, IH. reflexivity.
Qed.

Lemma add_value : forall vs v, Forall visible vs -> visible v -> zlen (offer (vs ++ [v])) <= 255 ->
  tolower_and_remove_ws (snprintf_trunc 256 (offer vs ++ v ++ [COMMA])) = Ok (offer (vs ++ [v])).
Proof.
  intros vs v Hs Hv Hz. unfold snprintf_trunc.
  rewrite firstn_all2.
  2:{ rewrite offer_snoc in Hz. unfold zlen in Hz. rewrite !app_length, map_length in *. cbn [length] in *. lia. }
  rewrite normalise_ok.
  - rewrite offer_snoc, !map_app, offer_lower. reflexivity.
  - apply Forall_app. split; [apply offer_visible; exact Hs|]. apply Forall_app. split; [exact Hv|]. repeat constructor.
Qed.

Lemma offer_app_le : forall a b, zlen (offer a) <= zlen (offer (a ++ b)).
Proof.
  intros a b. unfold offer, zlen. rewrite map_app, concat_app. cbn [length]. rewrite app_length. lia.
Qed.

Definition proto := codes "Sec-WebSocket-Protocol"%string.
Definition vers := codes "Sec-WebSocket-Version"%string.
Definition keyname := codes "Sec-WebSocket-Key"%string.

Lemma scan_general : forall hs ch ps vs,
  Forall visible (ps ++ map val (lines_named proto hs)) ->
  Forall visible (vs ++ map val (lines_named vers hs)) ->
  zlen (offer (ps ++ map val (lines_named proto hs))) <= 255 ->
  zlen (offer (vs ++ map val (lines_named vers hs))) <= 255 ->
  scan_fields (map kv hs) ch (offer ps) (offer vs) =
    Ok (match last_value keyname hs with Some v => Some v | None => ch end,
        offer (ps ++ map val (lines_named proto hs)), offer (vs ++ map val (lines_named vers hs))).
Proof.
  induction hs as [|h hs IH]; intros ch ps vs Hp Hv Zp Zv.
  - cbn. rewrite !app_nil_r. reflexivity.
  - cbn [map kv scan_fields]. unfold kv at 1. rewrite !same_strcase.
    fold proto vers keyname.
    assert (Hch : match last_value keyname (h :: hs) with Some v => Some v | None => ch end
       = match last_value keyname hs with Some v => Some v
         | None => if same_name (name h) keyname then Some (val h) else ch end).
    { cbn [last_value]. destruct (last_value _ hs); [reflexivity|].
      destruct (same_name (name h) keyname); reflexivity. }
    rewrite Hch. clear Hch.
    assert (Ep : forall n, lines_named n (h :: hs) = if same_name (name h) n then h :: lines_named n hs else lines_named n hs)
      by reflexivity.
    rewrite (Ep proto) in *. rewrite (Ep vers) in *. clear Ep.
    set (isp := same_name (name h) proto) in *. set (isv := same_name (name h) vers) in *.
    assert (Sp : exists ps', (if isp then tolower_and_remove_ws (snprintf_trunc 256 (offer ps ++ val h ++ [COMMA])) else Ok (offer ps)) = Ok (offer ps') /\
       ps ++ map val (if isp then h :: lines_named proto hs else lines_named proto hs) = ps' ++ map val (lines_named proto hs)).
    { destruct isp; [|exists ps; split; reflexivity]. exists (ps ++ [val h]). split; [|rewrite <- app_assoc; reflexivity].
      cbn [map] in *. replace (ps ++ val h :: map val (lines_named proto hs)) with ((ps ++ [val h]) ++ map val (lines_named proto hs)) in *
        by (rewrite <- app_assoc; reflexivity).
      apply Forall_app in Hp. destruct Hp as [Hp _]. apply Forall_app in Hp. destruct Hp as [Hp1 Hp2]. inversion Hp2; subst.
      apply add_value; [assumption|assumption|]. pose proof (offer_app_le (ps ++ [val h]) (map val (lines_named proto hs))). lia. }
    assert (Sv : exists vs', (if isv then tolower_and_remove_ws (snprintf_trunc 256 (offer vs ++ val h ++ [COMMA])) else Ok (offer vs)) = Ok (offer vs') /\
       vs ++ map val (if isv then h :: lines_named vers hs else lines_named vers hs) = vs' ++ map val (lines_named vers hs)).
    { destruct isv; [|exists vs; split; reflexivity]. exists (vs ++ [val h]). split; [|rewrite <- app_assoc; reflexivity].
      cbn [map] in *. replace (vs ++ val h :: map val (lines_named vers hs)) with ((vs ++ [val h]) ++ map val (lines_named vers hs)) in *
        by (rewrite <- app_assoc; reflexivity).
      apply Forall_app in Hv. destruct Hv as [Hv _]. apply Forall_app in Hv. destruct Hv as [Hv1 Hv2]. inversion Hv2; subst.
      apply add_value; [assumption|assumption|]. pose proof (offer_app_le (vs ++ [val h]) (map val (lines_named vers hs))). lia. }
    destruct Sp as (ps' & Sp & Ep). destruct Sv as (vs' & Sv & Ev).
    rewrite Sp. cbn [bind]. rewrite Sv. cbn [bind].
    rewrite Ep in *. rewrite Ev in *. apply IH; assumption.
Qed.

Lemma starts_with_spec : forall needle hay, starts_with needle hay = true <-> exists b, hay = needle ++ b.
Proof.
  induction needle as [|x n IH]; intros hay; cbn [starts_with].
  - split; [intros _; exists hay; reflexivity|reflexivity].
  - destruct hay as [|y h]; [split; [discriminate|intros [b E]; discriminate]|].
    rewrite andb_true_iff, IH, Z.eqb_eq. split.
    + intros [-> [b ->]]. exists b. reflexivity.
    + intros [b E]. inversion E; subst. split; [reflexivity|]. exists b. reflexivity.
Qed.

Lemma strstr_spec : forall needle hay, strstr hay needle = true <-> contains hay needle.
Proof.
  intros needle. unfold contains. induction hay as [|y h IH]; cbn [strstr]; rewrite orb_true_iff, starts_with_spec.
  - split.
    + intros [[b E]|E]; [|discriminate]. exists [], b. exact E.
    + intros (a & b & E). left. destruct a; [|discriminate]. exists b. exact E.
  - rewrite IH. split.
    + intros [[b E]|(a & b & E)]; [exists [], b; exact E|]. exists (y :: a), b. rewrite E. reflexivity.
    + intros (a & b & E). destruct a as [|z a]; [left; exists b; exact E|]. right.
      inversion E; subst. exists a, b. reflexivity.
Qed.

Lemma offer_length1 : forall vs, (length (offer vs) =? 1)%nat = match vs with [] => true | _ => false end.
Proof.
  intros vs. destruct vs as [|v vs]; [reflexivity|]. apply Nat.eqb_neq. unfold offer. cbn [map concat length].
  rewrite !app_length. cbn [length]. lia.
Qed.

Lemma handshake_decides : forall sha1 segs hs rest key,
  (forall m, all_bytes (sha1 m) /\ length (sha1 m) = 20%nat) ->
  valid_path segs -> Forall valid_line hs -> (length (plain hs) <= 32)%nat ->
  last_value keyname hs = Some key -> key <> [] ->
  let ps := map val (lines_named proto hs) in
  let vs := map val (lines_named vers hs) in
  Forall visible ps -> Forall visible vs -> zlen (offer ps) <= 255 -> zlen (offer vs) <= 255 ->
  let ok := (ps = [] \/ contains (offer ps) (codes ",chat,"%string)) /\
            (vs = [] \/ contains (offer vs) (codes ",13,"%string)) in
  (ok -> ws_handshake sha1 (request segs hs ++ rest) =
      Ok (Some (zlen (request segs hs), response (rfc4648 (sha1 (key ++ guid)))
        ((match ps with [] => [] | _ => [codes "Sec-WebSocket-Protocol: char"%string] end) ++
         (match vs with [] => [] | _ => [codes "Sec-WebSocket-Version: 13"%string] end))))) /\
  (~ ok -> ws_handshake sha1 (request segs hs ++ rest) = Ok None).
Proof.
  intros sha1 segs hs rest key Hsha Hp Hv H32 Hkey Hne ps vs Vp Vv Zp Zv ok. unfold ws_handshake.
  destruct (request_parsed segs hs rest Hp Hv H32) as [ct ->]. cbn [bind fields req_header_length].
  destruct (plain_named proto hs eq_refl eq_refl) as [P1 _].
  destruct (plain_named vers hs eq_refl eq_refl) as [P2 _].
  destruct (plain_named keyname hs eq_refl eq_refl) as [_ P3].
  pose proof (scan_general (plain hs) None [] []) as Hs. rewrite P1, P2, P3, Hkey in Hs. cbn [app] in Hs.
  fold ps vs in Hs. change (offer []) with [COMMA] in Hs.
  rewrite Hs by assumption. clear Hs. cbn [bind].
  rewrite !offer_length1. destruct (Hsha (key ++ guid)) as [Hb H20].
  set (sp := strstr (offer ps) (codes ",chat,"%string)). set (sv := strstr (offer vs) (codes ",13,"%string)).
  assert (Ep : contains (offer ps) (codes ",chat,"%string) <-> sp = true) by (symmetry; apply strstr_spec).
  assert (Ev : contains (offer vs) (codes ",13,"%string) <-> sv = true) by (symmetry; apply strstr_spec).
  unfold ok. rewrite Ep, Ev. clear ok Ep Ev. clearbody sp sv.
  set (hp := negb (match ps with [] => true | _ => false end)).
  set (hv := negb (match vs with [] => true | _ => false end)).
  rewrite (reply_text sha1 key hp hv Hne Hb), (response_fits _ hp hv (encoded_20 _ Hb H20)).
  subst hp hv. unfold zlen. split.
  - intros [A B].
    destruct ps as [|p ps], vs as [|v vs]; cbn [negb andb app];
      repeat match goal with
      | H : _ = _ \/ ?s = true |- _ => destruct H as [H|H]; [discriminate|rewrite H]
      end; cbn [negb]; reflexivity.
  - intros N. destruct sp, sv, ps as [|p ps], vs as [|v vs]; cbn [negb andb]; try reflexivity;
      exfalso; apply N; split; auto.
Qed.
