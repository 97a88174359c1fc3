From Verif Require Import Common CommonProofs Base64_Model Base64_Spec Base64_Proofs Http_Model Http_Spec.

Lemma span_app : forall p a r,
  Forall (fun c => p c = true) a -> match r with [] => True | c :: _ => p c = false end ->
  span p (a ++ r) = (a, r).
Proof.
  intros p a. induction a as [|c a IH]; intros r Ha Hr; cbn [app].
  - destruct r as [|c r]; [reflexivity|]. cbn. rewrite Hr. reflexivity.
  - inversion Ha; subst. cbn [span]. rewrite H1, IH by assumption. reflexivity.
Qed.

Lemma span_split : forall p l a b, span p l = (a, b) ->
  l = a ++ b /\ Forall (fun c => p c = true) a /\ match b with [] => True | c :: _ => p c = false end.
Proof.
  intros p l. induction l as [|c l IH]; intros a b H; cbn in H.
  - inversion H; subst. repeat split. constructor.
  - destruct (p c) eqn:E.
    + destruct (span p l) as [a' b'] eqn:Es. inversion H; subst.
      destruct (IH _ _ eq_refl) as (-> & Ha & Hb). repeat split; [constructor; assumption|exact Hb].
    + inversion H; subst. repeat split; [constructor|exact E].
Qed.

Lemma strcaseeq_spec : forall a b, strcaseeq a b = same_name a b.
Proof.
  intros a. unfold same_name. induction a as [|x a IH]; intros [|y b]; cbn [strcaseeq map]; try reflexivity.
  rewrite IH. change (tolower x) with (lower x). change (tolower y) with (lower y).
  destruct (lower x =? lower y) eqn:E; cbn [andb].
  - apply Z.eqb_eq in E. rewrite E.
    destruct (list_eq_dec Z.eq_dec (map lower a) (map lower b)) as [e|n];
      destruct (list_eq_dec Z.eq_dec (lower y :: map lower a) (lower y :: map lower b)) as [e'|n']; try reflexivity.
    + exfalso. apply n'. rewrite e. reflexivity.
    + exfalso. apply n. inversion e'. reflexivity.
  - destruct (list_eq_dec Z.eq_dec (lower x :: map lower a) (lower y :: map lower b)) as [e|n]; [|reflexivity].
    inversion e. lia.
Qed.

(** ** Lexer position *)
Definition at_ (n : list Z) (l : lexer) : Prop :=
  accepted l = true /\ (nxt l = Some n \/ (nxt l = None /\ lpos l = n /\ n <> [])).

Lemma at_pos : forall n l, at_ n l -> match nxt l with None => lpos l | Some p => p end = n.
Proof. intros n l [_ [->|(-> & H & _)]]; [reflexivity|exact H]. Qed.

Definition peeked (t : token) (n : list Z) (l : lexer) : Prop :=
  accepted l = false /\ cur l = t /\ nxt l = Some n.

Lemma next_at : forall l n t n', at_ n l -> classify (lstate l) n = Some (t, n') ->
  exists l', next_token l = (l', Some t) /\ peeked t n' l' /\ lstate l' = lstate l.
Proof.
  intros l n t n' Hat Hc. pose proof (at_pos _ _ Hat) as Hn. destruct Hat as [Ha _].
  unfold next_token. rewrite Ha. cbn [negb]. rewrite Hn, Hc. eexists. split; [reflexivity|]. repeat split.
Qed.

Lemma next_peeked : forall l t n, peeked t n l -> next_token l = (l, Some t).
Proof. intros l t n (Ha & Hc & _). unfold next_token. rewrite Ha, Hc. reflexivity. Qed.

Lemma accept_at : forall l t n, peeked t n l -> at_ n (accept l) /\ lstate (accept l) = lstate l.
Proof. intros l t n (Ha & Hc & Hn). unfold at_, accept. cbn. rewrite Hn. repeat split. left. reflexivity. Qed.

Lemma expect_at : forall k l n t n', at_ n l -> classify (lstate l) n = Some (t, n') -> has_type k t = true ->
  exists l', http_expect k l = (l', true) /\ at_ n' l' /\ lstate l' = lstate l.
Proof.
  intros k l n t n' Ha Hc Hk. destruct (next_at l n t n' Ha Hc) as (l' & E & Hp & Hs).
  unfold http_expect, http_peek. rewrite E, Hk. destruct (accept_at _ _ _ Hp) as [A B].
  eexists. split; [reflexivity|]. split; [exact A|congruence].
Qed.

Lemma expect_peeked : forall k l t n, peeked t n l -> has_type k t = true ->
  exists l', http_expect k l = (l', true) /\ at_ n l' /\ lstate l' = lstate l.
Proof.
  intros k l t n Hp Hk. unfold http_expect, http_peek. rewrite (next_peeked _ _ _ Hp), Hk.
  destruct (accept_at _ _ _ Hp) as [A B]. eexists. split; [reflexivity|]. split; assumption.
Qed.

Lemma literal_at : forall str l n v n', at_ n l -> classify (lstate l) n = Some (T_LITERAL v, n') ->
  strcaseeq str v = true ->
  exists l', http_literal str l = (l', true) /\ at_ n' l' /\ lstate l' = lstate l.
Proof.
  intros str l n v n' Ha Hc Hk. destruct (next_at l n _ n' Ha Hc) as (l' & E & Hp & Hs).
  unfold http_literal. rewrite E, Hk. destruct (accept_at _ _ _ Hp) as [A B].
  eexists. split; [reflexivity|]. split; [exact A|congruence].
Qed.

(** ** Request line *)
Lemma seg_char_literal : forall c, seg_char c -> is_literal c = true.
Proof.
  intros c H. unfold seg_char in H. unfold is_literal, SLASH, CR, LF, SPACE, TAB, QUESTION, AMP, EQSIGN, isprint.
  replace (_ || _) with false by lia. lia.
Qed.

Lemma classify_literal : forall s r, s <> [] -> Forall seg_char s ->
  match r with [] => True | c :: _ => is_literal c = false end ->
  classify_request (s ++ r) = Some (T_LITERAL s, r).
Proof.
  intros s r Hn Hs Hr. destruct s as [|c s]; [contradiction|].
  inversion Hs as [|? ? Hc Hs']; subst. pose proof (seg_char_literal c Hc) as Hlit.
  cbn [app]. unfold classify_request.
  unfold seg_char in Hc. unfold is_blank, SLASH, CR, LF, SPACE, TAB, QUESTION, AMP, EQSIGN.
  replace (c =? 47) with false by lia. replace (c =? 13) with false by lia.
  replace (c =? 10) with false by lia. replace (c =? 63) with false by lia.
  replace (c =? 38) with false by lia. replace (c =? 61) with false by lia.
  replace ((c =? 32) || (c =? 9)) with false by lia. rewrite Hlit.
  change (c :: s ++ r) with ((c :: s) ++ r). rewrite span_app; [reflexivity| |exact Hr].
  eapply Forall_impl; [|exact Hs]. intros x. apply seg_char_literal.
Qed.

Lemma classify_slash : forall r, match r with [] => True | c :: _ => c <> 47 end ->
  classify_request (47 :: r) = Some (T_SOLIDUS, r).
Proof.
  intros r Hr. unfold classify_request. change (47 =? SLASH) with true. cbn iota.
  change (47 :: r) with ([47] ++ r). rewrite span_app; [reflexivity|repeat constructor|].
  destruct r as [|c r]; [exact I|]. unfold SLASH. lia.
Qed.

Lemma classify_space : forall r, match r with [] => True | c :: _ => is_blank c = false end ->
  classify_request (32 :: r) = Some (T_WS, r).
Proof.
  intros r Hr. unfold classify_request. cbn [SLASH CR LF QUESTION AMP EQSIGN Z.eqb Pos.eqb].
  change (is_blank 32) with true. cbn iota. change (32 :: r) with ([32] ++ r).
  rewrite span_app; [reflexivity|repeat constructor|exact Hr].
Qed.

Definition tail_ (r : list Z) : Prop := exists x, r = 32 :: x /\ match x with [] => True | c :: _ => is_blank c = false end.

Lemma url_path_ok : forall segs, valid_path segs -> forall fuel l r,
  (length segs < fuel)%nat -> tail_ r -> lstate l = LS_REQUEST ->
  (at_ (path_bytes segs ++ r) l \/
   (exists s segs', segs = s :: segs' /\ peeked T_SOLIDUS (s ++ concat (map (fun s => 47 :: s) segs') ++ r) l)) ->
  exists l', http_url_path fuel l = Ok (l', true) /\ lstate l' = LS_REQUEST /\
    exists x, r = 32 :: x /\ peeked T_WS x l'.
Proof.
  intros segs Hv. induction segs as [|s segs IH]; intros fuel l r Hf (x & -> & Hx) Hst Hl.
  - destruct Hl as [Hl|(s & segs' & E & _)]; [|discriminate].
    destruct fuel as [|fuel]; [cbn in Hf; lia|]. cbn [http_url_path].
    destruct (expect_at K_SOLIDUS l (47 :: 32 :: x) T_SOLIDUS (32 :: x)) as (l1 & E1 & Ha1 & Hs1);
      [exact Hl|rewrite Hst; apply classify_slash; lia|reflexivity|].
    rewrite E1. cbn [negb].
    destruct (next_at l1 (32 :: x) T_WS x Ha1) as (l2 & E2 & Hp2 & Hs2).
    { rewrite Hs1, Hst. apply classify_space. exact Hx. }
    rewrite E2. exists l2. split; [reflexivity|]. split; [congruence|]. exists x. split; [reflexivity|exact Hp2].
  - inversion Hv as [|? ? [Hn Hs] Hv']; subst.
    destruct fuel as [|fuel]; [cbn in Hf; lia|]. cbn [http_url_path].
    set (more := concat (map (fun s => 47 :: s) segs)).
    assert (Hsl : forall c t, s = c :: t -> c <> 47).
    { intros c t ->. inversion Hs as [|? ? Hc _]; subst. apply Hc. }
    assert (Hmore : match more ++ 32 :: x with [] => True | c :: _ => is_literal c = false end).
    { unfold more. destruct segs; cbn; reflexivity. }
    assert (Hexp : exists l1, http_expect K_SOLIDUS l = (l1, true) /\ at_ (s ++ more ++ 32 :: x) l1 /\ lstate l1 = LS_REQUEST).
    { destruct Hl as [Hl|(s' & segs' & E & Hl)].
      - destruct (expect_at K_SOLIDUS l (47 :: s ++ more ++ 32 :: x) T_SOLIDUS (s ++ more ++ 32 :: x)) as (l1 & E1 & Ha1 & Hs1).
        + cbn [path_bytes map concat app] in Hl. rewrite <- !app_assoc in Hl. exact Hl.
        + rewrite Hst. apply classify_slash. destruct s as [|c t]; [contradiction|]. cbn. apply (Hsl c t eq_refl).
        + reflexivity.
        + exists l1. split; [exact E1|]. split; [exact Ha1|congruence].
      - inversion E; subst. destruct (expect_peeked K_SOLIDUS _ _ _ Hl eq_refl) as (l1 & E1 & Ha1 & Hs1).
        exists l1. split; [exact E1|]. split; [exact Ha1|congruence]. }
    destruct Hexp as (l1 & E1 & Ha1 & Hs1). rewrite E1. cbn [negb].
    destruct (next_at l1 (s ++ more ++ 32 :: x) (T_LITERAL s) (more ++ 32 :: x) Ha1) as (l2 & E2 & Hp2 & Hs2).
    { rewrite Hs1. apply classify_literal; assumption. }
    rewrite E2. destruct (accept_at _ _ _ Hp2) as [Ha3 Hs3].
    unfold http_peek.
    destruct segs as [|s2 segs].
    + cbn [more map concat app] in Ha3. subst more. cbn [map concat app] in *.
      destruct (next_at (accept l2) (32 :: x) T_WS x Ha3) as (l4 & E4 & Hp4 & Hs4).
      { rewrite Hs3, Hs2, Hs1. apply classify_space. exact Hx. }
      rewrite E4. cbn [has_type]. exists l4. split; [reflexivity|]. split; [congruence|].
      exists x. split; [reflexivity|exact Hp4].
    + subst more. cbn [map concat app] in Ha3. rewrite <- app_assoc in Ha3.
      set (more2 := concat (map (fun s => 47 :: s) segs)) in *.
      destruct (next_at (accept l2) (47 :: s2 ++ more2 ++ 32 :: x) T_SOLIDUS (s2 ++ more2 ++ 32 :: x) Ha3) as (l4 & E4 & Hp4 & Hs4).
      { rewrite Hs3, Hs2, Hs1. apply classify_slash.
        inversion Hv' as [|? ? [Hn2 Hs2'] _]; subst. destruct s2 as [|c t]; [contradiction|].
        inversion Hs2' as [|? ? Hc _]; subst. cbn. apply Hc. }
      rewrite E4. cbn [has_type].
      apply (IH Hv' fuel l4 (32 :: x)).
      * cbn [length] in *. lia.
      * exists x. split; [reflexivity|exact Hx].
      * congruence.
      * right. exists s2, segs. split; [reflexivity|exact Hp4].
Qed.

Lemma head_not_blank : forall s r, is_blank (hd 0 (codes s ++ r)) = false \/ codes s = [] ->
  codes s <> [] -> match codes s ++ r with [] => True | c :: _ => is_blank c = false end.
Proof.
  intros s r H Hn. destruct (codes s ++ r) eqn:E; [exact I|]. destruct H as [H|H]; [exact H|contradiction].
Qed.

Lemma request_ok : forall segs rest fuel, valid_path segs -> (length segs < fuel)%nat ->
  exists l, http_request fuel (httplex_init (request_head segs ++ rest)) = Ok (l, true) /\ at_ rest l.
Proof.
  intros segs rest fuel Hv Hf. unfold http_request.
  set (r1 := codes "HTTP/1.1"%string ++ crlf ++ rest).
  assert (Hin : request_head segs ++ rest = codes "GET"%string ++ 32 :: path_bytes segs ++ 32 :: r1).
  { unfold request_head, r1. rewrite <- !app_assoc. reflexivity. }
  rewrite Hin.
  set (l0 := httplex_init _).
  assert (Ha0 : at_ (codes "GET"%string ++ 32 :: path_bytes segs ++ 32 :: r1) l0) by (split; [reflexivity|right; repeat split; discriminate]).
  assert (Hp0 : exists p, path_bytes segs ++ 32 :: r1 = 47 :: p).
  { destruct segs as [|s segs]; cbn [path_bytes map concat app]; eexists; reflexivity. }
  destruct (literal_at (codes "GET"%string) l0 _ (codes "GET"%string) (32 :: path_bytes segs ++ 32 :: r1) Ha0) as (l1 & E1 & Ha1 & Hs1).
  { reflexivity. } { reflexivity. }
  unfold andthen at 1. rewrite E1.
  destruct (expect_at K_WS l1 _ T_WS (path_bytes segs ++ 32 :: r1) Ha1) as (l2 & E2 & Ha2 & Hs2).
  { rewrite Hs1. apply classify_space. destruct Hp0 as [p ->]. reflexivity. } { reflexivity. }
  rewrite E2. cbn [negb]. unfold http_url.
  destruct (url_path_ok segs Hv fuel l2 (32 :: r1) Hf) as (l3 & E3 & Hs3 & x & Ex & Hp3).
  { exists r1. split; [reflexivity|]. reflexivity. }
  { rewrite Hs2, Hs1. reflexivity. }
  { left. exact Ha2. }
  rewrite E3. cbn [bind]. inversion Ex; subst x; clear Ex.
  assert (Eq : http_expect K_QUERY l3 = (l3, false)).
  { unfold http_expect, http_peek. rewrite (next_peeked _ _ _ Hp3). reflexivity. }
  rewrite Eq. cbn [bind negb].
  destruct (expect_peeked K_WS l3 T_WS r1 Hp3 eq_refl) as (l4 & E4 & Ha4 & Hs4).
  unfold andthen. rewrite E4. unfold http_version, andthen.
  destruct (literal_at (codes "HTTP"%string) l4 r1 (codes "HTTP"%string) (codes "/1.1"%string ++ crlf ++ rest) Ha4) as (l5 & E5 & Ha5 & Hs5).
  { rewrite Hs4, Hs3. reflexivity. } { reflexivity. }
  rewrite E5.
  destruct (expect_at K_SOLIDUS l5 _ T_SOLIDUS (codes "1.1"%string ++ crlf ++ rest) Ha5) as (l6 & E6 & Ha6 & Hs6).
  { rewrite Hs5, Hs4, Hs3. reflexivity. } { reflexivity. }
  rewrite E6.
  destruct (literal_at (codes "1.1"%string) l6 _ (codes "1.1"%string) (crlf ++ rest) Ha6) as (l7 & E7 & Ha7 & Hs7).
  { rewrite Hs6, Hs5, Hs4, Hs3. reflexivity. } { reflexivity. }
  rewrite E7.
  destruct (expect_at K_CR l7 _ T_CR (10 :: rest) Ha7) as (l8 & E8 & Ha8 & Hs8).
  { rewrite Hs7, Hs6, Hs5, Hs4, Hs3. reflexivity. } { reflexivity. }
  rewrite E8.
  destruct (expect_at K_LF l8 _ T_LF rest Ha8) as (l9 & E9 & Ha9 & Hs9).
  { rewrite Hs8, Hs7, Hs6, Hs5, Hs4, Hs3. reflexivity. } { reflexivity. }
  rewrite E9. exists l9. split; [reflexivity|exact Ha9].
Qed.

(** ** Header lines *)
Lemma name_key : forall c, name_char c -> is_key_char c = true.
Proof. intros c H. unfold name_char in H. unfold is_key_char, isalnum, isupper, islower, isdigit, DASH. lia. Qed.

Lemma classify_line_key : forall h rest, valid_line h ->
  classify_key (line_bytes h ++ rest) = Some (T_KEY (name h), val h ++ crlf ++ rest).
Proof.
  intros h rest (Hn & Hnc & Hg & Hv & Hh). unfold line_bytes. rewrite <- !app_assoc.
  set (tl := val h ++ crlf ++ rest).
  assert (Hk : Forall (fun c => is_key_char c = true) (name h))
    by (eapply Forall_impl; [|exact Hnc]; exact name_key).
  destruct (name h) as [|c t] eqn:En; [contradiction|].
  pose proof (Forall_inv Hk) as Hkc. cbn beta in Hkc.
  pose proof (Forall_inv Hnc) as Hc. cbn beta in Hc. unfold name_char in Hc.
  cbn [app]. unfold classify_key. unfold CR, LF.
  replace (c =? 13) with false by lia. replace (c =? 10) with false by lia. rewrite Hkc.
  change (c :: t ++ 58 :: gap h ++ tl) with ((c :: t) ++ 58 :: gap h ++ tl).
  rewrite span_app by (exact Hk || reflexivity).
  change (58 =? COLON) with true. cbn iota.
  rewrite span_app; [reflexivity| |].
  - eapply Forall_impl; [|exact Hg]. intros x Hx. unfold blank in Hx. unfold is_blank, SPACE, TAB. lia.
  - unfold tl. destruct (val h) as [|v vs]; [reflexivity|]. cbn [app].
    unfold blank in Hh. unfold is_blank, SPACE, TAB. lia.
Qed.

Lemma classify_line_value : forall h rest, valid_line h ->
  classify_value (val h ++ crlf ++ rest) = Some (T_VALUE (val h), rest).
Proof.
  intros h rest (_ & _ & _ & Hv & _). unfold classify_value.
  rewrite span_app; [reflexivity| |reflexivity].
  eapply Forall_impl; [|exact Hv]. intros x Hx. unfold CR. cbn beta in *. lia.
Qed.

Lemma value_step : forall l h rest, valid_line h -> at_ (val h ++ crlf ++ rest) l ->
  exists l', next_value l = (l', Some (val h)) /\ at_ rest (accept l').
Proof.
  intros l h rest Hv Ha. unfold next_value.
  destruct (next_at (set_state LS_VALUE l) (val h ++ crlf ++ rest) (T_VALUE (val h)) rest) as (l1 & E1 & Hp1 & _).
  - destruct Ha as [A B]. split; [exact A|exact B].
  - apply classify_line_value. exact Hv.
  - rewrite E1. exists l1. split; [reflexivity|]. apply (accept_at _ _ _ Hp1).
Qed.

Definition is_content (h : line) : bool :=
  same_name (name h) (codes "Content-Length"%string) || same_name (name h) (codes "Content-Type"%string).

Lemma line_step : forall r l h rest, valid_line h -> at_ (line_bytes h ++ rest) l ->
  if is_content h
  then exists r' l', http_header_kv r l = Ok (r', l', true) /\ at_ rest l' /\ fields r' = fields r
  else if (length (fields r) <? 32)%nat
  then exists r' l', http_header_kv r l = Ok (r', l', true) /\ at_ rest l' /\
         fields r' = fields r ++ [(name h, val h)]
  else http_header_kv r l = Fault OobWrite.
Proof.
  intros r l h rest Hv Ha. unfold http_header_kv, http_content_length, http_expect_key.
  destruct (next_at (set_state LS_KEY l) (line_bytes h ++ rest) (T_KEY (name h)) (val h ++ crlf ++ rest)) as (l1 & E1 & Hp1 & Hs1).
  { destruct Ha as [A B]. split; [exact A|exact B]. }
  { apply classify_line_key. exact Hv. }
  rewrite E1, strcaseeq_spec. unfold is_content.
  destruct (same_name (name h) (codes "Content-Length"%string)); cbn [orb negb].
  - destruct (accept_at _ _ _ Hp1) as [Ha2 _].
    destruct (value_step (accept l1) h rest Hv Ha2) as (l3 & E3 & Ha3). rewrite E3.
    exists r, (accept l3). split; [reflexivity|]. split; [exact Ha3|reflexivity].
  - unfold http_content_type, http_expect_key.
    assert (Hp2 : peeked (T_KEY (name h)) (val h ++ crlf ++ rest) (set_state LS_KEY l1)) by exact Hp1.
    rewrite (next_peeked _ _ _ Hp2), strcaseeq_spec.
    destruct (same_name (name h) (codes "Content-Type"%string)); cbn [negb].
    + destruct (accept_at _ _ _ Hp2) as [Ha2 _].
      destruct (value_step (accept (set_state LS_KEY l1)) h rest Hv Ha2) as (l3 & E3 & Ha3). rewrite E3.
      do 2 eexists. split; [reflexivity|]. split; [exact Ha3|reflexivity].
    + unfold http_field_kv. rewrite (next_peeked _ (T_KEY (name h)) (val h ++ crlf ++ rest)) by exact Hp2.
      unfold HTTP_FIELD_INDEX_MAX.
      destruct (length (fields r) <? 32)%nat; [|reflexivity].
      assert (Hp3 : peeked (T_KEY (name h)) (val h ++ crlf ++ rest) (set_state LS_KEY (set_state LS_KEY l1))) by exact Hp1.
      destruct (accept_at _ _ _ Hp3) as [Ha2 _].
      destruct (value_step _ h rest Hv Ha2) as (l3 & E3 & Ha3). rewrite E3.
      do 2 eexists. split; [reflexivity|]. split; [exact Ha3|reflexivity].
Qed.

Lemma plain_cons : forall h hs, plain (h :: hs) = if is_content h then plain hs else h :: plain hs.
Proof.
  intros h hs. unfold plain, is_content. cbn [filter].
  destruct (same_name (name h) (codes "Content-Length"%string)); cbn [orb negb andb]; [reflexivity|].
  destruct (same_name (name h) (codes "Content-Type"%string)); reflexivity.
Qed.

Definition kv (h : line) : list Z * list Z := (name h, val h).

Lemma lines_loop : forall hs, Forall valid_line hs -> forall fuel r l rest,
  (length hs < fuel)%nat -> at_ (concat (map line_bytes hs) ++ rest) l ->
  if (length (fields r) + length (plain hs) <=? 32)%nat
  then exists r' l', http_header_loop fuel r l = http_header_loop (fuel - length hs) r' l' /\
         at_ rest l' /\ fields r' = fields r ++ map kv (plain hs)
  else ((length (fields r) <= 32)%nat -> http_header_loop fuel r l = Fault OobWrite).
Proof.
  intros hs Hv. induction hs as [|h hs IH]; intros fuel r l rest Hf Ha.
  - cbn [plain filter length]. destruct (length (fields r) + 0 <=? 32)%nat eqn:E; [|lia].
    exists r, l. rewrite Nat.sub_0_r. split; [reflexivity|]. split; [exact Ha|].
    cbn [plain filter map]. rewrite app_nil_r. reflexivity.
  - inversion Hv as [|? ? Hh Hv']; subst. destruct fuel as [|fuel]; [lia|].
    cbn [http_header_loop]. cbn [map concat] in Ha. rewrite <- app_assoc in Ha.
    pose proof (line_step r l h _ Hh Ha) as Hs. rewrite plain_cons.
    destruct (is_content h).
    + destruct Hs as (r1 & l1 & E & Ha1 & Ef). rewrite E. cbn [bind].
      specialize (IH Hv' fuel r1 l1 rest). rewrite Ef in IH. cbn [length] in *.
      apply IH; [lia|exact Ha1].
    + destruct (length (fields r) <? 32)%nat eqn:E32.
      * destruct Hs as (r1 & l1 & E & Ha1 & Ef). rewrite E. cbn [bind].
        specialize (IH Hv' fuel r1 l1 rest). rewrite Ef, app_length in IH. cbn [length] in *.
        replace (length (fields r) + 1 + length (plain hs))%nat
          with (length (fields r) + S (length (plain hs)))%nat in IH by lia.
        destruct (length (fields r) + S (length (plain hs)) <=? 32)%nat.
        -- destruct IH as (r' & l' & E' & Ha' & Ef'); [lia|exact Ha1|].
           exists r', l'. split; [exact E'|]. split; [exact Ha'|].
           rewrite Ef', <- app_assoc. reflexivity.
        -- intros _. apply IH; [lia|exact Ha1|lia].
      * cbn [length]. replace (length (fields r) + S (length (plain hs)) <=? 32)%nat with false by lia.
        intros _. rewrite Hs. reflexivity.
Qed.

(** the blank line *)
Lemma header_end : forall fuel r l rest, (0 < fuel)%nat -> at_ (crlf ++ rest) l ->
  exists l', http_header fuel r l = Ok (r, l', true) /\ nxt l' = Some rest.
Proof.
  intros fuel r l rest Hf Ha. destruct fuel as [|fuel]; [lia|].
  unfold http_header. cbn [http_header_loop].
  assert (Ha' : at_ (crlf ++ rest) (set_state LS_KEY l)) by exact Ha.
  destruct (next_at (set_state LS_KEY l) (crlf ++ rest) T_CR (10 :: rest) Ha' eq_refl) as (l1 & E1 & Hp1 & Hs1).
  unfold http_header_kv, http_content_length, http_expect_key. rewrite E1. cbn [negb].
  unfold http_content_type, http_expect_key.
  rewrite (next_peeked (set_state LS_KEY l1) T_CR (10 :: rest)) by exact Hp1. cbn [negb].
  unfold http_field_kv.
  rewrite (next_peeked (set_state LS_KEY (set_state LS_KEY l1)) T_CR (10 :: rest)) by exact Hp1.
  cbn [bind].
  destruct (expect_peeked K_CR (set_state LS_KEY (set_state LS_KEY (set_state LS_KEY l1))) T_CR (10 :: rest) Hp1 eq_refl)
    as (l2 & E2 & Ha2 & Hs2). rewrite E2.
  destruct (next_at l2 (10 :: rest) T_LF rest Ha2) as (l3 & E3 & Hp3 & Hs3).
  { rewrite Hs2. reflexivity. }
  unfold http_expect, http_peek. rewrite E3. cbn [has_type].
  exists (accept l3). split; [reflexivity|]. cbn [accept nxt]. apply Hp3.
Qed.

Lemma http_header_unfold : forall fuel fuel' r l r' l',
  http_header_loop fuel r l = http_header_loop fuel' r' l' ->
  http_header fuel r l = http_header fuel' r' l'.
Proof. intros. unfold http_header. rewrite H. reflexivity. Qed.

Lemma head_length : forall segs, valid_path segs -> (length segs < length (request_head segs))%nat.
Proof.
  intros segs Hv. unfold request_head. rewrite !app_length. cbn [length codes].
  enough (length segs <= length (path_bytes segs))%nat by (cbn; lia).
  destruct segs as [|s segs]; [cbn; lia|]. unfold path_bytes.
  generalize (s :: segs). clear. intros segs. induction segs as [|s segs IH]; cbn [map concat length app]; [lia|].
  rewrite app_length. lia.
Qed.

Lemma lines_length : forall hs, (length hs <= length (concat (map line_bytes hs)))%nat.
Proof.
  intros hs. induction hs as [|h hs IH]; cbn [map concat length]; [lia|].
  rewrite app_length. unfold line_bytes at 1. rewrite !app_length. cbn [length]. lia.
Qed.

Lemma request_parsed : forall segs hs rest, valid_path segs -> Forall valid_line hs ->
  (length (plain hs) <= 32)%nat ->
  exists ct, http_req_parse (request segs hs ++ rest) =
    Ok (Some (mk_req (map kv (plain hs)) ct (length (request segs hs)))).
Proof.
  intros segs hs rest Hp Hv H32. unfold http_req_parse.
  set (input := request segs hs ++ rest).
  assert (Hin : input = request_head segs ++ (concat (map line_bytes hs) ++ crlf ++ rest)).
  { unfold input, request. rewrite <- !app_assoc. reflexivity. }
  pose proof (head_length segs Hp). pose proof (lines_length hs).
  assert (Hlen : (length segs < S (length input) /\ length hs < S (length input))%nat).
  { rewrite Hin, !app_length. lia. }
  destruct (request_ok segs (concat (map line_bytes hs) ++ crlf ++ rest) (S (length input)) Hp) as (l & E & Ha); [lia|].
  rewrite <- Hin in E. cbv zeta. rewrite E. cbn [bind negb].
  pose proof (lines_loop hs Hv (S (length input)) (mk_req [] None 0) l (crlf ++ rest)) as Hl.
  cbn [fields length Nat.add] in Hl. replace (length (plain hs) <=? 32)%nat with true in Hl by lia.
  destruct Hl as (r' & l' & E' & Ha' & Ef); [lia|exact Ha|].
  rewrite (http_header_unfold _ _ _ _ _ _ E').
  destruct (header_end (S (length input) - length hs) r' l' rest) as (l2 & E2 & Hn); [lia|exact Ha'|].
  rewrite E2. cbn [bind negb]. rewrite Hn. cbn [app] in Ef. rewrite Ef.
  exists (content_type r'). do 3 f_equal.
  unfold input. rewrite app_length. lia.
Qed.

Lemma request_overflow : forall segs hs rest, valid_path segs -> Forall valid_line hs ->
  (32 < length (plain hs))%nat ->
  http_req_parse (request segs hs ++ rest) = Fault OobWrite.
Proof.
  intros segs hs rest Hp Hv H32. unfold http_req_parse.
  set (input := request segs hs ++ rest).
  assert (Hin : input = request_head segs ++ (concat (map line_bytes hs) ++ crlf ++ rest)).
  { unfold input, request. rewrite <- !app_assoc. reflexivity. }
  pose proof (head_length segs Hp). pose proof (lines_length hs).
  assert (Hlen : (length segs < S (length input) /\ length hs < S (length input))%nat).
  { rewrite Hin, !app_length. lia. }
  destruct (request_ok segs (concat (map line_bytes hs) ++ crlf ++ rest) (S (length input)) Hp) as (l & E & Ha); [lia|].
  rewrite <- Hin in E. cbv zeta. rewrite E. cbn [bind negb].
  pose proof (lines_loop hs Hv (S (length input)) (mk_req [] None 0) l (crlf ++ rest)) as Hl.
  cbn [fields length Nat.add] in Hl. replace (length (plain hs) <=? 32)%nat with false in Hl by lia.
  unfold http_header. rewrite Hl; [reflexivity|lia|exact Ha|lia].
Qed.

(** A request cut off right after a header line is accepted. *)
Lemma header_eof : forall fuel r l, (0 < fuel)%nat -> at_ [] l ->
  exists l', http_header fuel r l = Ok (r, l', true) /\ nxt l' = Some [].
Proof.
  intros fuel r l Hf [Ha Hat]. assert (Hs : nxt l = Some []) by (destruct Hat as [H|(_ & _ & H)]; [exact H|contradiction]).
  assert (Hn : match nxt l with None => lpos l | Some p => p end = []) by (rewrite Hs; reflexivity).
  destruct fuel as [|fuel]; [lia|].
  assert (Hnext : forall s l, accepted l = true -> match nxt l with None => lpos l | Some p => p end = [] ->
     exists l', next_token (set_state s l) = (l', None) /\ accepted l' = true /\ nxt l' = nxt l /\
       match nxt l' with None => lpos l' | Some p => p end = []).
  { intros s l0 A B. unfold next_token. cbn [set_state accepted lstate nxt lpos cur]. rewrite A. cbn [negb]. rewrite B.
    destruct s; cbn; (eexists; split; [reflexivity|]; cbn; split; [reflexivity|]; split; [reflexivity|];
      destruct (nxt l0); [exact B|reflexivity]). }
  unfold http_header. cbn [http_header_loop]. unfold http_header_kv, http_content_length, http_expect_key.
  destruct (Hnext LS_KEY l Ha Hn) as (l1 & E1 & A1 & N1 & P1). rewrite E1. cbn [negb].
  unfold http_content_type, http_expect_key.
  destruct (Hnext LS_KEY l1 A1 P1) as (l2 & E2 & A2 & N2 & P2). rewrite E2. cbn [negb].
  unfold http_field_kv.
  destruct (Hnext LS_KEY l2 A2 P2) as (l3 & E3 & A3 & N3 & P3). rewrite E3. cbn [bind].
  unfold http_expect, http_peek.
  destruct (Hnext LS_KEY l3 A3 P3) as (l4 & E4 & A4 & N4 & P4). rewrite E4.
  exists l4. split; [reflexivity|congruence].
Qed.

Lemma request_truncated : forall segs hs, valid_path segs -> Forall valid_line hs -> hs <> [] ->
  (length (plain hs) <= 32)%nat ->
  let cut := request_head segs ++ concat (map line_bytes hs) in
  exists ct, http_req_parse cut = Ok (Some (mk_req (map kv (plain hs)) ct (length cut))).
Proof.
  intros segs hs Hp Hv Hne H32 input. unfold http_req_parse.
  pose proof (head_length segs Hp). pose proof (lines_length hs).
  assert (Hlen : (length segs < S (length input) /\ length hs < S (length input))%nat).
  { unfold input. rewrite !app_length. lia. }
  destruct (request_ok segs (concat (map line_bytes hs)) (S (length input)) Hp) as (l & E & Ha); [lia|].
  fold input in E. rewrite E. cbn [bind negb].
  pose proof (lines_loop hs Hv (S (length input)) (mk_req [] None 0) l []) as Hl.
  cbn [fields length Nat.add] in Hl. replace (length (plain hs) <=? 32)%nat with true in Hl by lia.
  destruct Hl as (r' & l' & E' & Ha' & Ef); [lia|rewrite app_nil_r; exact Ha|].
  rewrite (http_header_unfold _ _ _ _ _ _ E').
  destruct (header_eof (S (length input) - length hs) r' l') as (l2 & E2 & Hn); [lia|exact Ha'|].
  rewrite E2. cbn [bind negb]. rewrite Hn. cbn [app] in Ef. rewrite Ef.
  exists (content_type r'). rewrite Nat.sub_0_r. reflexivity.
Qed.

(** ** Arbitrary input *)
(** Remaining input: from the token peeked at, or from the next position. *)
Definition pos_of (l : lexer) : list Z :=
  if accepted l then match nxt l with None => lpos l | Some p => p end else lpos l.

Definition suffix (a b : list Z) : Prop := exists p, b = p ++ a.

Definition has_cr (t : token) : bool := match t with T_CR | T_VALUE _ => true | _ => false end.

Definition lex_inv (l : lexer) : Prop :=
  accepted l = false -> exists n c p, nxt l = Some n /\ lpos l = (c :: p) ++ n /\
    (has_cr (cur l) = true -> (1 <= count 13 (c :: p))%nat).

Lemma suffix_refl : forall a, suffix a a.
Proof. intros a. exists []. reflexivity. Qed.

Lemma suffix_trans : forall a b c, suffix a b -> suffix b c -> suffix a c.
Proof. intros a b c [p ->] [q ->]. exists (q ++ p). apply app_assoc. Qed.

Lemma count_app : forall x a b, count x (a ++ b) = (count x a + count x b)%nat.
Proof. intros x a b. induction a as [|c a IH]; cbn [app count]; [reflexivity|]. rewrite IH. lia. Qed.

Lemma suffix_count : forall x a b, suffix a b -> (count x a <= count x b)%nat.
Proof. intros x a b [p ->]. rewrite count_app. lia. Qed.

Lemma suffix_length : forall a b, suffix a b -> (length a <= length b)%nat.
Proof. intros a b [p ->]. rewrite app_length. lia. Qed.

Lemma span_snd : forall p c t, p c = true -> exists q, c :: t = (c :: q) ++ snd (span p (c :: t)).
Proof.
  intros p c t H. destruct (span p (c :: t)) as [a b] eqn:E. pose proof (span_split _ _ _ _ E) as (E1 & Ha & _).
  cbn [span] in E. rewrite H in E. destruct (span p t) as [a' b']. inversion E; subst.
  exists a'. exact E1.
Qed.

Lemma classify_consumes : forall s pos t n, classify s pos = Some (t, n) ->
  exists c p, pos = (c :: p) ++ n /\ (has_cr t = true -> (1 <= count 13 (c :: p))%nat).
Proof.
  intros s pos t n H.
  assert (Hsp : forall p c r, p c = true -> exists q, c :: r = (c :: q) ++ snd (span p (c :: r))) by (apply span_snd).
  destruct s; cbn [classify] in H.
  - unfold classify_request in H. destruct pos as [|c r]; [discriminate|].
    destruct (c =? SLASH) eqn:E1.
    { inversion H; subst. destruct (Hsp (Z.eqb SLASH) c r) as [q Eq]; [lia|]. exists c, q.
      split; [exact Eq|discriminate]. }
    destruct (c =? CR) eqn:Ecr.
    { inversion H; subst. exists c, []. split; [reflexivity|]. intros _. cbn [count]. unfold CR in Ecr.
      destruct (Z.eq_dec 13 c); lia. }
    repeat match type of H with (if ?b then Some (?tk, r) else _) = _ => destruct b;
      [inversion H; subst; exists c, []; split; [reflexivity|discriminate]|] end.
    destruct (is_blank c) eqn:E2.
    { inversion H; subst. destruct (Hsp is_blank c r E2) as [q Eq]. exists c, q.
      split; [exact Eq|discriminate]. }
    destruct (is_literal c) eqn:E3; [|discriminate].
    destruct (Hsp is_literal c r E3) as [q Eq].
    destruct (span is_literal (c :: r)) as [v r'] eqn:Es. inversion H; subst. exists c, q.
    split; [exact Eq|discriminate].
  - unfold classify_key in H. destruct pos as [|c r]; [discriminate|].
    destruct (c =? CR) eqn:Ecr.
    { inversion H; subst. exists c, []. split; [reflexivity|]. intros _. cbn [count]. unfold CR in Ecr.
      destruct (Z.eq_dec 13 c); lia. }
    destruct (c =? LF); [inversion H; subst; exists c, []; split; [reflexivity|discriminate]|].
    destruct (is_key_char c) eqn:E3; [|discriminate].
    destruct (Hsp is_key_char c r E3) as [q Eq].
    destruct (span is_key_char (c :: r)) as [v r'] eqn:Es. cbn [snd] in Eq.
    destruct r' as [|d r']; [discriminate|]. destruct (d =? COLON); [|discriminate].
    inversion H; subst. destruct (span is_blank r') as [g r''] eqn:Eg.
    apply span_split in Eg. destruct Eg as (Eg & _ & _). cbn [snd]. exists c, (q ++ d :: g).
    split; [|discriminate]. rewrite Eq, Eg. cbn [app]. rewrite <- !app_assoc. reflexivity.
  - unfold classify_value in H. destruct (span (fun c => negb (c =? CR)) pos) as [v r] eqn:Es.
    apply span_split in Es. destruct Es as (Es & _ & _).
    destruct r as [|a [|b r']]; try discriminate.
    destruct ((a =? CR) && (b =? LF)) eqn:E; [|discriminate]. inversion H; subst.
    assert (a = 13) by (unfold CR in E; lia). subst a.
    destruct v as [|c v].
    + exists 13, [b]. split; [reflexivity|]. intros _. cbn [count]. destruct (Z.eq_dec 13 13); [lia|contradiction].
    + exists c, (v ++ [13; b]). split; [cbn [app]; rewrite <- app_assoc; reflexivity|].
      intros _. change (c :: v ++ [13; b]) with ((c :: v) ++ [13; b]). rewrite count_app. cbn [count].
      destruct (Z.eq_dec 13 13); [lia|contradiction].
Qed.

(** A lexer step keeps the invariant and never moves backwards. *)
Definition step (l l' : lexer) : Prop := lex_inv l' /\ suffix (pos_of l') (pos_of l).
(** ... and consumes something *)
Definition sstep (l l' : lexer) : Prop := lex_inv l' /\ exists c p, pos_of l = (c :: p) ++ pos_of l'.

Lemma sstep_step : forall l l', sstep l l' -> step l l'.
Proof. intros l l' (Hi & c & p & E). split; [exact Hi|]. exists (c :: p). exact E. Qed.

Lemma step_refl : forall l, lex_inv l -> step l l.
Proof. intros l H. split; [exact H|apply suffix_refl]. Qed.

Lemma step_trans : forall a b c, step a b -> step b c -> step a c.
Proof. intros a b c [_ H1] [Hc H2]. split; [exact Hc|]. eapply suffix_trans; eassumption. Qed.

Lemma sstep_trans_r : forall a b c, step a b -> sstep b c -> sstep a c.
Proof.
  intros a b c [_ [q H1]] (Hc & x & p & E). split; [exact Hc|]. rewrite H1, E.
  destruct q as [|y q]; [exists x, p; reflexivity|]. exists y, (q ++ x :: p).
  cbn [app]. rewrite <- app_assoc. reflexivity.
Qed.

Lemma sstep_trans_l : forall a b c, sstep a b -> step b c -> sstep a c.
Proof.
  intros a b c (_ & x & p & E) [Hc [q H1]]. split; [exact Hc|]. rewrite E, H1.
  exists x, (p ++ q). cbn [app]. rewrite <- app_assoc. reflexivity.
Qed.

Lemma sstep_shrinks : forall l l', sstep l l' -> (length (pos_of l') < length (pos_of l))%nat.
Proof. intros l l' (_ & c & p & E). rewrite E. cbn [app length]. rewrite app_length. lia. Qed.

Lemma step_shrinks : forall l l', step l l' -> (length (pos_of l') <= length (pos_of l))%nat.
Proof. intros l l' [_ H]. apply suffix_length. exact H. Qed.

Lemma set_state_inv : forall s l, lex_inv l -> lex_inv (set_state s l) /\ pos_of (set_state s l) = pos_of l.
Proof. intros s l H. split; [exact H|reflexivity]. Qed.

Lemma next_step : forall l, lex_inv l ->
  step l (fst (next_token l)) /\
  forall t, snd (next_token l) = Some t -> accepted (fst (next_token l)) = false /\ cur (fst (next_token l)) = t.
Proof.
  intros l Hi. unfold next_token. destruct (accepted l) eqn:Ea; cbn [negb].
  - set (pos := match nxt l with None => lpos l | Some p => p end).
    assert (Hp : pos_of l = pos) by (unfold pos_of; rewrite Ea; reflexivity).
    destruct (classify (lstate l) pos) as [[t n]|] eqn:E; cbn [fst snd].
    + apply classify_consumes in E. destruct E as (c & p & E & Hv). split.
      * split.
        -- intros _. exists n, c, p. cbn. repeat split; assumption.
        -- unfold pos_of. cbn. rewrite Ea. fold pos. apply suffix_refl.
      * intros t' Ht. inversion Ht; subst. split; reflexivity.
    + split; [|discriminate]. split; [intros C; cbn in C; congruence|].
      unfold pos_of. cbn [accepted nxt lpos]. rewrite Ea. fold pos.
      destruct (nxt l); apply suffix_refl.
  - cbn [fst snd]. split; [apply step_refl; exact Hi|]. intros t Ht. inversion Ht; subst. split; [exact Ea|reflexivity].
Qed.

Lemma accept_step : forall l, lex_inv l -> accepted l = false -> sstep l (accept l).
Proof.
  intros l Hi Ha. destruct (Hi Ha) as (n & c & p & Hn & Hp & _). split; [intros C; discriminate|].
  exists c, p. unfold pos_of. cbn [accept accepted nxt lpos]. rewrite Ha, Hn. exact Hp.
Qed.

Lemma accept_cr : forall l, lex_inv l -> accepted l = false -> has_cr (cur l) = true ->
  (count 13 (pos_of (accept l)) < count 13 (pos_of l))%nat.
Proof.
  intros l Hi Ha Hc. destruct (Hi Ha) as (n & c & p & Hn & Hp & H1). specialize (H1 Hc).
  unfold pos_of. cbn [accept accepted nxt lpos]. rewrite Ha, Hn, Hp, count_app. lia.
Qed.

Lemma step_count : forall l l', step l l' -> (count 13 (pos_of l') <= count 13 (pos_of l))%nat.
Proof. intros l l' [_ H]. apply suffix_count. exact H. Qed.

Lemma expect_cr_count : forall l l', lex_inv l -> http_expect K_CR l = (l', true) ->
  (count 13 (pos_of l') < count 13 (pos_of l))%nat.
Proof.
  intros l l' Hi H. unfold http_expect, http_peek in H. pose proof (next_step l Hi) as [Hs Ht].
  destruct (next_token l) as [l1 [t|]]; [|discriminate]. cbn [fst snd] in *.
  destruct (has_type K_CR t) eqn:E; [|discriminate]. inversion H; subst.
  destruct (Ht t eq_refl) as [Ha Hc]. pose proof (step_count _ _ Hs).
  pose proof (accept_cr l1 (proj1 Hs) Ha) as Hx. rewrite Hc in Hx. destruct t; try discriminate.
  specialize (Hx eq_refl). lia.
Qed.

Definition good_parser (f : lexer -> lexer * bool) : Prop :=
  forall l, lex_inv l -> step l (fst (f l)) /\ (snd (f l) = true -> sstep l (fst (f l))).

Ltac dnext x Hi :=
  let H := fresh "Hn" in let y := fresh "l" in let o := fresh "o" in
  pose proof (next_step x Hi) as H; destruct (next_token x) as [y o]; cbn [fst snd] in H.

Lemma expect_good : forall k, good_parser (http_expect k).
Proof.
  intros k l Hi. unfold http_expect, http_peek. dnext l Hi. destruct Hn as [Hs Ht].
  destruct o as [t|]; [|cbn; split; [exact Hs|discriminate]].
  destruct (Ht t eq_refl) as [Ha _]. destruct (has_type k t); cbn; [|split; [exact Hs|discriminate]].
  pose proof (accept_step l0 (proj1 Hs) Ha) as Hst.
  pose proof (sstep_trans_r _ _ _ Hs Hst) as R. split; [apply sstep_step; exact R|intros _; exact R].
Qed.

Lemma literal_good : forall str, good_parser (http_literal str).
Proof.
  intros k l Hi. unfold http_literal. dnext l Hi. destruct Hn as [Hs Ht].
  destruct o as [t|]; [|cbn; split; [exact Hs|discriminate]].
  destruct (Ht t eq_refl) as [Ha _].
  destruct t; cbn; try (split; [exact Hs|discriminate]).
  destruct (strcaseeq k v); cbn; [|split; [exact Hs|discriminate]].
  pose proof (accept_step l0 (proj1 Hs) Ha) as Hst.
  pose proof (sstep_trans_r _ _ _ Hs Hst) as R. split; [apply sstep_step; exact R|intros _; exact R].
Qed.

Lemma expect_key_good : forall str, good_parser (http_expect_key str).
Proof.
  intros k l Hi. unfold http_expect_key. dnext l Hi. destruct Hn as [Hs Ht].
  destruct o as [t|]; [|cbn; split; [exact Hs|discriminate]].
  destruct (Ht t eq_refl) as [Ha _].
  destruct t; cbn; try (split; [exact Hs|discriminate]).
  destruct (strcaseeq v k); cbn; [|split; [exact Hs|discriminate]].
  pose proof (accept_step l0 (proj1 Hs) Ha) as Hst.
  pose proof (sstep_trans_r _ _ _ Hs Hst) as R. split; [apply sstep_step; exact R|intros _; exact R].
Qed.

Lemma andthen_good : forall f g, good_parser f -> good_parser g -> good_parser (f >& g).
Proof.
  intros f g Hf Hg l Hi. unfold andthen. destruct (Hf l Hi) as [H1 H2].
  destruct (f l) as [l1 ok]. cbn [fst snd] in *. destruct ok; [|cbn; split; [exact H1|discriminate]].
  destruct (Hg l1 (proj1 H1)) as [H3 H4]. specialize (H2 eq_refl).
  split; [eapply step_trans; eassumption|]. intros _. eapply sstep_trans_l; eassumption.
Qed.

Definition res_good (l : lexer) (r : res (lexer * bool)) : Prop :=
  exists l' ok, r = Ok (l', ok) /\ step l l'.

Lemma url_path_good : forall fuel l, lex_inv l -> (length (pos_of l) < fuel)%nat ->
  res_good l (http_url_path fuel l).
Proof.
  intros fuel. induction fuel as [|fuel IH]; intros l Hi Hf; [lia|]. cbn [http_url_path].
  destruct (expect_good K_SOLIDUS l Hi) as [H1 H2]. destruct (http_expect K_SOLIDUS l) as [l1 ok].
  cbn [fst snd] in *. destruct ok; cbn [negb]; [|exists l1, false; split; [reflexivity|exact H1]].
  specialize (H2 eq_refl). dnext l1 (proj1 H1). destruct Hn as [Hs Ht].
  destruct o as [t|].
  2:{ exists l0, false. split; [reflexivity|]. eapply step_trans; eassumption. }
  destruct (Ht t eq_refl) as [Ha _].
  destruct t; try (eexists _, _; split; [reflexivity|]; eapply step_trans; eassumption).
  pose proof (sstep_step _ _ (accept_step l0 (proj1 Hs) Ha)) as Hacc.
  unfold http_peek. dnext (accept l0) (proj1 Hacc). destruct Hn as [Hs2 _].
  assert (Hall : sstep l l2).
  { eapply sstep_trans_l; [exact H2|]. eapply step_trans; [exact Hs|]. eapply step_trans; eassumption. }
  destruct o as [t|].
  - destruct (has_type K_SOLIDUS t).
    + destruct (IH l2 (proj1 Hall)) as (l' & ok & E & Hst); [pose proof (sstep_shrinks _ _ Hall); lia|].
      exists l', ok. split; [exact E|]. eapply step_trans; [apply sstep_step; exact Hall|exact Hst].
    + exists l2, true. split; [reflexivity|apply sstep_step; exact Hall].
  - exists l2, true. split; [reflexivity|apply sstep_step; exact Hall].
Qed.

Lemma url_query_good : forall fuel l, lex_inv l -> (length (pos_of l) < fuel)%nat ->
  res_good l (http_url_query fuel l).
Proof.
  intros fuel. induction fuel as [|fuel IH]; intros l Hi Hf; [lia|]. cbn [http_url_query].
  assert (Hg : good_parser (http_expect K_LITERAL >& http_expect K_EQ >& http_expect K_LITERAL >& http_expect K_AMPERSAND))
    by (apply andthen_good; [apply andthen_good; [apply andthen_good|]|]; apply expect_good).
  destruct (Hg l Hi) as [H1 H2]. destruct ((_ >& _) l) as [l1 ok]. cbn [fst snd] in *.
  destruct ok; [|exists l1, true; split; [reflexivity|exact H1]].
  specialize (H2 eq_refl). destruct (IH l1 (proj1 H1)) as (l' & ok & E & Hst); [pose proof (sstep_shrinks _ _ H2); lia|].
  exists l', ok. split; [exact E|]. eapply step_trans; eassumption.
Qed.

Lemma request_good : forall fuel l, lex_inv l -> (length (pos_of l) < fuel)%nat ->
  exists l' ok, http_request fuel l = Ok (l', ok) /\ step l l' /\
    (ok = true -> (count 13 (pos_of l') < count 13 (pos_of l))%nat /\ exists n, nxt l' = Some n).
Proof.
  intros fuel l Hi Hf. unfold http_request.
  assert (Hg : good_parser (http_literal (codes "GET"%string) >& http_expect K_WS))
    by (apply andthen_good; [apply literal_good|apply expect_good]).
  destruct (Hg l Hi) as [H1 _]. destruct ((_ >& _) l) as [l1 ok]. cbn [fst snd] in *.
  destruct ok; cbn [negb]; [|exists l1, false; split; [reflexivity|split; [exact H1|discriminate]]].
  unfold http_url.
  destruct (url_path_good fuel l1 (proj1 H1)) as (l2 & ok & E2 & Hs2); [pose proof (step_shrinks _ _ H1); lia|].
  rewrite E2. cbn [bind].
  assert (Hs3 : exists l3 ok3, (if ok then http_expect K_QUERY l2 else (l2, false)) = (l3, ok3) /\ step l2 l3).
  { destruct ok.
    - destruct (expect_good K_QUERY l2 (proj1 Hs2)) as [H _]. destruct (http_expect K_QUERY l2) as [l3 ok3].
      exists l3, ok3. split; [reflexivity|exact H].
    - exists l2, false. split; [reflexivity|apply step_refl; apply Hs2]. }
  destruct Hs3 as (l3 & ok3 & E3 & Hs3). rewrite E3.
  assert (Hs4 : exists l4 ok4, (if ok3 then http_url_query fuel l3 else Ok (l3, true)) = Ok (l4, ok4) /\ step l3 l4).
  { destruct ok3.
    - pose proof (step_shrinks _ _ H1). pose proof (step_shrinks _ _ Hs2). pose proof (step_shrinks _ _ Hs3).
      apply (url_query_good fuel l3 (proj1 Hs3)). lia.
    - exists l3, true. split; [reflexivity|apply step_refl; apply Hs3]. }
  destruct Hs4 as (l4 & ok4 & E4 & Hs4). rewrite E4. cbn [bind].
  assert (Hl4 : step l l4) by (eapply step_trans; [exact H1|]; eapply step_trans; [exact Hs2|]; eapply step_trans; eassumption).
  destruct ok4; cbn [negb]; [|exists l4, false; split; [reflexivity|split; [exact Hl4|discriminate]]].
  set (f := http_expect K_WS >& http_version).
  assert (Hgf : good_parser f).
  { apply andthen_good; [apply expect_good|]. unfold http_version.
    apply andthen_good; [apply andthen_good; [apply literal_good|apply expect_good]|apply literal_good]. }
  unfold andthen at 1 2. fold f. destruct (Hgf l4 (proj1 Hs4)) as [H5 _]. destruct (f l4) as [l5 ok5].
  cbn [fst snd] in H5.
  assert (Hl5 : step l l5) by (eapply step_trans; eassumption).
  destruct ok5; [|exists l5, false; split; [reflexivity|split; [exact Hl5|discriminate]]].
  (* the CR *)
  destruct (expect_good K_CR l5 (proj1 H5)) as [H6 H6'].
  destruct (http_expect K_CR l5) as [l6 ok6] eqn:E6. cbn [fst snd] in H6, H6'.
  assert (Hl6 : step l l6) by (eapply step_trans; eassumption).
  destruct ok6; [|exists l6, false; split; [reflexivity|split; [exact Hl6|discriminate]]].
  destruct (expect_good K_LF l6 (proj1 H6)) as [H7 H7'].
  destruct (http_expect K_LF l6) as [l7 ok7] eqn:E7. cbn [fst snd] in H7, H7'.
  assert (Hl7 : step l l7) by (eapply step_trans; eassumption).
  exists l7, ok7. split; [reflexivity|]. split; [exact Hl7|]. intros ->.
  split.
  - pose proof (expect_cr_count l5 l6 (proj1 H5) E6). pose proof (step_count _ _ H7).
    pose proof (step_count _ _ Hl5). lia.
  - unfold http_expect, http_peek in E7. destruct (next_token l6) as [l8 [t|]] eqn:En; [|discriminate].
    destruct (has_type K_LF t); [|discriminate]. inversion E7; subst. cbn [accept nxt].
    unfold next_token in En. destruct (accepted l6) eqn:Ea; cbn [negb] in En.
    + destruct (classify _ _) as [[t' n]|]; [|discriminate]. inversion En; subst. exists n. reflexivity.
    + inversion En; subst. destruct (proj1 H6 Ea) as (n & _ & _ & Hn & _). exists n. exact Hn.
Qed.

(** [Some] next position is never lost. *)
Definition started (l : lexer) : Prop := exists n, nxt l = Some n.

Lemma next_started : forall l, started l -> started (fst (next_token l)).
Proof.
  intros l [n H]. unfold next_token. destruct (accepted l); cbn [negb]; [|exists n; exact H].
  destruct (classify _ _) as [[t m]|]; [exists m; reflexivity|exists n; exact H].
Qed.

Lemma next_value_good : forall l, lex_inv l ->
  step l (fst (next_value l)) /\
  (forall v, snd (next_value l) = Some v ->
     accepted (fst (next_value l)) = false /\ has_cr (cur (fst (next_value l))) = true) /\
  (started l -> started (fst (next_value l))).
Proof.
  intros l Hi. unfold next_value.
  pose proof (next_step (set_state LS_VALUE l) Hi) as [Hs Ht].
  pose proof (next_started (set_state LS_VALUE l)) as Hst.
  destruct (next_token (set_state LS_VALUE l)) as [l1 o]. cbn [fst snd] in *.
  destruct o as [t|]; [|cbn; split; [exact Hs|split; [discriminate|exact Hst]]].
  destruct (Ht t eq_refl) as [Ha Hc].
  destruct t; cbn; (split; [exact Hs|split; [|exact Hst]]); try discriminate.
  intros v' _. split; [exact Ha|]. rewrite Hc. reflexivity.
Qed.

Definition kv_good (r : http_req) (l : lexer) (x : http_req * lexer * bool) : Prop :=
  let '(r', l', ok) := x in
  step l l' /\ (started l -> started l') /\ (ok = true -> sstep l l') /\
  (length (fields r') + count 13 (pos_of l') <= length (fields r) + count 13 (pos_of l))%nat /\
  (length (fields r) <= length (fields r'))%nat.

Lemma kv_good_trans : forall r l r1 l1 x,
  kv_good r l (r1, l1, false) -> kv_good r1 l1 x -> kv_good r l x.
Proof.
  intros r l r1 l1 [[r2 l2] ok] (A1 & A2 & _ & A4 & A5) (B1 & B2 & B3 & B4 & B5).
  split; [eapply step_trans; eassumption|]. split; [auto|].
  split; [intros H; eapply sstep_trans_r; [exact A1|apply B3; exact H]|]. lia.
Qed.

Lemma expect_key_started : forall k l, started l -> started (fst (http_expect_key k l)).
Proof.
  intros k l Hs. unfold http_expect_key. pose proof (next_started l Hs) as Hn.
  destruct (next_token l) as [l1 [t|]]; [|exact Hn]. destruct t; try exact Hn.
  destruct (strcaseeq _ _); exact Hn.
Qed.

(** from a lexer reached by [step], read a value *)
Lemma value_tail : forall l la, step l la -> (started l -> started la) ->
  let lb := fst (next_value la) in
  step l lb /\ (started l -> started lb) /\
  forall v, snd (next_value la) = Some v ->
    sstep l (accept lb) /\ (started l -> started (accept lb)) /\
    (count 13 (pos_of (accept lb)) < count 13 (pos_of l))%nat.
Proof.
  intros l la Hs Hst lb. destruct (next_value_good la (proj1 Hs)) as (B1 & B2 & B3). fold lb in B1, B2, B3.
  split; [eapply step_trans; eassumption|]. split; [auto|].
  intros v Hv. destruct (B2 v Hv) as [Ha Hc]. split; [|split].
  - eapply sstep_trans_r; [exact Hs|]. eapply sstep_trans_r; [exact B1|].
    apply accept_step; [apply B1|exact Ha].
  - intros H. apply Hst in H. apply B3 in H. exact H.
  - pose proof (accept_cr _ (proj1 B1) Ha Hc). pose proof (step_count _ _ B1). pose proof (step_count _ _ Hs). lia.
Qed.

Lemma content_length_good : forall r l, lex_inv l ->
  kv_good r l (r, fst (http_content_length l), snd (http_content_length l)).
Proof.
  intros r l Hi. unfold http_content_length. set (l0 := set_state LS_KEY l).
  destruct (expect_key_good (codes "Content-Length"%string) l0 Hi) as [A1 _].
  pose proof (expect_key_started (codes "Content-Length"%string) l0) as A3.
  destruct (http_expect_key (codes "Content-Length"%string) l0) as [l1 ok1]. cbn [fst snd] in *.
  assert (A1' : step l l1) by exact A1.
  destruct ok1; cbn [negb].
  - destruct (value_tail l l1 A1' A3) as (B1 & B2 & B3). destruct (next_value l1) as [l2 [v|]]; cbn [fst snd] in *.
    + destruct (B3 v eq_refl) as (C1 & C2 & C3).
      split; [apply sstep_step; exact C1|]. split; [exact C2|]. split; [intros _; exact C1|]. lia.
    + split; [exact B1|]. split; [exact B2|]. split; [discriminate|]. pose proof (step_count _ _ B1). lia.
  - split; [exact A1'|]. split; [exact A3|]. split; [discriminate|]. pose proof (step_count _ _ A1'). cbn [fst]. lia.
Qed.

Lemma content_type_good : forall r l, lex_inv l -> kv_good r l (http_content_type r l).
Proof.
  intros r l Hi. unfold http_content_type. set (l0 := set_state LS_KEY l).
  destruct (expect_key_good (codes "Content-Type"%string) l0 Hi) as [A1 _].
  pose proof (expect_key_started (codes "Content-Type"%string) l0) as A3.
  destruct (http_expect_key (codes "Content-Type"%string) l0) as [l1 ok1]. cbn [fst snd] in *.
  assert (A1' : step l l1) by exact A1.
  destruct ok1; cbn [negb].
  - destruct (value_tail l l1 A1' A3) as (B1 & B2 & B3). destruct (next_value l1) as [l2 [v|]]; cbn [fst snd] in *.
    + destruct (B3 v eq_refl) as (C1 & C2 & C3).
      split; [apply sstep_step; exact C1|]. split; [exact C2|]. split; [intros _; exact C1|]. cbn [fields]. lia.
    + split; [exact B1|]. split; [exact B2|]. split; [discriminate|]. pose proof (step_count _ _ B1). lia.
  - split; [exact A1'|]. split; [exact A3|]. split; [discriminate|]. pose proof (step_count _ _ A1'). lia.
Qed.

Lemma content_type_fields : forall r l, fields (fst (fst (http_content_type r l))) = fields r.
Proof.
  intros r l. unfold http_content_type. destruct (http_expect_key _ _) as [l1 [|]]; cbn [negb]; [|reflexivity].
  destruct (next_value l1) as [l2 [v|]]; reflexivity.
Qed.

Lemma field_kv_good : forall r l, lex_inv l -> (length (fields r) <= 32)%nat ->
  match http_field_kv r l with
  | Ok x => kv_good r l x /\ (length (fields (fst (fst x))) <= 32)%nat
  | Fault e => e = OobWrite /\ length (fields r) = 32%nat
  end.
Proof.
  intros r l Hi H32. unfold http_field_kv. set (l0 := set_state LS_KEY l).
  pose proof (next_step l0 Hi) as [Hs Ht]. pose proof (next_started l0) as Hst.
  destruct (next_token l0) as [l1 o]. cbn [fst snd] in *.
  assert (Hs' : step l l1) by exact Hs.
  assert (Hstop : kv_good r l (r, l1, false) /\ (length (fields r) <= 32)%nat).
  { split; [|exact H32]. split; [exact Hs'|]. split; [exact Hst|]. split; [discriminate|].
    pose proof (step_count _ _ Hs'). lia. }
  destruct o as [t|]; [|exact Hstop]. destruct (Ht t eq_refl) as [Ha _].
  destruct t; try exact Hstop.
  destruct (length (fields r) <? HTTP_FIELD_INDEX_MAX)%nat eqn:E; unfold HTTP_FIELD_INDEX_MAX in E; [|split; [reflexivity|lia]].
  assert (Hacc : step l (accept l1)).
  { eapply step_trans; [exact Hs'|]. apply sstep_step. apply accept_step; [apply Hs|exact Ha]. }
  destruct (value_tail l (accept l1) Hacc Hst) as (B1 & B2 & B3).
  destruct (next_value (accept l1)) as [l2 [v'|]]; cbn [fst snd] in *.
  - destruct (B3 v' eq_refl) as (C1 & C2 & C3). split.
    + split; [apply sstep_step; exact C1|]. split; [exact C2|]. split; [intros _; exact C1|].
      cbn [fields]. rewrite app_length. cbn [length]. lia.
    + cbn [fields]. rewrite app_length. cbn [length]. lia.
  - split; [|exact H32]. split; [exact B1|]. split; [exact B2|]. split; [discriminate|].
    pose proof (step_count _ _ B1). lia.
Qed.

Lemma header_kv_good : forall r l, lex_inv l -> (length (fields r) <= 32)%nat ->
  match http_header_kv r l with
  | Ok x => kv_good r l x /\ (length (fields (fst (fst x))) <= 32)%nat
  | Fault e => e = OobWrite /\ length (fields r) = 32%nat
  end.
Proof.
  intros r l Hi H32. unfold http_header_kv.
  pose proof (content_length_good r l Hi) as A. destruct (http_content_length l) as [l1 ok1]. cbn [fst snd] in A.
  destruct ok1; [split; [exact A|exact H32]|].
  pose proof (content_type_good r l1 (proj1 (proj1 A))) as B. pose proof (content_type_fields r l1) as Bf.
  destruct (http_content_type r l1) as [[r2 l2] ok2]. cbn [fst] in Bf.
  pose proof (kv_good_trans _ _ _ _ _ A B) as AB.
  destruct ok2; [split; [exact AB|cbn [fst]; rewrite Bf; exact H32]|].
  pose proof (field_kv_good r2 l2 (proj1 (proj1 B))) as C. rewrite Bf in C. specialize (C H32).
  destruct (http_field_kv r2 l2) as [x|e]; [|exact C].
  split; [|apply C]. eapply kv_good_trans; [exact AB|apply C].
Qed.

Lemma header_loop_good : forall fuel r l, lex_inv l -> started l -> (length (fields r) <= 32)%nat ->
  (length (pos_of l) < fuel)%nat ->
  match http_header_loop fuel r l with
  | Ok (r', l') => lex_inv l' /\ started l'
  | Fault e => e = OobWrite /\ (32 <= length (fields r) + count 13 (pos_of l))%nat
  end.
Proof.
  intros fuel. induction fuel as [|fuel IH]; intros r l Hi Hst H32 Hf; [lia|]. cbn [http_header_loop].
  pose proof (header_kv_good r l Hi H32) as H. destruct (http_header_kv r l) as [[[r1 l1] ok]|e]; cbn [bind].
  - destruct H as [(A1 & A2 & A3 & A4 & A5) A6]. cbn [fst] in A6.
    destruct ok; [|split; [apply A1|auto]].
    pose proof (sstep_shrinks _ _ (A3 eq_refl)).
    specialize (IH r1 l1 (proj1 A1) (A2 Hst) A6 ltac:(lia)).
    destruct (http_header_loop fuel r1 l1) as [[r' l']|e]; [exact IH|].
    destruct IH as [IH1 IH2]. split; [exact IH1|lia].
  - destruct H as [H1 H2]. split; [exact H1|lia].
Qed.

Lemma expect_started : forall k l, started l -> started (fst (http_expect k l)).
Proof.
  intros k l Hs. unfold http_expect, http_peek. pose proof (next_started l Hs) as Hn.
  destruct (next_token l) as [l1 [t|]]; [|exact Hn]. destruct (has_type k t); exact Hn.
Qed.

Lemma parse_total : forall input,
  (exists r, http_req_parse input = Ok r) \/
  (http_req_parse input = Fault OobWrite /\ (33 <= count 13 input)%nat).
Proof.
  intros input. unfold http_req_parse. cbv zeta.
  set (l := httplex_init input).
  assert (Hi : lex_inv l) by (intros C; discriminate).
  assert (Hpos : pos_of l = input) by reflexivity.
  destruct (request_good (S (length input)) l Hi) as (l1 & ok & E & Hs & Hok); [rewrite Hpos; lia|].
  rewrite E. cbn [bind]. destruct ok; cbn [negb]; [|left; exists None; reflexivity].
  destruct (Hok eq_refl) as [Hc Hst]. rewrite Hpos in Hc.
  pose proof (header_loop_good (S (length input)) (mk_req [] None 0) l1 (proj1 Hs) Hst) as Hl.
  cbn [fields length Nat.add] in Hl. specialize (Hl ltac:(lia)).
  pose proof (step_shrinks _ _ Hs) as Hsh. rewrite Hpos in Hsh. specialize (Hl ltac:(lia)).
  unfold http_header.
  destruct (http_header_loop (S (length input)) (mk_req [] None 0) l1) as [[r l2]|e]; cbn [bind].
  - destruct Hl as [Hi2 Hs2]. left.
    pose proof (expect_started K_CR (set_state LS_KEY l2) Hs2) as Hs3.
    destruct (http_expect K_CR (set_state LS_KEY l2)) as [l3 cr]. cbn [fst] in Hs3.
    destruct cr.
    + pose proof (expect_started K_LF l3 Hs3) as Hs4. destruct (http_expect K_LF l3) as [l4 lf]. cbn [fst] in Hs4.
      cbn [bind]. destruct lf; cbn [negb]; [|exists None; reflexivity].
      destruct Hs4 as [n ->]. eexists; reflexivity.
    + cbn [bind negb]. destruct Hs3 as [n ->]. eexists; reflexivity.
  - destruct Hl as [-> Hcnt]. right. split; [reflexivity|lia].
Qed.

(** ** Normalisation and the reply *)
Lemma normalise_ok : forall s, Forall (fun c => isspace c = false) s ->
  tolower_and_remove_ws s = Ok (map lower s).
Proof.
  intros s H. induction H as [|c s Hc H IH]; [reflexivity|]. cbn [tolower_and_remove_ws].
  rewrite Hc, IH. reflexivity.
Qed.

Lemma normalise_hangs : forall s, Exists (fun c => isspace c = true) s ->
  tolower_and_remove_ws s = Fault Diverges.
Proof.
  intros s. induction s as [|c s IH]; intros H; [inversion H|]. cbn [tolower_and_remove_ws].
  destruct (isspace c) eqn:E; [reflexivity|]. inversion H as [? ? H1|? ? H1]; subst; [congruence|].
  rewrite IH by exact H1. reflexivity.
Qed.

Lemma cstr_app0 : forall s rest, Forall (fun c => c <> 0) s -> cstr (s ++ 0 :: rest) = s.
Proof.
  intros s rest H. induction H as [|c s Hc H IH]; [reflexivity|]. cbn [app cstr].
  replace (c =? 0) with false by lia. rewrite IH. reflexivity.
Qed.

Lemma alphabet_nonzero : forall v, 0 <= v -> alphabet v <> 0.
Proof. intros v H. unfold alphabet. repeat match goal with |- context [if ?b then _ else _] => destruct b eqn:? end; lia. Qed.

Lemma of_bits_nonneg : forall l, 0 <= of_bits l.
Proof.
  intros l. unfold of_bits. assert (H : forall l a, 0 <= a -> 0 <= fold_left (fun a (b : bool) => 2 * a + (if b then 1 else 0)) l a).
  { induction l0 as [|b l0 IH]; intros a Ha; [exact Ha|]. cbn [fold_left]. apply IH. destruct b; lia. }
  apply H. lia.
Qed.

Lemma rfc_nonzero : forall bs, Forall (fun c => c <> 0) (rfc4648 bs).
Proof.
  intros bs. unfold rfc4648. apply Forall_app. split.
  - apply Forall_forall. intros x Hx. apply in_map_iff in Hx. destruct Hx as (g & <- & _).
    apply alphabet_nonzero, of_bits_nonneg.
  - apply Forall_forall. intros x Hx. apply repeat_spec in Hx. subst. unfold pad_char. lia.
Qed.

Lemma encoded_text : forall bs, all_bytes bs -> cstr (base64_encode bs) = rfc4648 bs.
Proof. intros bs H. rewrite encode_rfc by exact H. apply (cstr_app0 _ []). apply rfc_nonzero. Qed.

Lemma encoded_20 : forall bs, all_bytes bs -> length bs = 20%nat -> length (rfc4648 bs) = 28%nat.
Proof.
  intros bs H H20. pose proof (encode_length bs) as E. rewrite encode_rfc in E by exact H.
  rewrite app_length, H20 in E. unfold BASE64_ENCODED_SIZE in E. cbn [length] in E. change (Z.of_nat 20) with 20 in E.
  change ((4 * 20 / 3 + 3) / 4 * 4 + 1) with 29 in E. lia.
Qed.

Definition versions_text (n : nat) : list Z := COMMA :: concat (repeat (codes "13,"%string) n).

Lemma same_strcase : forall a b, strcaseeq a b = same_name a b.
Proof. intros a b. apply strcaseeq_spec. Qed.

Lemma concat_repeat_snoc : forall (x : list Z) n, concat (repeat x (S n)) = concat (repeat x n) ++ x.
Proof.
  intros x n. induction n as [|n IH]; [cbn; rewrite app_nil_r; reflexivity|].
  change (concat (repeat x (S (S n)))) with (x ++ concat (repeat x (S n))). rewrite IH at 1.
  change (concat (repeat x (S n))) with (x ++ concat (repeat x n)). rewrite <- app_assoc. reflexivity.
Qed.

Lemma versions_snoc : forall n, versions_text n ++ codes "13"%string ++ [COMMA] = versions_text (S n).
Proof. intros n. unfold versions_text. rewrite concat_repeat_snoc. reflexivity. Qed.

Lemma versions_length : forall n, length (versions_text n) = (1 + 3 * n)%nat.
Proof.
  intros n. unfold versions_text. cbn [length].
  assert (H : length (concat (repeat (codes "13,"%string) n)) = (3 * n)%nat); [|lia].
  induction n as [|n IH]; [reflexivity|].
  cbn [repeat concat]. rewrite app_length, IH. change (length (codes "13,"%string)) with 3%nat. lia.
Qed.

Lemma versions_normal : forall n, tolower_and_remove_ws (versions_text n) = Ok (versions_text n).
Proof.
  intros n. assert (H : tolower_and_remove_ws (concat (repeat (codes "13,"%string) n)) = Ok (concat (repeat (codes "13,"%string) n))).
  { induction n as [|n IH]; [reflexivity|]. cbn [repeat concat].
    change (codes "13,"%string) with [49; 51; 44]. cbn [app tolower_and_remove_ws].
    change (codes "13,"%string) with [49; 51; 44] in IH. rewrite IH. reflexivity. }
  unfold versions_text. cbn [tolower_and_remove_ws]. rewrite H. reflexivity.
Qed.

Lemma scan_plain : forall hs ch n,
  lines_named (codes "Sec-WebSocket-Protocol"%string) hs = [] ->
  Forall (fun h => val h = codes "13"%string) (lines_named (codes "Sec-WebSocket-Version"%string) hs) ->
  (n + length (lines_named (codes "Sec-WebSocket-Version"%string) hs) <= 80)%nat ->
  scan_fields (map kv hs) ch [COMMA] (versions_text n) =
    Ok (match last_value (codes "Sec-WebSocket-Key"%string) hs with Some v => Some v | None => ch end,
        [COMMA], versions_text (n + length (lines_named (codes "Sec-WebSocket-Version"%string) hs))).
Proof.
  induction hs as [|h hs IH]; intros ch n Hp Hv Hn.
  - cbn. rewrite Nat.add_0_r. reflexivity.
  - cbn [map kv scan_fields]. unfold kv at 1. rewrite !same_strcase. cbn [lines_named filter] in *.
    destruct (same_name (name h) (codes "Sec-WebSocket-Protocol"%string)); [discriminate|].
    cbn [bind].
    assert (Hch : forall x : option (list Z), match last_value (codes "Sec-WebSocket-Key"%string) (h :: hs) with Some v => Some v | None => ch end
       = match last_value (codes "Sec-WebSocket-Key"%string) hs with Some v => Some v
         | None => if same_name (name h) (codes "Sec-WebSocket-Key"%string) then Some (val h) else ch end).
    { intros _. cbn [last_value]. destruct (last_value _ hs); [reflexivity|].
      destruct (same_name (name h) (codes "Sec-WebSocket-Key"%string)); reflexivity. }
    rewrite (Hch None).
    destruct (same_name (name h) (codes "Sec-WebSocket-Version"%string)).
    + inversion Hv as [|? ? Hval Hv']; subst. rewrite Hval, versions_snoc.
      cbn [length] in Hn. unfold snprintf_trunc. rewrite firstn_all2 by (rewrite versions_length; lia).
      rewrite versions_normal. cbn [bind]. rewrite IH; [|exact Hp|exact Hv'|unfold lines_named; lia].
      cbn [length]. rewrite Nat.add_succ_r. reflexivity.
    + cbn [bind]. apply IH; [exact Hp|exact Hv|exact Hn].
Qed.

Lemma strstr_versions : forall n, strstr (versions_text (S n)) (codes ",13,"%string) = true.
Proof. intros n. reflexivity. Qed.

Lemma reply_text : forall sha1 challenge hp hv, challenge <> [] -> all_bytes (sha1 (challenge ++ guid)) ->
  handshake_reply sha1 challenge hp hv =
  response (rfc4648 (sha1 (challenge ++ guid)))
    ((if hp then [codes "Sec-WebSocket-Protocol: char"%string] else [])
     ++ (if hv then [codes "Sec-WebSocket-Version: 13"%string] else [])).
Proof.
  intros sha1 ch hp hv Hne Hb. unfold handshake_reply.
  replace (hash_input [ch; magic_uuid]) with (ch ++ guid).
  2:{ destruct ch; [contradiction|]. cbn [hash_input magic_uuid codes list_ascii_of_string map].
      unfold guid, magic_uuid. rewrite app_nil_r. reflexivity. }
  rewrite encoded_text by exact Hb. unfold response.
  destruct hp, hv; cbn [app map concat]; unfold CRLF, CR, LF, crlf; rewrite <- !app_assoc; reflexivity.
Qed.

Lemma response_fits : forall t hp hv, length t = 28%nat ->
  (length (response t ((if hp : bool then [codes "Sec-WebSocket-Protocol: char"%string] else [])
     ++ (if hv : bool then [codes "Sec-WebSocket-Version: 13"%string] else []))) <? 512)%nat = true.
Proof.
  intros t hp hv H. unfold response. destruct hp, hv; cbn [app map concat]; rewrite !app_length, H; reflexivity.
Qed.

Lemma plain_named : forall n hs,
  same_name n (codes "Content-Length"%string) = false -> same_name n (codes "Content-Type"%string) = false ->
  lines_named n (plain hs) = lines_named n hs /\ last_value n (plain hs) = last_value n hs.
Proof.
  intros n hs H1 H2.
  assert (Hx : forall h m, same_name (name h) m = true -> same_name n m = false -> same_name (name h) n = false).
  { unfold same_name. intros h m A B.
    destruct (list_eq_dec Z.eq_dec (map lower (name h)) (map lower m)) as [E|]; [|discriminate].
    destruct (list_eq_dec Z.eq_dec (map lower n) (map lower m)) as [|N]; [discriminate|].
    destruct (list_eq_dec Z.eq_dec (map lower (name h)) (map lower n)) as [E'|]; [|reflexivity].
    exfalso. apply N. congruence. }
  induction hs as [|h hs [IH1 IH2]]; [split; reflexivity|]. unfold plain in *. cbn [filter].
  destruct (same_name (name h) (codes "Content-Length"%string)) eqn:E1; cbn [negb andb].
  - pose proof (Hx h _ E1 H1) as E. split.
    + cbn [lines_named filter] in *. rewrite E. exact IH1.
    + cbn [last_value]. rewrite E, IH2. destruct (last_value n hs); reflexivity.
  - destruct (same_name (name h) (codes "Content-Type"%string)) eqn:E2; cbn [negb andb].
    + pose proof (Hx h _ E2 H2) as E. split.
      * cbn [lines_named filter] in *. rewrite E. exact IH1.
      * cbn [last_value]. rewrite E, IH2. destruct (last_value n hs); reflexivity.
    + split.
      * unfold lines_named in *. cbn [filter]. rewrite IH1. reflexivity.
      * cbn [last_value]. rewrite IH2. reflexivity.
Qed.

Lemma filter_le : forall A (f : A -> bool) l, (length (filter f l) <= length l)%nat.
Proof. intros A f l. induction l as [|a l IH]; cbn [filter length]; [lia|]. destruct (f a); cbn [length]; lia. Qed.

Lemma handshake_plain : forall sha1 segs hs rest key,
  (forall m, all_bytes (sha1 m) /\ length (sha1 m) = 20%nat) ->
  valid_path segs -> Forall valid_line hs -> (length (plain hs) <= 32)%nat ->
  last_value (codes "Sec-WebSocket-Key"%string) hs = Some key -> key <> [] ->
  lines_named (codes "Sec-WebSocket-Protocol"%string) hs = [] ->
  Forall (fun h => val h = codes "13"%string) (lines_named (codes "Sec-WebSocket-Version"%string) hs) ->
  ws_handshake sha1 (request segs hs ++ rest) =
    Ok (Some (zlen (request segs hs),
      response (rfc4648 (sha1 (key ++ guid)))
        (match lines_named (codes "Sec-WebSocket-Version"%string) hs with
         | [] => [] | _ => [codes "Sec-WebSocket-Version: 13"%string] end))).
Proof.
  intros sha1 segs hs rest key Hsha Hp Hv H32 Hkey Hne Hpr Hve. unfold ws_handshake.
  destruct (request_parsed segs hs rest Hp Hv H32) as [ct ->]. cbn [bind fields req_header_length].
  destruct (plain_named (codes "Sec-WebSocket-Protocol"%string) hs eq_refl eq_refl) as [P1 _].
  destruct (plain_named (codes "Sec-WebSocket-Version"%string) hs eq_refl eq_refl) as [P2 _].
  destruct (plain_named (codes "Sec-WebSocket-Key"%string) hs eq_refl eq_refl) as [_ P3].
  pose proof (scan_plain (plain hs) None 0) as Hs. rewrite P1, P2, P3, Hkey in Hs.
  change (versions_text 0) with [COMMA] in Hs. rewrite Hs; [|exact Hpr|exact Hve|].
  2:{ rewrite <- P2. unfold lines_named. pose proof (filter_le _ (fun h => same_name (name h) (codes "Sec-WebSocket-Version"%string)) (plain hs)). lia. }
  cbn [bind Nat.add]. set (vs := lines_named (codes "Sec-WebSocket-Version"%string) hs).
  destruct (Hsha (key ++ guid)) as [Hb H20].
  change (length [COMMA] =? 1)%nat with true. cbn [negb andb].
  assert (Hck : (negb (length (versions_text (length vs)) =? 1)%nat && negb (strstr (versions_text (length vs)) (codes ",13,"%string))) = false).
  { destruct vs; [reflexivity|]. cbn [length]. rewrite strstr_versions. apply andb_false_r. }
  rewrite Hck. rewrite (reply_text sha1 key false _ Hne Hb).
  pose proof (response_fits _ false (negb (length (versions_text (length vs)) =? 1)%nat) (encoded_20 _ Hb H20)) as F.
  cbn [app] in *. rewrite F. clear F. unfold zlen.
  assert (Hvs : negb (length (versions_text (length vs)) =? 1)%nat = match vs with [] => false | _ => true end).
  { rewrite versions_length. destruct vs; cbn [length]; [reflexivity|]. apply Bool.negb_true_iff. apply Nat.eqb_neq. lia. }
  rewrite Hvs. destruct vs; reflexivity.
Qed.

Lemma handshake_hangs : forall sha1 segs hs rest h,
  valid_path segs -> Forall valid_line hs -> (length (plain hs) <= 32)%nat ->
  hd_error (lines_named (codes "Sec-WebSocket-Protocol"%string) hs) = Some h ->
  Exists (fun c => isspace c = true) (firstn 254 (val h)) ->
  lines_named (codes "Sec-WebSocket-Version"%string) hs = [] ->
  ws_handshake sha1 (request segs hs ++ rest) = Fault Diverges.
Proof.
  intros sha1 segs hs rest h Hp Hv H32 Hh Hex Hve. unfold ws_handshake.
  destruct (request_parsed segs hs rest Hp Hv H32) as [ct ->]. cbn [bind fields].
  destruct (plain_named (codes "Sec-WebSocket-Protocol"%string) hs eq_refl eq_refl) as [P1 _].
  destruct (plain_named (codes "Sec-WebSocket-Version"%string) hs eq_refl eq_refl) as [P2 _].
  rewrite <- P1 in Hh. rewrite <- P2 in Hve.
  assert (H : forall l ch, hd_error (lines_named (codes "Sec-WebSocket-Protocol"%string) l) = Some h ->
     lines_named (codes "Sec-WebSocket-Version"%string) l = [] ->
     scan_fields (map kv l) ch [COMMA] [COMMA] = Fault Diverges).
  { induction l as [|a l IH]; intros ch Ha Hb; [discriminate|].
    cbn [map scan_fields]. unfold kv at 1. rewrite !same_strcase. cbn [lines_named filter] in Ha, Hb.
    destruct (same_name (name a) (codes "Sec-WebSocket-Version"%string)); [discriminate|].
    destruct (same_name (name a) (codes "Sec-WebSocket-Protocol"%string)).
    - inversion Ha; subst a. unfold snprintf_trunc. rewrite normalise_hangs; [reflexivity|].
      change (firstn (256 - 1) ([COMMA] ++ val h ++ [COMMA])) with (COMMA :: firstn 254 (val h ++ [COMMA])).
      apply Exists_cons_tl.
      rewrite firstn_app. apply Exists_app. left. exact Hex.
    - cbn [bind]. apply IH; assumption. }
  rewrite H by assumption. reflexivity.
Qed.
