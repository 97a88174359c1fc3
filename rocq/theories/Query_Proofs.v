(** Proofs for Query_Props.v. *)
From Verif Require Import Common CommonProofs Http_Model Http_Spec Http_Proofs Query_Spec.

(** A path with at least one segment, up to any token other than a slash. *)
Lemma path_until : forall segs, valid_path segs -> segs <> [] -> forall fuel l r t x,
  (length segs < fuel)%nat -> lstate l = LS_REQUEST ->
  classify_request r = Some (t, x) -> has_type K_SOLIDUS t = false -> is_literal (hd 0 r) = false -> r <> [] ->
  (at_ (path_bytes segs ++ r) l \/
   (exists s segs', segs = s :: segs' /\ peeked T_SOLIDUS (s ++ concat (map (fun s => 47 :: s) segs') ++ r) l)) ->
  exists l', http_url_path fuel l = Ok (l', true) /\ lstate l' = LS_REQUEST /\ peeked t x l'.
Proof.
  intros segs Hv Hne. induction segs as [|s segs IH]; [contradiction|].
  intros fuel l r t x Hf Hst Hr Ht Hlit Hrn Hl.
  inversion Hv as [|? ? [Hn Hs] Hv']; subst.
  destruct fuel as [|fuel]; [cbn in Hf; lia|]. cbn [http_url_path].
  set (more := concat (map (fun s => 47 :: s) segs)).
  assert (Hsl : forall c t, s = c :: t -> c <> 47).
  { intros c t0 ->. inversion Hs as [|? ? Hc _]; subst. apply Hc. }
  assert (Hmore : match more ++ r with [] => True | c :: _ => is_literal c = false end).
  { unfold more. destruct segs; cbn; [|reflexivity]. destruct r; [exact I|exact Hlit]. }
  assert (Hexp : exists l1, http_expect K_SOLIDUS l = (l1, true) /\ at_ (s ++ more ++ r) l1 /\ lstate l1 = LS_REQUEST).
  { destruct Hl as [Hl|(s' & segs' & E & Hl)].
    - destruct (expect_at K_SOLIDUS l (47 :: s ++ more ++ r) T_SOLIDUS (s ++ more ++ r)) as (l1 & E1 & Ha1 & Hs1).
      + cbn [path_bytes map concat app] in Hl. rewrite <- !app_assoc in Hl. exact Hl.
      + rewrite Hst. apply classify_slash. destruct s as [|c t0]; [contradiction|]. cbn. apply (Hsl c t0 eq_refl).
      + reflexivity.
      + exists l1. split; [exact E1|]. split; [exact Ha1|congruence].
    - inversion E; subst. destruct (expect_peeked K_SOLIDUS _ _ _ Hl eq_refl) as (l1 & E1 & Ha1 & Hs1).
      exists l1. split; [exact E1|]. split; [exact Ha1|congruence]. }
  destruct Hexp as (l1 & E1 & Ha1 & Hs1). rewrite E1. cbn [negb].
  destruct (next_at l1 (s ++ more ++ r) (T_LITERAL s) (more ++ r) Ha1) as (l2 & E2 & Hp2 & Hs2).
  { rewrite Hs1. apply classify_literal; assumption. }
  rewrite E2. destruct (accept_at _ _ _ Hp2) as [Ha3 Hs3].
  unfold http_peek. destruct segs as [|s2 segs].
  - subst more. cbn [map concat app] in *.
    destruct (next_at (accept l2) r t x Ha3) as (l4 & E4 & Hp4 & Hs4).
    { rewrite Hs3, Hs2, Hs1. exact Hr. }
    rewrite E4, Ht. exists l4. split; [reflexivity|]. split; [congruence|exact Hp4].
  - subst more. cbn [map concat app] in Ha3. rewrite <- app_assoc in Ha3.
    set (more2 := concat (map (fun s => 47 :: s) segs)) in *.
    destruct (next_at (accept l2) (47 :: s2 ++ more2 ++ r) T_SOLIDUS (s2 ++ more2 ++ r) Ha3) as (l4 & E4 & Hp4 & Hs4).
    { rewrite Hs3, Hs2, Hs1. apply classify_slash.
      inversion Hv' as [|? ? [Hn2 Hs2'] _]; subst. destruct s2 as [|c t0]; [contradiction|].
      inversion Hs2' as [|? ? Hc _]; subst. cbn. apply Hc. }
    rewrite E4. cbn [has_type].
    apply (IH Hv' ltac:(discriminate) fuel l4 r t x); try assumption.
    + cbn [length] in *. lia.
    + congruence.
    + right. exists s2, segs. split; [reflexivity|exact Hp4].
Qed.

(** A query up to the space after it. *)
Lemma query_until : forall qs, valid_query qs -> qs <> [] -> forall fuel l y,
  (length qs < fuel)%nat -> lstate l = LS_REQUEST ->
  match y with [] => True | c :: _ => is_blank c = false end ->
  at_ (query_bytes qs ++ 32 :: y) l ->
  exists l', http_url_query fuel l = Ok (l', true) /\ lstate l' = LS_REQUEST /\ peeked T_WS y l'.
Proof.
  intros qs Hv Hne. induction qs as [|[k v] qs IH]; [contradiction|].
  intros fuel l y Hf Hst Hy Ha. inversion Hv as [|? ? [[Kn Ks] [Vn Vs]] Hv']; subst. cbn [fst snd] in *.
  destruct fuel as [|fuel]; [cbn in Hf; lia|]. cbn [http_url_query]. unfold andthen.
  set (after := match qs with [] => 32 :: y | _ => 38 :: query_bytes qs ++ 32 :: y end).
  assert (Hb : query_bytes ((k, v) :: qs) ++ 32 :: y = k ++ 61 :: v ++ after).
  { unfold after. destruct qs; cbn [query_bytes]; rewrite <- app_assoc; cbn [app]; [reflexivity|].
    rewrite <- app_assoc. reflexivity. }
  rewrite Hb in Ha.
  destruct (expect_at K_LITERAL l _ (T_LITERAL k) (61 :: v ++ after) Ha) as (l1 & E1 & A1 & S1).
  { rewrite Hst. apply classify_literal; [assumption..|reflexivity]. } { reflexivity. }
  rewrite E1.
  destruct (expect_at K_EQ l1 _ T_EQ (v ++ after) A1) as (l2 & E2 & A2 & S2).
  { rewrite S1, Hst. reflexivity. } { reflexivity. }
  rewrite E2.
  destruct (expect_at K_LITERAL l2 _ (T_LITERAL v) after A2) as (l3 & E3 & A3 & S3).
  { rewrite S2, S1, Hst. apply classify_literal; [assumption..|]. unfold after. destruct qs; reflexivity. } { reflexivity. }
  rewrite E3. destruct qs as [|q qs].
  - unfold after in A3. destruct (next_at l3 (32 :: y) T_WS y A3) as (l4 & E4 & P4 & S4).
    { rewrite S3, S2, S1, Hst. apply classify_space. exact Hy. }
    unfold http_expect, http_peek. rewrite E4. cbn [has_type]. exists l4.
    split; [reflexivity|]. split; [congruence|exact P4].
  - unfold after in A3. destruct (expect_at K_AMPERSAND l3 _ T_AMPERSAND (query_bytes (q :: qs) ++ 32 :: y) A3) as (l4 & E4 & A4 & S4).
    { rewrite S3, S2, S1, Hst. reflexivity. } { reflexivity. }
    rewrite E4. apply IH; [exact Hv'|discriminate|cbn [length] in *; lia|congruence|exact Hy|exact A4].
Qed.

Lemma line_ok : forall segs qs rest fuel, valid_path segs -> segs <> [] -> valid_query qs -> qs <> [] ->
  (length segs < fuel)%nat -> (length qs < fuel)%nat ->
  exists l, http_request fuel (httplex_init (codes "GET "%string ++ (path_bytes segs ++ query qs) ++ codes " HTTP/1.1"%string ++ crlf ++ rest)) = Ok (l, true)
    /\ at_ rest l.
Proof.
  intros segs qs rest fuel Hv Hne Hq Hqn Hf Hg. unfold http_request.
  set (r1 := codes "HTTP/1.1"%string ++ crlf ++ rest).
  assert (Hin : codes "GET "%string ++ (path_bytes segs ++ query qs) ++ codes " HTTP/1.1"%string ++ crlf ++ rest =
    codes "GET"%string ++ 32 :: path_bytes segs ++ 63 :: query_bytes qs ++ 32 :: r1).
  { unfold query, r1. rewrite <- !app_assoc. reflexivity. }
  rewrite Hin. set (r0 := 63 :: query_bytes qs ++ 32 :: r1) in *.
  set (l0 := httplex_init _).
  assert (Ha0 : at_ (codes "GET"%string ++ 32 :: path_bytes segs ++ r0) l0) by (split; [reflexivity|right; repeat split; discriminate]).
  assert (Hp0 : exists p, path_bytes segs ++ r0 = 47 :: p).
  { destruct segs as [|s segs]; cbn [path_bytes map concat app]; eexists; reflexivity. }
  destruct (literal_at (codes "GET"%string) l0 _ (codes "GET"%string) (32 :: path_bytes segs ++ r0) Ha0) as (l1 & E1 & Ha1 & Hs1).
  { reflexivity. } { reflexivity. }
  unfold andthen at 1. rewrite E1.
  destruct (expect_at K_WS l1 _ T_WS (path_bytes segs ++ r0) Ha1) as (l2 & E2 & Ha2 & Hs2).
  { rewrite Hs1. apply classify_space. destruct Hp0 as [p ->]. reflexivity. } { reflexivity. }
  rewrite E2. cbn [negb]. unfold http_url.
  destruct (path_until segs Hv Hne fuel l2 r0 T_QUERY (query_bytes qs ++ 32 :: r1) Hf) as (l3 & E3 & Hs3 & Hp3);
    [rewrite Hs2, Hs1; reflexivity|reflexivity|reflexivity|reflexivity|discriminate|left; exact Ha2|].
  rewrite E3. cbn [bind].
  destruct (expect_peeked K_QUERY l3 T_QUERY _ Hp3 eq_refl) as (l4 & E4 & Ha4 & Hs4). rewrite E4.
  destruct (query_until qs Hq Hqn fuel l4 r1 Hg) as (l5 & E5 & Hs5 & Hp5); [congruence|reflexivity|exact Ha4|].
  rewrite E5. cbn [bind negb].
  destruct (expect_peeked K_WS l5 T_WS r1 Hp5 eq_refl) as (l6 & E6 & Ha6 & Hs6).
  unfold andthen. rewrite E6. unfold http_version, andthen.
  destruct (literal_at (codes "HTTP"%string) l6 r1 (codes "HTTP"%string) (codes "/1.1"%string ++ crlf ++ rest) Ha6) as (l7 & E7 & Ha7 & Hs7).
  { rewrite Hs6, Hs5. reflexivity. } { reflexivity. }
  rewrite E7.
  destruct (expect_at K_SOLIDUS l7 _ T_SOLIDUS (codes "1.1"%string ++ crlf ++ rest) Ha7) as (l8 & E8 & Ha8 & Hs8).
  { rewrite Hs7, Hs6, Hs5. reflexivity. } { reflexivity. }
  rewrite E8.
  destruct (literal_at (codes "1.1"%string) l8 _ (codes "1.1"%string) (crlf ++ rest) Ha8) as (l9 & E9 & Ha9 & Hs9).
  { rewrite Hs8, Hs7, Hs6, Hs5. reflexivity. } { reflexivity. }
  rewrite E9.
  destruct (expect_at K_CR l9 _ T_CR (10 :: rest) Ha9) as (l10 & E10 & Ha10 & Hs10).
  { rewrite Hs9, Hs8, Hs7, Hs6, Hs5. reflexivity. } { reflexivity. }
  rewrite E10.
  destruct (expect_at K_LF l10 _ T_LF rest Ha10) as (l11 & E11 & Ha11 & Hs11).
  { rewrite Hs10, Hs9, Hs8, Hs7, Hs6, Hs5. reflexivity. } { reflexivity. }
  rewrite E11. exists l11. split; [reflexivity|exact Ha11].
Qed.

Lemma query_length : forall qs, valid_query qs -> (length qs <= length (query qs))%nat.
Proof.
  intros qs Hq. unfold query. cbn [length]. enough (length qs <= length (query_bytes qs))%nat by lia.
  induction qs as [|[k v] qs IH]; [cbn; lia|]. inversion Hq as [|? ? [[Kn _] _] Hq']; subst. specialize (IH Hq').
  cbn [fst] in Kn. destruct qs as [|q qs].
  - cbn [query_bytes length]. rewrite app_length. cbn [length]. lia.
  - change (query_bytes ((k, v) :: q :: qs)) with (k ++ 61 :: v ++ 38 :: query_bytes (q :: qs)).
    rewrite app_length. cbn [length] in *. rewrite app_length. cbn [length]. lia.
Qed.

Lemma parsed_query : forall segs qs hs rest, valid_path segs -> segs <> [] -> valid_query qs -> qs <> [] -> Forall valid_line hs ->
  let r := request_for (path_bytes segs ++ query qs) hs in
  if (length (plain hs) <=? 32)%nat
  then exists ct, http_req_parse (r ++ rest) = Ok (Some (mk_req (map kv (plain hs)) ct (length r)))
  else http_req_parse (r ++ rest) = Fault OobWrite.
Proof.
  intros segs qs hs rest Hp Hne Hq Hqn Hv r. unfold http_req_parse.
  set (input := r ++ rest).
  assert (Hin : input = codes "GET "%string ++ (path_bytes segs ++ query qs) ++ codes " HTTP/1.1"%string ++ crlf ++ (concat (map line_bytes hs) ++ crlf ++ rest)).
  { unfold input, r, request_for. rewrite <- !app_assoc. reflexivity. }
  pose proof (head_length segs Hp) as H1. pose proof (lines_length hs). pose proof (query_length qs Hq) as H3.
  assert (Hlen : (length segs < S (length input) /\ length qs < S (length input) /\ length hs < S (length input))%nat).
  { assert (H4 : (length input = length (request_head segs) + length (query qs) + length (concat (map line_bytes hs) ++ crlf ++ rest))%nat)
      by (rewrite Hin; unfold request_head; rewrite !app_length; lia).
    rewrite H4, app_length. lia. }
  destruct (line_ok segs qs (concat (map line_bytes hs) ++ crlf ++ rest) (S (length input)) Hp Hne Hq Hqn) as (l & E & Ha); [lia|lia|].
  rewrite <- Hin in E. cbv zeta. rewrite E. cbn [bind negb].
  pose proof (lines_loop hs Hv (S (length input)) (mk_req [] None 0) l (crlf ++ rest)) as Hl.
  cbn [fields length Nat.add] in Hl. destruct (length (plain hs) <=? 32)%nat.
  - destruct Hl as (r' & l' & E' & Ha' & Ef); [lia|exact Ha|].
    rewrite (http_header_unfold _ _ _ _ _ _ E').
    destruct (header_end (S (length input) - length hs) r' l' rest) as (l2 & E2 & Hn); [lia|exact Ha'|].
    rewrite E2. cbn [bind negb]. rewrite Hn. cbn [app] in Ef. rewrite Ef.
    exists (content_type r'). do 3 f_equal. unfold input. rewrite app_length. lia.
  - unfold http_header. rewrite Hl; [reflexivity|lia|exact Ha|lia].
Qed.

Lemma request_is : forall segs hs, request segs hs = request_for (path_bytes segs) hs.
Proof. intros. unfold request, request_head, request_for. rewrite <- !app_assoc. reflexivity. Qed.

Lemma same_answer : forall sha1 segs qs hs rest, valid_path segs -> segs <> [] -> valid_query qs -> qs <> [] -> Forall valid_line hs ->
  ws_handshake sha1 (request_for (path_bytes segs ++ query qs) hs ++ rest) =
  longer (zlen (query qs)) (ws_handshake sha1 (request_for (path_bytes segs) hs ++ rest)).
Proof.
  intros sha1 segs qs hs rest Hp Hne Hq Hqn Hv. rewrite <- request_is. unfold ws_handshake.
  pose proof (parsed_query segs qs hs rest Hp Hne Hq Hqn Hv) as P. cbv zeta in P.
  destruct (length (plain hs) <=? 32)%nat eqn:N.
  - destruct P as [ct ->]. destruct (request_parsed segs hs rest Hp Hv) as [ct2 ->]; [lia|].
    cbn [bind fields req_header_length].
    destruct (scan_fields _ _ _ _) as [[[ch pr] ve]|]; cbn [bind]; [|reflexivity].
    destruct ch as [ch|]; [|reflexivity].
    destruct (_ && _); [reflexivity|]. destruct (_ && _); [reflexivity|].
    destruct (_ <? _)%nat; [|reflexivity]. cbn [longer]. do 3 f_equal.
    rewrite request_is. unfold request_for, zlen. rewrite !app_length. lia.
  - rewrite P. rewrite request_overflow by (assumption || lia). reflexivity.
Qed.

(** A query right after a slash is not understood. *)
Lemma root_query : forall rest, http_req_parse (codes "GET /?"%string ++ rest) = Ok None.
Proof. intros rest. reflexivity. Qed.

Lemma root_refused : forall sha1 rest, ws_handshake sha1 (codes "GET /?"%string ++ rest) = Ok None.
Proof. intros. unfold ws_handshake. rewrite root_query. reflexivity. Qed.
