From Verif Require Import Common CommonProofs Http_Model Http_Spec Http_Proofs.

Lemma same_length a b : strcaseeq a b = true -> length a = length b.
Proof. revert b. induction a as [|x a IH]; intros [|y b] H; cbn in H; try discriminate H; [reflexivity|]. cbn [length].
  apply andb_prop in H as [_ H]. f_equal. apply IH, H. Qed.

Lemma literal_length s pos v n : classify s pos = Some (T_LITERAL v, n) -> length pos = (length v + length n)%nat.
Proof.
  destruct s; cbn [classify].
  - unfold classify_request. destruct pos as [|c t]; [discriminate|].
    repeat match goal with |- context [if ?b then _ else _] => destruct b; [try discriminate|] end; [|discriminate].
    destruct (span is_literal (c :: t)) as [a r] eqn:E. intros X. injection X as <- <-. apply span_split in E as [E _]. rewrite E. apply app_length.
  - unfold classify_key. destruct pos as [|c t]; [discriminate|].
    repeat match goal with |- context [if ?b then _ else _] => destruct b; [try discriminate|] end; [|discriminate].
    destruct (span is_key_char (c :: t)) as [a [|d r]]; [discriminate|]. destruct (d =? COLON); discriminate.
  - unfold classify_value. destruct (span _ pos) as [a [|x [|y r]]]; try discriminate. destruct (_ && _); discriminate.
Qed.

Lemma literal_takes str l l' : accepted l = true -> http_literal str l = (l', true) ->
  (length (pos_of l') + length str = length (pos_of l))%nat.
Proof.
  intros A H. unfold http_literal, next_token in H. rewrite A in H. cbn [negb] in H.
  set (pos := match nxt l with None => lpos l | Some p => p end) in *.
  assert (P : pos_of l = pos) by (unfold pos_of; rewrite A; reflexivity).
  destruct (classify (lstate l) pos) as [[t n]|] eqn:E; [|discriminate H].
  destruct t; try discriminate H. destruct (strcaseeq str v) eqn:SE; [|discriminate H].
  injection H as <-. apply same_length in SE. apply literal_length in E.
  rewrite P. unfold pos_of. cbn [accept accepted nxt]. lia.
Qed.

Lemma expect_takes k l l' : lex_inv l -> http_expect k l = (l', true) -> lex_inv l' /\ accepted l' = true /\ (length (pos_of l') < length (pos_of l))%nat.
Proof.
  intros Hi H. pose proof (expect_good k l Hi) as [[I _] S1]. rewrite H in *. cbn [fst snd] in *. split; [exact I|].
  split; [|apply sstep_shrinks, S1; reflexivity].
  unfold http_expect, http_peek in H. destruct (next_token l) as [l1 [t|]]; [|discriminate H].
  destruct (has_type k t); [|discriminate H]. injection H as <-. reflexivity.
Qed.

Lemma url_step fuel l l' : lex_inv l -> (length (pos_of l) < fuel)%nat -> http_url fuel l = Ok (l', true) -> step l l'.
Proof.
  intros Hi Hf H. unfold http_url in H.
  destruct (url_path_good fuel l Hi Hf) as (l2 & ok & E2 & Hs2). rewrite E2 in H. cbn [bind] in H.
  assert (Hs3 : exists l3 ok3, (if ok then http_expect K_QUERY l2 else (l2, false)) = (l3, ok3) /\ step l2 l3).
  { destruct ok.
    - destruct (expect_good K_QUERY l2 (proj1 Hs2)) as [G _]. destruct (http_expect K_QUERY l2) as [l3 ok3].
      exists l3, ok3. split; [reflexivity|exact G].
    - exists l2, false. split; [reflexivity|apply step_refl; apply Hs2]. }
  destruct Hs3 as (l3 & ok3 & E3 & Hs3). rewrite E3 in H.
  destruct ok3.
  - pose proof (step_shrinks _ _ Hs2). pose proof (step_shrinks _ _ Hs3).
    destruct (url_query_good fuel l3 (proj1 Hs3)) as (l4 & ok4 & E4 & Hs4); [lia|]. rewrite E4 in H. injection H as <- _.
    eapply step_trans; [exact Hs2|]. eapply step_trans; eassumption.
  - injection H as <-. eapply step_trans; eassumption.
Qed.

Lemma request_takes fuel l l' : lex_inv l -> accepted l = true -> (length (pos_of l) < fuel)%nat -> http_request fuel l = Ok (l', true) ->
  lex_inv l' /\ (length (pos_of l') + 15 <= length (pos_of l))%nat.
Proof.
  intros Hi A Hf H. unfold http_request, andthen in H.
  destruct (http_literal (codes "GET"%string) l) as [l1 ok1] eqn:E1.
  pose proof (literal_good (codes "GET"%string) l Hi) as [[I1 _] _]. rewrite E1 in I1. cbn [fst] in I1.
  destruct ok1; [|discriminate H]. pose proof (literal_takes _ _ _ A E1) as T1. change (length (codes "GET"%string)) with 3%nat in T1.
  destruct (http_expect K_WS l1) as [l2 ok2] eqn:E2. destruct ok2; [|discriminate H].
  destruct (expect_takes _ _ _ I1 E2) as (I2 & _ & T2). cbn [negb] in H.
  destruct (http_url fuel l2) as [[l3 ok3]|] eqn:E3; [|discriminate H]. cbn [bind] in H. destruct ok3; [|discriminate H].
  pose proof (url_step fuel l2 l3 I2 ltac:(lia) E3) as S3. pose proof (step_shrinks _ _ S3) as T3. destruct S3 as [I3 _]. cbn [negb] in H.
  destruct (http_expect K_WS l3) as [l4 ok4] eqn:E4. destruct ok4; [|discriminate H].
  destruct (expect_takes _ _ _ I3 E4) as (I4 & A4 & T4).
  unfold http_version, andthen in H.
  destruct (http_literal (codes "HTTP"%string) l4) as [l5 ok5] eqn:E5.
  pose proof (literal_good (codes "HTTP"%string) l4 I4) as [[I5 _] _]. rewrite E5 in I5. cbn [fst] in I5.
  destruct ok5; [|discriminate H]. pose proof (literal_takes _ _ _ A4 E5) as T5. change (length (codes "HTTP"%string)) with 4%nat in T5.
  destruct (http_expect K_SOLIDUS l5) as [l6 ok6] eqn:E6. destruct ok6; [|discriminate H].
  destruct (expect_takes _ _ _ I5 E6) as (I6 & A6 & T6).
  destruct (http_literal (codes "1.1"%string) l6) as [l7 ok7] eqn:E7.
  pose proof (literal_good (codes "1.1"%string) l6 I6) as [[I7 _] _]. rewrite E7 in I7. cbn [fst] in I7.
  destruct ok7; [|discriminate H]. pose proof (literal_takes _ _ _ A6 E7) as T7. change (length (codes "1.1"%string)) with 3%nat in T7.
  destruct (http_expect K_CR l7) as [l8 ok8] eqn:E8. destruct ok8; [|discriminate H].
  destruct (expect_takes _ _ _ I7 E8) as (I8 & _ & T8).
  destruct (http_expect K_LF l8) as [l9 ok9] eqn:E9. injection H as H9 ->. subst l9.
  destruct (expect_takes _ _ _ I8 E9) as (I9 & _ & T9). split; [exact I9|lia].
Qed.

Lemma header_loop_step : forall fuel r l r' l', lex_inv l -> (length (fields r) <= 32)%nat ->
  http_header_loop fuel r l = Ok (r', l') -> step l l'.
Proof.
  intros fuel. induction fuel as [|fuel IH]; intros r l r' l' Hi H32 H; [discriminate H|]. cbn [http_header_loop] in H.
  pose proof (header_kv_good r l Hi H32) as K. destruct (http_header_kv r l) as [[[r1 l1] ok]|e]; cbn [bind] in H; [|discriminate H].
  destruct K as [(A1 & A2 & A3 & A4 & A5) A6]. cbn [fst] in A6.
  destruct ok; [|injection H as <- <-; exact A1].
  eapply step_trans; [exact A1|]. eapply IH; [exact (proj1 A1)|exact A6|exact H].
Qed.

Lemma next_within l n : lex_inv l -> nxt l = Some n -> (length n <= length (pos_of l))%nat.
Proof.
  intros Hi N. destruct (accepted l) eqn:A.
  - unfold pos_of. rewrite A, N. lia.
  - destruct (Hi A) as (n' & c & p & Hn & Hp & _). rewrite N in Hn. injection Hn as <-. unfold pos_of. rewrite A, Hp.
    cbn [app length]. rewrite app_length. lia.
Qed.

Lemma accepted_length input req : http_req_parse input = Ok (Some req) -> (15 <= req_header_length req <= length input)%nat.
Proof.
  intros H. unfold http_req_parse in H. cbv zeta in H. set (l := httplex_init input) in *.
  assert (Hi : lex_inv l) by (intros C; discriminate).
  assert (Hpos : pos_of l = input) by reflexivity.
  destruct (http_request (S (length input)) l) as [[l1 ok]|] eqn:E; [|discriminate H]. cbn [bind] in H.
  destruct ok; cbn [negb] in H; [|discriminate H].
  destruct (request_takes (S (length input)) l l1 Hi eq_refl ltac:(rewrite Hpos; lia) E) as [I1 T1]. rewrite Hpos in T1.
  unfold http_header in H.
  destruct (http_header_loop (S (length input)) (mk_req [] None 0) l1) as [[r l2]|e] eqn:E2; [|discriminate H]. cbn [bind] in H.
  assert (F0 : (length (fields (mk_req [] None 0)) <= 32)%nat) by (cbn [fields length]; lia).
  pose proof (header_loop_step _ _ _ _ _ I1 F0 E2) as S2. pose proof (step_shrinks _ _ S2) as T2. destruct S2 as [I2 _].
  assert (I3 : lex_inv (set_state LS_KEY l2)) by exact I2.
  pose proof (expect_good K_CR (set_state LS_KEY l2) I3) as [S3 _].
  destruct (http_expect K_CR (set_state LS_KEY l2)) as [l3 cr]. cbn [fst] in S3.
  pose proof (step_shrinks _ _ S3) as T3. destruct S3 as [I4 _]. change (pos_of (set_state LS_KEY l2)) with (pos_of l2) in T3.
  destruct cr.
  - pose proof (expect_good K_LF l3 I4) as [S4 _]. destruct (http_expect K_LF l3) as [l4 lf]. cbn [fst] in S4.
    pose proof (step_shrinks _ _ S4) as T4. destruct S4 as [I5 _]. cbn [bind] in H. destruct lf; cbn [negb] in H; [|discriminate H].
    destruct (nxt l4) as [n|] eqn:N; [|discriminate H]. injection H as <-. cbn [req_header_length].
    pose proof (next_within l4 n I5 N). lia.
  - cbn [bind negb] in H. destruct (nxt l3) as [n|] eqn:N; [|discriminate H]. injection H as <-. cbn [req_header_length].
    pose proof (next_within l3 n I4 N). lia.
Qed.
