(** Proofs about the server's RSA key. *)
From Verif Require Import Common CommonProofs Base64_Model Base64_Spec Base64_Proofs Pem_Model Pem_Spec.

Definition no_nl (l : list Z) : Prop := Forall (fun c => c <> 10) l.

Lemma lines_line l rest : no_nl l -> lines (l ++ 10 :: rest) = (l ++ [10]) :: lines rest.
Proof.
  induction l as [|c l IH]; intros N; cbn [app lines]; [reflexivity|].
  inversion N; subst. replace (c =? 10) with false by lia. now rewrite IH.
Qed.
Lemma lines_last l : no_nl l -> l <> [] -> lines l = [l].
Proof.
  induction l as [|c l IH]; intros N E; [contradiction|]. inversion N; subst. cbn [lines]. replace (c =? 10) with false by lia.
  destruct l as [|d l]; [reflexivity|]. rewrite IH; [reflexivity|assumption|discriminate].
Qed.
(* a line that starts with a text without newlines *)
Lemma lines_start p rest : no_nl p -> p <> [] -> exists l ls, lines (p ++ rest) = (p ++ l) :: ls.
Proof.
  induction p as [|c p IH]; intros N E; [contradiction|]. inversion N; subst. cbn [app lines]. replace (c =? 10) with false by lia.
  destruct p as [|d p].
  - cbn [app]. destruct (lines rest) as [|l ls]; [exists [], []; reflexivity|exists l, ls; reflexivity].
  - destruct IH as (l & ls & ->); [assumption|discriminate|]. exists l, ls. reflexivity.
Qed.

Definition clean (l : list Z) : Prop := Forall (fun c => c <> 10 /\ c <> 0) l.
Lemma before_newline_clean l rest c : clean l -> c = 10 \/ c = 0 -> before_newline (l ++ c :: rest) = l.
Proof.
  intros N C. induction N as [|x l [X1 X2] N IH]; cbn [app before_newline].
  - destruct C as [->| ->]; reflexivity.
  - replace ((x =? 10) || (x =? 0)) with false by lia. now rewrite IH.
Qed.
Lemma before_newline_all l : clean l -> before_newline l = l.
Proof. induction 1 as [|x l [X1 X2] N IH]; cbn [before_newline]; [reflexivity|]. replace ((x =? 10) || (x =? 0)) with false by lia. now rewrite IH. Qed.
Lemma before_newline_is_clean l : clean (before_newline l).
Proof. induction l as [|c l IH]; cbn [before_newline]; [constructor|]. destruct ((c =? 10) || (c =? 0)) eqn:E; constructor; [lia|exact IH]. Qed.
Lemma before_newline_bytes l : all_bytes l -> all_bytes (before_newline l).
Proof. induction 1; cbn [before_newline]; [constructor|]. destruct ((x =? 10) || (x =? 0)); constructor; assumption. Qed.

Lemma starts_app p l : starts p (p ++ l) = true.
Proof. induction p as [|a p IH]; cbn [app starts]; [reflexivity|]. now rewrite Z.eqb_refl, IH. Qed.
Lemma starts_prefix p l : starts p l = true -> exists r, l = p ++ r.
Proof.
  revert l. induction p as [|a p IH]; intros l H; [eexists; reflexivity|]. destruct l as [|b l]; [discriminate|].
  cbn [starts] in H. apply Bool.andb_true_iff in H as [E H]. destruct (IH l H) as [r ->]. exists r. cbn. f_equal. lia.
Qed.
Lemma starts_both p l : starts p l && starts l p = true -> l = p.
Proof.
  intros H. apply Bool.andb_true_iff in H as [A B]. apply starts_prefix in A as [r ->]. apply starts_prefix in B as [r' E].
  rewrite <- app_assoc in E. rewrite <- (app_nil_r p) in E at 1. apply app_inv_head in E. symmetry in E. apply app_eq_nil in E as [-> _].
  apply app_nil_r.
Qed.
Lemma starts_refl p : starts p p = true.
Proof. rewrite <- (app_nil_r p) at 2. apply starts_app. Qed.

(* the alphabet has neither newlines nor dashes *)
Definition letter (c : Z) : Prop := c <> 10 /\ c <> 0 /\ c <> 45.
Lemma of_bits_nonneg l : 0 <= of_bits l.
Proof.
  unfold of_bits. assert (G : forall a, 0 <= a -> 0 <= fold_left (fun a (b : bool) => 2 * a + (if b then 1 else 0)) l a).
  { induction l as [|b l IH]; intros a A; cbn [fold_left]; [exact A|]. apply IH. destruct b; lia. }
  apply G. lia.
Qed.
Lemma rfc_letters bs : Forall letter (rfc4648 bs).
Proof.
  unfold rfc4648. apply Forall_app. split.
  - apply Forall_map. apply Forall_forall. intros g _. pose proof (of_bits_nonneg (fill 6 g)). unfold letter, alphabet.
    repeat match goal with |- context [if ?b then _ else _] => destruct b eqn:? end; lia.
  - apply Forall_forall. intros x H. apply repeat_spec in H. subst x. unfold letter, pad_char. lia.
Qed.
Lemma letters_clean l : Forall letter l -> clean l.
Proof. apply Forall_impl. unfold letter. intros; lia. Qed.
Lemma letters_no_nl l : Forall letter l -> no_nl l.
Proof. apply Forall_impl. unfold letter. intros; lia. Qed.

Lemma letters_not_end l rest : Forall letter l -> starts (codes "-----END") (l ++ 10 :: rest) = false.
Proof.
  intros H. destruct l as [|c l]; [reflexivity|]. inversion H as [|? ? L]; subst. unfold letter in L.
  change (codes "-----END") with (45 :: codes "----END"). cbn [app starts]. replace (45 =? c) with false by lia. reflexivity.
Qed.

Lemma lines_body chunks rest : Forall (Forall letter) chunks ->
  body (lines (concat (map (fun l => l ++ [10]) chunks) ++ rest)) = concat chunks ++ body (lines rest).
Proof.
  induction 1 as [|l chunks L H IH]; cbn [map concat app]; [reflexivity|].
  rewrite <- !app_assoc. cbn [app]. rewrite lines_line by now apply letters_no_nl.
  cbn [body]. rewrite letters_not_end by exact L. rewrite before_newline_clean; [|now apply letters_clean|now left].
  now rewrite IH.
Qed.
Lemma body_end after : body (lines (end_line ++ after)) = [].
Proof.
  destruct (lines_start end_line after) as (l & ls & ->); [repeat (apply Forall_cons; [cbn; lia|]); constructor|discriminate|].
  cbn [body]. replace (starts (codes "-----END") (end_line ++ l)) with true; [reflexivity|]. reflexivity.
Qed.

Lemma concat_letters chunks : Forall letter (concat chunks) -> Forall (Forall letter) chunks.
Proof. induction chunks as [|l c IH]; intros H; [constructor|]. cbn in H. apply Forall_app in H as [A B]. constructor; auto. Qed.

Lemma body_clean ls : clean (body ls).
Proof. induction ls as [|l ls IH]; cbn [body]; [constructor|]. destruct (starts _ l); [constructor|]. apply Forall_app. split; [apply before_newline_is_clean|exact IH]. Qed.
Lemma body_bytes ls : Forall all_bytes ls -> all_bytes (body ls).
Proof. induction 1 as [|l ls L H IH]; cbn [body]; [constructor|]. destruct (starts _ l); [constructor|]. apply Forall_app. split; [now apply before_newline_bytes|exact IH]. Qed.
Lemma lines_bytes f : all_bytes f -> Forall all_bytes (lines f).
Proof.
  induction 1 as [|c f C F IH]; cbn [lines]; [constructor|]. destruct (c =? 10); [constructor; [constructor; [unfold is_byte; lia|constructor]|exact IH]|].
  destruct (lines f) as [|l ls]; [constructor; [constructor; [exact C|constructor]|constructor]|]. inversion IH; subst. constructor; [constructor; assumption|assumption].
Qed.
Lemma body_c_string f first ls : all_bytes f -> lines f = first :: ls -> c_string (body ls).
Proof.
  intros B E. apply lines_bytes in B. rewrite E in B. inversion B; subst.
  apply Forall_forall. intros x X. pose proof (body_bytes ls H2) as A. pose proof (body_clean ls) as D.
  unfold all_bytes, clean in *. rewrite Forall_forall in A, D. specialize (A x X). specialize (D x X). unfold is_byte in A. lia.
Qed.

Lemma line_ends f : forall a b c, lines f = a :: b :: c -> last a 0 = 10.
Proof.
  induction f as [|x f IH]; intros a b c H; [discriminate|]. cbn [lines] in H. destruct (x =? 10) eqn:X; [injection H as <- _; reflexivity|].
  destruct (lines f) as [|l ls] eqn:E; [discriminate|]. injection H as <- ->. specialize (IH _ _ _ eq_refl).
  destruct l as [|y l]; [cbn in IH; discriminate|]. exact IH.
Qed.

Section Load.
Variable priv : Type.
Variable parse : list Z -> bool * keys priv.
Variable none : priv.
Notation load := (crypto_rsa_priv_key_load priv parse none).

Lemma head_exact : head_of (begin_line ++ [10]) = BEGIN.
Proof. reflexivity. Qed.

Lemma load_pem der chunks after k : all_bytes der -> cut_of der chunks -> parse der = (true, k) ->
  load (Some (pem [10] chunks after)) = Ok (mk_loaded true k 0).
Proof.
  intros B C P. unfold crypto_rsa_priv_key_load, pem. change ([10] ++ ?x) with (10 :: x).
  rewrite lines_line by (repeat (apply Forall_cons; [cbn; lia|]); constructor).
  assert (L : Forall (Forall letter) chunks) by (apply concat_letters; rewrite C; apply rfc_letters).
  unfold cut_of in C. cbv zeta. rewrite head_exact, lines_body, body_end, app_nil_r, C by exact L.
  rewrite rfc_round_trip by exact B. cbn [bind].
  assert (S : c_string (rfc4648 der) -> zlen der <= BASE64_DECODED_MAX_SIZE (zlen (rfc4648 der))).
  { intros CS. exact (decode_length _ [] der CS (rfc_round_trip der [] B)). }
  assert (CS : c_string (rfc4648 der)).
  { assert (E := encode_rfc der B). apply Forall_forall. intros x X. unfold rfc4648 in X.
    apply in_app_or in X as [X|X]; [|apply repeat_spec in X; subst; unfold pad_char; lia].
    apply in_map_iff in X as (g & <- & G). assert (R : 0 <= of_bits (fill 6 g) < 64).
    { apply of_bits6_range. pose proof (chunks_le bool 6 (flat_map (to_bits 8) der) (length (flat_map (to_bits 8) der)) ltac:(lia)) as H.
      rewrite Forall_forall in H. auto. }
    unfold alphabet. repeat match goal with |- context [if ?b then _ else _] => destruct b eqn:? end; lia. }
  specialize (S CS).
  assert (LD' : BASE64_DECODED_MAX_SIZE (zlen (rfc4648 der ++ [0])) <? zlen der = false).
  { unfold zlen in *. rewrite app_length. cbn [length]. unfold BASE64_DECODED_MAX_SIZE in *.
    assert ((Z.of_nat (length (rfc4648 der)) + 3) / 4 <= (Z.of_nat (length (rfc4648 der) + 1) + 3) / 4) by (apply Z.div_le_mono; lia). lia. }
  rewrite LD', starts_refl. cbn [andb]. rewrite P. reflexivity.
Qed.

(* nothing else is accepted, nothing is written outside the buffer, and the file is closed *)
Lemma load_inv file : (forall f, file = Some f -> all_bytes f) -> exists r, load file = Ok r /\
  (l_open r = if match file with Some [] => true | _ => false end then 1 else 0) /\
  ((l_ok r = false /\ l_keys r = empty priv none) \/
   exists first ls s der, (exists f, file = Some f /\ lines f = first :: ls /\ f = concat (first :: ls)) /\ (exists tail, first = begin_line ++ tail /\ (tail = [] \/ hd 0 tail = 10 \/ hd 0 tail = 0)) /\
     body ls = s /\ acceptable s /\ der = octets_of_digits (map value (upto_pad s)) /\ parse der = (l_ok r, l_keys r)).
Proof.
  intros B. unfold crypto_rsa_priv_key_load. destruct file as [f|]; [|eexists; split; [reflexivity|]; cbn; auto].
  specialize (B f eq_refl). destruct (lines f) as [|first ls] eqn:E.
  - assert (f = []) as -> by (destruct f as [|c f]; [reflexivity|]; cbn in E; destruct (c =? 10); [discriminate|]; destruct (lines f); discriminate).
    eexists; split; [reflexivity|]. cbn. auto.
  - assert (NE : match f with [] => true | _ => false end = false) by (destruct f; [discriminate|reflexivity]).
    pose proof (body_c_string f first ls B E) as CS. destruct (decode_exact (body ls) [] CS) as [[A D]|[A D]].
    2:{ rewrite D. cbn [bind]. eexists; split; [reflexivity|]. cbn. rewrite NE. auto. }
    pose proof (decode_length _ [] _ CS D) as LD. rewrite D. cbn [bind].
    set (der := octets_of_digits _) in *.
    assert (LD' : BASE64_DECODED_MAX_SIZE (zlen (body ls ++ [0])) <? zlen der = false).
    { unfold zlen. rewrite app_length. cbn [length]. unfold BASE64_DECODED_MAX_SIZE in *.
      assert ((Z.of_nat (length (body ls)) + 3) / 4 <= (Z.of_nat (length (body ls) + 1) + 3) / 4) by (apply Z.div_le_mono; lia). lia. }
    rewrite LD'. destruct (starts BEGIN (head_of first) && starts (head_of first) BEGIN) eqn:H.
    2:{ eexists; split; [reflexivity|]. cbn. rewrite NE. auto. }
    apply starts_both in H. destruct (parse der) as [ok k] eqn:P. eexists; split; [reflexivity|]. cbn [l_open l_ok l_keys]. rewrite NE.
    split; [reflexivity|]. right. exists first, ls, (body ls), der. split; [|split; [|split; [reflexivity|split; [exact A|split; [reflexivity|exact P]]]]].
    + exists f. split; [reflexivity|]. split; [exact E|]. rewrite <- E. clear. induction f as [|c f IH]; [reflexivity|]. cbn [lines]. destruct (c =? 10) eqn:C.
      * cbn [concat app]. rewrite <- IH. f_equal. lia.
      * destruct (lines f); cbn [concat app] in *; [cbn in IH; subst; reflexivity|]. now rewrite IH at 1.
    + unfold head_of in H. assert (exists r, first = begin_line ++ r /\ (r = [] \/ hd 0 r = 10 \/ hd 0 r = 0)) as (r & R & T); [|exists r; auto].
      change BEGIN with begin_line in H. assert (K : (length begin_line < 127)%nat) by (vm_compute; lia).
      revert K H. generalize 127%nat. clear. generalize begin_line. intros p. revert first. induction p as [|a p IH]; intros first n K H.
      * exists first. split; [reflexivity|]. destruct first as [|c first]; [auto|]. right. destruct n; [cbn in K; lia|]. cbn [firstn before_newline] in H.
        destruct ((c =? 10) || (c =? 0)) eqn:C; [cbn; lia|discriminate].
      * destruct first as [|c first]; [destruct n; discriminate|]. destruct n; [cbn in K; lia|]. cbn [firstn before_newline] in H.
        destruct ((c =? 10) || (c =? 0)); [discriminate|]. injection H as -> H.
        destruct (IH first n) as (r & R & T); [cbn in K; lia|exact H|]. exists r. split; [cbn; now rewrite R|exact T].
Qed.
End Load.
