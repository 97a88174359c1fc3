From Verif Require Import Common CommonProofs Log_Model Peer_Model Peer_Spec.

Lemma read_some n l rest : (n <= length l)%nat -> read n (map Some l ++ rest) = Ok (firstn n l).
Proof.
  revert n. induction l as [|b l IH]; intros n H; cbn [length] in H.
  - replace n with 0%nat by lia. destruct rest; reflexivity.
  - destruct n; [reflexivity|]. cbn [map app read firstn]. rewrite IH by lia. reflexivity.
Qed.
Lemma read_string_some l rest : Forall (fun c => c <> 0) l -> read_string (map Some l ++ Some 0 :: rest) = Ok l.
Proof.
  induction 1 as [|c l C _ IH]; [reflexivity|]. cbn [map app read_string]. rewrite IH. apply Z.eqb_neq in C. rewrite C. reflexivity.
Qed.
Lemma written_string cells l : Forall (fun c => c <> 0) l -> read_string (write cells (l ++ [0])) = Ok l.
Proof. intros F. unfold write. rewrite map_app, <- app_assoc. cbn [map app]. apply read_string_some. exact F. Qed.

Lemma text_written l : address_text l -> read_string (write_text (fresh 256) l) = Ok l.
Proof.
  intros [F L]. unfold write_text. replace (length (fresh 256)) with 256%nat by reflexivity. unfold zlen in L.
  destruct (Nat.ltb_spec (length l) 256); [|lia]. apply written_string. exact F.
Qed.

Lemma decimal_reads b n rest : is_byte b -> numbers n (decimal b ++ rest) = numbers (10 ^ zlen (decimal b) * n + b) rest.
Proof.
  intros [L U]. unfold decimal.
  assert (D : forall v, 0 <= v -> (48 + v =? 46) = false) by (intros; apply Z.eqb_neq; lia).
  pose proof (Z.div_mod b 10) as E1. pose proof (Z.div_mod (b / 10) 10) as E2. rewrite Z.div_div in E2 by lia. change (10 * 10) with 100 in E2.
  pose proof (Z.mod_pos_bound b 10). pose proof (Z.mod_pos_bound (b / 10) 10). pose proof (Z.div_pos b 100).
  destruct (100 <=? b) eqn:A, (10 <=? b) eqn:B; unfold zlen; cbn [app length numbers]; rewrite ?D by lia; try lia; f_equal.
  - change (10 ^ Z.of_nat 3) with 1000. lia.
  - change (10 ^ Z.of_nat 2) with 100. rewrite (Z.div_small b 100) in E2 by lia. lia.
  - change (10 ^ Z.of_nat 1) with 10. rewrite (Z.mod_small b 10) by lia. lia.
Qed.
Lemma decimal_text b : is_byte b -> Forall (fun c => c <> 0) (decimal b) /\ zlen (decimal b) <= 3.
Proof.
  intros [L U]. unfold decimal. split.
  - rewrite !Forall_app. repeat split; try (destruct (_ <=? b) eqn:A); repeat constructor; lia.
  - destruct (100 <=? b), (10 <=? b); unfold zlen; cbn [app length]; lia.
Qed.

Lemma dotted_four a b c d : dotted [a; b; c; d] = decimal a ++ 46 :: decimal b ++ 46 :: decimal c ++ 46 :: decimal d.
Proof. reflexivity. Qed.
Lemma dotted_reads a b c d : Forall is_byte [a; b; c; d] -> numbers 0 (dotted [a; b; c; d]) = [a; b; c; d] /\ address_text (dotted [a; b; c; d]).
Proof.
  intros F. inversion F as [|? ? A F1]; inversion F1 as [|? ? B F2]; inversion F2 as [|? ? C F3]; inversion F3 as [|? ? D F4]; subst. rewrite dotted_four. split.
  - rewrite decimal_reads by assumption. cbn [numbers Z.eqb Pos.eqb]. rewrite decimal_reads by assumption. cbn [numbers Z.eqb Pos.eqb].
    rewrite decimal_reads by assumption. cbn [numbers Z.eqb Pos.eqb]. rewrite <- (app_nil_r (decimal d)), decimal_reads by assumption. cbn [numbers].
    rewrite !Z.mul_0_r. reflexivity.
  - destruct (decimal_text a A), (decimal_text b B), (decimal_text c C), (decimal_text d D). split.
    + repeat (apply Forall_app; split; [assumption|constructor; [lia|]]). assumption.
    + unfold zlen in *. rewrite !app_length. cbn [length]. rewrite !app_length. cbn [length]. rewrite !app_length. cbn [length]. lia.
Qed.

Lemma string_ip4 ntop6 show dst port a : length port = 2%nat -> length a = 4%nat ->
  sockaddr_to_string ntop6 show dst (write (fresh 128) (ip4 port a)) = Ok (write_text dst (dotted a), []).
Proof.
  intros P A. destruct port as [|p1 [|p2 [|]]]; try discriminate. destruct a as [|a [|b [|c [|d [|]]]]]; try discriminate.
  unfold sockaddr_to_string. change (read 2 _) with (@Ok (list Z) [2; 0]). cbn [bind]. change (unle [2; 0] =? AF_INET) with true. cbv iota.
  change (read 4 _) with (Ok [a; b; c; d]). reflexivity.
Qed.
Lemma string_ip6 ntop6 show dst port flow a scope : length port = 2%nat -> length flow = 4%nat -> length a = 16%nat ->
  sockaddr_to_string ntop6 show dst (write (fresh 128) (ip6 port flow a scope)) = Ok (write_text dst (ntop6 a), []).
Proof.
  intros P F A. destruct port as [|p1 [|p2 [|]]]; try discriminate. destruct flow as [|f1 [|f2 [|f3 [|f4 [|]]]]]; try discriminate.
  unfold sockaddr_to_string. change (read 2 _) with (@Ok (list Z) [10; 0]). cbn [bind]. change (unle [10; 0] =? AF_INET) with false.
  change (unle [10; 0] =? AF_INET6) with true. cbv iota. unfold write at 1.
  match goal with |- context [read 16 ?c] => replace c with (map Some a ++ (map Some scope ++ skipn (length (ip6 [p1; p2] [f1; f2; f3; f4] a scope)) (fresh 128)))
    by (unfold ip6; rewrite !map_app, <- !app_assoc; reflexivity) end.
  rewrite read_some, firstn_all2 by lia. reflexivity.
Qed.
