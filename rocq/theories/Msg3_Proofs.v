(** The receive loop handles exactly the messages of the stream, however it is
    split. *)
From Verif Require Import Common CommonProofs Pixels_Model Msg_Model Msg_Spec.
From Verif Require Import Msg_Proofs Msg2_Proofs.

Lemma set_blocked_id c v : blocked c = v -> set_blocked v c = c.
Proof. intros <-. destruct c; reflexivity. Qed.
Lemma set_block_next_id c v : block_next c = v -> set_block_next v c = c.
Proof. intros <-. destruct c; reflexivity. Qed.
Lemma with_buf_id c b i : buf c = b -> idx c = i -> with_buf b i c = c.
Proof. intros <- <-. destruct c; reflexivity. Qed.
Lemma set_cut_id c v : cut c = v -> set_cut v c = c.
Proof. intros <-. destruct c; reflexivity. Qed.

Lemma quiet_nofence c : quiet c -> nofence c.
Proof. unfold quiet, nofence. intuition. Qed.

Lemma quiet_same c c' : same c c' -> quiet c -> quiet c'.
Proof. unfold quiet, same. intuition congruence. Qed.

Lemma whole_nonempty m : whole m -> (1 <= length m)%nat.
Proof. destruct 1; cbn [app length]; lia. Qed.

(* one message: the same result wherever it stands in the buffer *)
Lemma one_message E r c m t b i c1 : quiet c -> whole m ->
  on_message E (fun c => Ok c) c m = Ok (c1, zlen m) ->
  on_message E r (with_buf b i c) (m ++ t) = Ok (with_buf b i c1, zlen m) /\ quiet c1.
Proof.
  intros Q W H. rewrite on_message_app by exact W.
  destruct (Z.eq_dec (hd 0 m) 6) as [H6|H6].
  - destruct W; cbn [hd app] in H6; try lia.
    rewrite on_message_cut_whole in H by assumption.
    apply ok_inj in H. injection H as <- _.
    rewrite on_message_cut_whole by assumption.
    split; [|exact Q]. f_equal. f_equal. sizes.
  - assert (H248 : hd 0 m <> 248) by (destruct W; cbn [hd app]; lia).
    destruct (on_message_agrees E r (fun c => Ok c) b i c m (quiet_nofence _ Q) H248 H6) as [-> S].
    rewrite H in *. specialize (S _ _ eq_refl). split; [reflexivity|].
    eapply quiet_same; eauto.
Qed.

Lemma loop_step E r fuel c b i c1 n :
  quiet c -> 0 <= i <= zlen b ->
  on_message E r (with_buf b i c) (skipn (Z.to_nat i) b) = Ok (with_buf b i c1, n) ->
  message_loop E r (S fuel) (with_buf b i c) =
  if n =? 0 then Ok (with_buf b i c1) else message_loop E r fuel (with_buf b (i + n) c1).
Proof.
  intros (P & B & BN & C) Hi H. cbn [message_loop].
  change (blocked (with_buf b i c)) with (blocked c). rewrite B.
  change (buf (with_buf b i c)) with b. change (idx (with_buf b i c)) with i.
  rewrite ltb_f by lia.
  change (block_next (with_buf b i c)) with (block_next c). rewrite BN.
  rewrite (set_blocked_id _ false) by exact B. rewrite (set_block_next_id _ false) by exact BN.
  change (buf (with_buf b i c)) with b. change (idx (with_buf b i c)) with i.
  rewrite H. cbn [bind]. reflexivity.
Qed.

Lemma skip_more (b m t : list Z) i : 0 <= i -> skipn (Z.to_nat i) b = m ++ t ->
  skipn (Z.to_nat (i + zlen m)) b = t /\ i + zlen m <= Z.max i (zlen b).
Proof.
  intros Hi H. split.
  - replace (Z.to_nat (i + zlen m)) with (length m + Z.to_nat i)%nat by (rewrite zlen_len; lia).
    rewrite <- skipn_skipn, H. apply skipn_app_exact.
  - assert (L := f_equal (@length Z) H). rewrite skipn_length, app_length in L.
    rewrite !zlen_len. lia.
Qed.

(** The loop goes through all the whole messages and stops at what is left. *)
Lemma loop_whole E r ms : forall fuel c c2 b i rest,
  quiet c -> 0 <= i <= zlen b -> Forall whole ms -> handled E c ms c2 ->
  skipn (Z.to_nat i) b = concat ms ++ rest ->
  message_loop E r (length ms + fuel) (with_buf b i c) =
  message_loop E r fuel (with_buf b (i + zlen (concat ms)) c2) /\ quiet c2 /\
  0 <= i + zlen (concat ms) <= zlen b /\
  skipn (Z.to_nat (i + zlen (concat ms))) b = rest.
Proof.
  induction ms as [|m ms IH]; intros fuel c c2 b i rest Q Hi W H K.
  - inversion H; subst. cbn [concat length Nat.add]. cbn [concat app] in K.
    change (zlen []) with 0. rewrite Z.add_0_r. auto.
  - inversion H as [|? ? c1 ? ? H1 H2]; subst. inversion W as [|? ? W1 W2]; subst.
    cbn [concat] in K. rewrite <- app_assoc in K.
    destruct (one_message E r c m (concat ms ++ rest) b i c1 Q W1 H1) as [S Q1].
    rewrite <- K in S. cbn [length Nat.add].
    rewrite (loop_step _ _ _ _ _ _ _ _ Q Hi S).
    assert (NZ := whole_nonempty _ W1).
    replace (zlen m =? 0) with false by (symmetry; apply Z.eqb_neq; rewrite zlen_len; lia).
    destruct (skip_more _ _ _ _ (proj1 Hi) K) as [K2 L2].
    assert (Hi2 : 0 <= i + zlen m <= zlen b) by (rewrite zlen_len in *; lia).
    destruct (IH fuel c1 c2 b (i + zlen m) rest Q1 Hi2 W2 H2 K2) as (A & B & C & D).
    assert (Z1 : zlen (concat (m :: ms)) = zlen m + zlen (concat ms))
      by (cbn [concat]; sizes).
    rewrite Z1, Z.add_assoc. auto.
Qed.

Lemma loop_unfinished E r fuel c b i : quiet c -> 0 <= i <= zlen b ->
  unfinished (skipn (Z.to_nat i) b) ->
  message_loop E r (S fuel) (with_buf b i c) = Ok (with_buf b i c).
Proof.
  intros Q Hi U. rewrite (loop_step _ _ _ _ _ _ c 0 Q Hi); [reflexivity|].
  apply on_message_wait. exact U.
Qed.

Lemma unfinished_nil : unfinished [].
Proof.
  exists (4 :: repeat 0 7). split; [discriminate|]. split; [constructor; reflexivity|].
  cbn. lia.
Qed.

(* the header of a cut text and less than all of the text *)
Lemma loop_cut E r fuel c b i x y z n l : quiet c -> 0 <= i <= zlen b ->
  0 <= n <= 10000000 -> zlen l < n ->
  skipn (Z.to_nat i) b = [6; x; y; z] ++ be 4 n ++ l ->
  message_loop E r (S (S fuel)) (with_buf b i c) =
  Ok (with_buf b (zlen b) (set_cut (Some (mk_cut false false n l)) c)).
Proof.
  intros Q Hi Hn Hl K.
  rewrite (loop_step _ _ _ _ _ _ (set_cut (Some (mk_cut false false n l)) c) (8 + zlen l) Q Hi).
  2:{ rewrite K. rewrite on_message_cut_part by (auto; apply Q). reflexivity. }
  assert (ZL := Zle_0_nat (length l)).
  replace (8 + zlen l =? 0) with false by (symmetry; apply Z.eqb_neq; rewrite zlen_len; lia).
  assert (L := f_equal (@length Z) K). rewrite skipn_length in L.
  replace (i + (8 + zlen l)) with (zlen b) by (sizes).
  cbn [message_loop]. set (d := set_cut _ _).
  change (blocked (with_buf b (zlen b) d)) with (blocked c). rewrite (proj1 (proj2 Q)).
  change (buf (with_buf b (zlen b) d)) with b. change (idx (with_buf b (zlen b) d)) with (zlen b).
  rewrite ltb_f by lia.
  change (block_next (with_buf b (zlen b) d)) with (block_next c).
  rewrite (proj1 (proj2 (proj2 Q))).
  rewrite (set_blocked_id _ false) by exact (proj1 (proj2 Q)).
  rewrite (set_block_next_id _ false) by exact (proj1 (proj2 (proj2 Q))).
  change (buf (with_buf b (zlen b) d)) with b. change (idx (with_buf b (zlen b) d)) with (zlen b).
  rewrite skipn_all2 by (rewrite zlen_len; lia). cbn [on_message bind].
  rewrite Z.eqb_refl. reflexivity.
Qed.
