(** Client messages and the receive buffer: proofs about [on_message]. *)
From Verif Require Import Common CommonProofs Pixels_Model Msg_Model Msg_Spec.

Lemma ok_inj {A} (a b : A) : Ok a = Ok b -> a = b.
Proof. intros [= H]. exact H. Qed.

Lemma fs_app (a t : list Z) n : (n <= length a)%nat -> firstn n (a ++ t) = firstn n a.
Proof.
  intros H. rewrite firstn_app. replace (n - length a)%nat with 0%nat by lia.
  cbn. apply app_nil_r.
Qed.

Lemma sk_app (a t : list Z) n : (n <= length a)%nat -> skipn n (a ++ t) = skipn n a ++ t.
Proof.
  intros H. rewrite skipn_app. replace (n - length a)%nat with 0%nat by lia. reflexivity.
Qed.

Lemma field_app (m t : list Z) k n : (k + n <= length m)%nat ->
  firstn n (skipn k (m ++ t)) = firstn n (skipn k m).
Proof.
  intros H. rewrite skipn_app. replace (k - length m)%nat with 0%nat by lia.
  rewrite skipn_O. rewrite firstn_app, skipn_length.
  replace (n - (length m - k))%nat with 0%nat by lia. cbn. apply app_nil_r.
Qed.

Lemma u8_app m t k : (k < length m)%nat -> u8 (m ++ t) k = u8 m k.
Proof. intros H. unfold u8. apply app_nth1. exact H. Qed.
Lemma u16_app m t k : (k + 2 <= length m)%nat -> u16 (m ++ t) k = u16 m k.
Proof. intros H. unfold u16. rewrite field_app; auto. Qed.
Lemma u32_app m t k : (k + 4 <= length m)%nat -> u32 (m ++ t) k = u32 m k.
Proof. intros H. unfold u32. rewrite field_app; auto. Qed.

Lemma read_encodings_app n m t : (4 * n <= length m)%nat ->
  read_encodings n (m ++ t) = read_encodings n m.
Proof.
  revert m. induction n as [|n IH]; intros m H; [reflexivity|]. cbn [read_encodings].
  rewrite fs_app by (auto; lia). f_equal.
  rewrite skipn_app. replace (4 - length m)%nat with 0%nat by lia. rewrite skipn_O.
  apply IH. rewrite skipn_length. lia.
Qed.

Lemma layouts_app n m t : (16 * n <= length m)%nat -> layouts_of n (m ++ t) = layouts_of n m.
Proof.
  revert m. induction n as [|n IH]; intros m H; [reflexivity|]. cbn [layouts_of].
  rewrite fs_app by (auto; lia). f_equal.
  rewrite skipn_app. replace (16 - length m)%nat with 0%nat by lia. rewrite skipn_O.
  apply IH. rewrite skipn_length. lia.
Qed.

Lemma ltb_f a b : b <= a -> (a <? b) = false.
Proof. intros. apply Z.ltb_ge. lia. Qed.
Lemma ltb_t a b : a < b -> (a <? b) = true.
Proof. intros. apply Z.ltb_lt. lia. Qed.

Lemma zlen_len l : zlen l = Z.of_nat (length l).
Proof. reflexivity. Qed.

Lemma u16_be p q n l : 0 <= n < 65536 -> u16 ([p; q] ++ be 2 n ++ l) 2 = n.
Proof.
  intros H. unfold u16. cbn [app skipn].
  rewrite fs_app by (auto; rewrite be_length; lia).
  rewrite (firstn_all2 (n := 2) (be 2 n)) by (rewrite be_length; lia).
  apply unbe_be. cbn. lia.
Qed.

Lemma u32_be a b d e n l : 0 <= n < 2 ^ 32 -> u32 ([a; b; d; e] ++ be 4 n ++ l) 4 = n.
Proof.
  intros H. unfold u32. cbn [app skipn].
  rewrite fs_app by (auto; rewrite be_length; lia).
  rewrite (firstn_all2 (n := 4) (be 4 n)) by (rewrite be_length; lia).
  apply unbe_be. cbn. lia.
Qed.

Ltac sizes :=
  repeat rewrite zlen_len in *; cbn [length app] in *; repeat rewrite app_length in *;
  repeat rewrite be_length in *; cbn [length] in *; repeat rewrite app_length in *;
  repeat rewrite be_length in *; try lia.

Lemma small_signed n : 0 <= n < 2147483648 -> to_signed 32 n = n.
Proof.
  intros H. unfold to_signed. cbv zeta. change (2 ^ (32 - 1)) with 2147483648.
  change (2 ^ 32) with 4294967296. rewrite Z.mod_small by lia.
  rewrite ltb_t by lia. reflexivity.
Qed.

(** A whole message is handled the same whatever follows it. *)
Lemma on_message_app E r c m t : whole m -> on_message E r c (m ++ t) = on_message E r c m.
Proof.
  intros W. destruct W.
  - cbn [app on_message]. unfold on_set_pixel_format.
    rewrite !ltb_f by sizes. change (0 :: l ++ t) with ((0 :: l) ++ t).
    rewrite field_app by sizes. reflexivity.
  - cbn [app on_message]. unfold on_set_encodings.
    rewrite !(ltb_f _ 4) by sizes.
    change (2 :: p :: (be 2 n ++ l) ++ t) with (([2; p] ++ be 2 n ++ l) ++ t).
    change (2 :: p :: be 2 n ++ l) with ([2; p] ++ be 2 n ++ l).
    rewrite u16_app by sizes. rewrite u16_be by lia.
    rewrite !ltb_f by sizes.
    rewrite sk_app, read_encodings_app; [reflexivity| |sizes].
    rewrite skipn_length. sizes.
  - cbn [app on_message]. unfold on_fb_update_request.
    rewrite !(ltb_f _ 10) by sizes. change (3 :: l ++ t) with ((3 :: l) ++ t).
    rewrite !u16_app, u8_app by sizes. reflexivity.
  - cbn [app on_message]. unfold on_key. rewrite !(ltb_f _ 8) by sizes.
    change (4 :: l ++ t) with ((4 :: l) ++ t). rewrite u32_app, u8_app by sizes. reflexivity.
  - cbn [app on_message]. unfold on_pointer. rewrite !(ltb_f _ 6) by sizes.
    change (5 :: l ++ t) with ((5 :: l) ++ t). rewrite !u16_app, u8_app by sizes. reflexivity.
  - cbn [app on_message]. unfold on_cut_text. rewrite !(ltb_f _ 8) by sizes.
    change (6 :: a :: b :: d :: (be 4 n ++ l) ++ t) with (([6; a; b; d] ++ be 4 n ++ l) ++ t).
    change (6 :: a :: b :: d :: be 4 n ++ l) with ([6; a; b; d] ++ be 4 n ++ l).
    unfold i32, on_plain_cut_text. rewrite u32_app by sizes. rewrite u32_be by lia.
    assert (S : to_signed 32 n <? 0 = false).
    { rewrite small_signed by lia. apply ltb_f. lia. }
    rewrite S, andb_false_r, (ltb_f _ n) by (unfold MAX_CUT_TEXT_SIZE; lia).
    replace (8 + n <=? zlen (([6; a; b; d] ++ be 4 n ++ l) ++ t)) with true
      by (symmetry; apply Z.leb_le; sizes).
    replace (8 + n <=? zlen ([6; a; b; d] ++ be 4 n ++ l)) with true
      by (symmetry; apply Z.leb_le; sizes).
    rewrite field_app by sizes. reflexivity.
  - cbn [app on_message]. unfold on_enable_continuous_updates. rewrite !(ltb_f _ 10) by sizes.
    change (150 :: l ++ t) with ((150 :: l) ++ t). rewrite !u16_app, u8_app by sizes. reflexivity.
  - cbn [app on_message]. unfold on_qemu. rewrite !(ltb_f _ 2) by sizes.
    cbn [u8 nth]. rewrite Z.eqb_refl. unfold on_qemu_key. rewrite !(ltb_f _ 12) by sizes.
    change (255 :: 0 :: l ++ t) with (([255; 0] ++ l) ++ t).
    change (255 :: 0 :: l) with ([255; 0] ++ l).
    rewrite u32_app, u16_app by sizes. reflexivity.
  - cbn [app on_message]. unfold on_set_desktop_size. rewrite !(ltb_f _ 8) by sizes.
    change (u8 (251 :: p :: w1 :: w2 :: h1 :: h2 :: n :: q :: l ++ t) 6) with n.
    change (u8 (251 :: p :: w1 :: w2 :: h1 :: h2 :: n :: q :: l) 6) with n.
    rewrite !ltb_f by sizes. cbn [skipn].
    change (u16 (251 :: p :: w1 :: w2 :: h1 :: h2 :: n :: q :: l ++ t) 2)
      with (u16 (251 :: p :: w1 :: w2 :: h1 :: h2 :: n :: q :: l) 2).
    change (u16 (251 :: p :: w1 :: w2 :: h1 :: h2 :: n :: q :: l ++ t) 4)
      with (u16 (251 :: p :: w1 :: w2 :: h1 :: h2 :: n :: q :: l) 4).
    rewrite layouts_app by sizes. reflexivity.
  - cbn [app on_message]. unfold on_ntp. rewrite !(ltb_f _ 20) by sizes.
    change (160 :: l ++ t) with ((160 :: l) ++ t).
    rewrite !u32_app, !field_app, fs_app by (auto; sizes). reflexivity.
Qed.

Lemma prefix_length (p q m : list Z) : p ++ q = m -> q <> [] -> (length p < length m)%nat.
Proof. intros <- H. rewrite app_length. destruct q; [congruence|]. cbn. lia. Qed.

(** The beginning of a message makes the handler wait. *)
Lemma on_message_wait E r c p : unfinished p -> on_message E r c p = Ok (c, 0).
Proof.
  intros (q & Q & W & H6). destruct p as [|b p]; [reflexivity|].
  remember ((b :: p) ++ q) as m eqn:EM.
  assert (LP := prefix_length _ _ _ (eq_sym EM) Q).
  assert (BU : forall k, (k < length (b :: p))%nat -> nth k (b :: p) 0 = nth k m 0).
  { intros k Hk. rewrite EM. symmetry. apply app_nth1. exact Hk. }
  destruct W; assert (HB := f_equal (hd 0) EM); cbn [app hd] in HB; subst b; cbn [on_message].
  - unfold on_set_pixel_format. rewrite ltb_t by sizes. reflexivity.
  - unfold on_set_encodings. destruct (zlen (2 :: p) <? 4) eqn:L4; [reflexivity|].
    apply Z.ltb_ge in L4.
    assert (U : u16 (2 :: p) 2 = n).
    { rewrite <- (u16_be 2 p0 n l) by lia. rewrite EM.
      rewrite u16_app by sizes. reflexivity. }
    rewrite U. rewrite ltb_t by sizes. reflexivity.
  - unfold on_fb_update_request. rewrite ltb_t by sizes. reflexivity.
  - unfold on_key. rewrite ltb_t by sizes. reflexivity.
  - unfold on_pointer. rewrite ltb_t by sizes. reflexivity.
  - unfold on_cut_text. specialize (H6 eq_refl). rewrite ltb_t by sizes. reflexivity.
  - unfold on_enable_continuous_updates. rewrite ltb_t by sizes. reflexivity.
  - unfold on_qemu. destruct (zlen (255 :: p) <? 2) eqn:L2; [reflexivity|].
    apply Z.ltb_ge in L2. unfold u8. rewrite BU by sizes. cbn [nth app].
    rewrite Z.eqb_refl. unfold on_qemu_key. rewrite ltb_t by sizes. reflexivity.
  - unfold on_set_desktop_size. destruct (zlen (251 :: p) <? 8) eqn:L8; [reflexivity|].
    apply Z.ltb_ge in L8. unfold u8. rewrite BU by sizes. cbn [nth app].
    rewrite ltb_t by sizes. reflexivity.
  - unfold on_ntp. rewrite ltb_t by sizes. reflexivity.
Qed.

(** The header of a cut text with some of the text: the rest is read separately. *)

Lemma on_message_cut_part E r c a b d n l : 0 <= n <= 10000000 -> zlen l < n -> cut c = None ->
  on_message E r c ([6; a; b; d] ++ be 4 n ++ l) =
  Ok (set_cut (Some (mk_cut false false n l)) c, 8 + zlen l).
Proof.
  intros Hn Hl Hc. cbn [app on_message]. unfold on_cut_text. rewrite !(ltb_f _ 8) by sizes.
  change (6 :: a :: b :: d :: be 4 n ++ l) with ([6; a; b; d] ++ be 4 n ++ l).
  unfold i32, on_plain_cut_text. rewrite u32_be by lia.
  assert (S : to_signed 32 n <? 0 = false).
  { rewrite small_signed by lia. apply ltb_f. lia. }
  rewrite S, andb_false_r, (ltb_f _ n) by (unfold MAX_CUT_TEXT_SIZE; lia).
  replace (8 + n <=? zlen ([6; a; b; d] ++ be 4 n ++ l)) with false
    by (symmetry; apply Z.leb_gt; sizes).
  rewrite Hc. replace (skipn 8 ([6; a; b; d] ++ be 4 n ++ l)) with l
    by (symmetry; rewrite app_assoc; apply skipn_app_eq; sizes).
  replace (zlen ([6; a; b; d] ++ be 4 n ++ l)) with (8 + zlen l) by sizes. reflexivity.
Qed.

Lemma on_message_cut_whole E r c a b d n l : 0 <= n <= 10000000 -> zlen l = n ->
  on_message E r c ([6; a; b; d] ++ be 4 n ++ l) = Ok (say (CutText l) c, 8 + n).
Proof.
  intros Hn Hl. cbn [app on_message]. unfold on_cut_text. rewrite !(ltb_f _ 8) by sizes.
  change (6 :: a :: b :: d :: be 4 n ++ l) with ([6; a; b; d] ++ be 4 n ++ l).
  unfold i32, on_plain_cut_text. rewrite u32_be by lia.
  assert (S : to_signed 32 n <? 0 = false).
  { rewrite small_signed by lia. apply ltb_f. lia. }
  rewrite S, andb_false_r, (ltb_f _ n) by (unfold MAX_CUT_TEXT_SIZE; lia).
  replace (8 + n <=? zlen ([6; a; b; d] ++ be 4 n ++ l)) with true
    by (symmetry; apply Z.leb_le; sizes).
  replace (firstn (Z.to_nat n) (skipn 8 ([6; a; b; d] ++ be 4 n ++ l))) with l; [reflexivity|].
  rewrite app_assoc, skipn_app_eq by sizes. symmetry. apply firstn_all2. sizes.
Qed.
