(** The viewer's parser: whether a message is complete does not depend on what follows. *)
From Verif Require Import Common CommonProofs Msg_Model Clip_Model Wire_Spec.

Lemma need_some n l k : need n l = Some k -> k = n /\ (n <= length l)%nat.
Proof. unfold need. destruct (Nat.leb_spec n (length l)); intros [= <-]; auto. Qed.
Lemma need_ok n l : (n <= length l)%nat -> need n l = Some n.
Proof. intros H. unfold need. apply Nat.leb_le in H. rewrite H. reflexivity. Qed.
Lemma need_app n l k x : need n l = Some k -> need n (l ++ x) = Some k.
Proof. intros H. apply need_some in H as [-> H]. apply need_ok. rewrite app_length. lia. Qed.

Lemma field_app n k l x : (k + n <= length l)%nat -> field n k (l ++ x) = field n k l.
Proof.
  intros H. unfold field. f_equal. rewrite skipn_app, firstn_app, skipn_length.
  replace (n - (length l - k))%nat with 0%nat by lia. cbn [firstn]. apply app_nil_r.
Qed.
Lemma skipn_app_le A k (l x : list A) : (k <= length l)%nat -> skipn k (l ++ x) = skipn k l ++ x.
Proof. intros H. rewrite skipn_app. replace (k - length l)%nat with 0%nat by lia. reflexivity. Qed.
Lemma short_app (l x : list Z) k : (length l <? k)%nat = false -> (length (l ++ x) <? k)%nat = false.
Proof. intros H. apply Nat.ltb_ge in H. apply Nat.ltb_ge. rewrite app_length. lia. Qed.

Section P.
Variable pic : picture.
Hypothesis PW : forall e x y l n, pic e x y l = Some n ->
    (n <= length l)%nat /\ forall l', pic e x y (l ++ l') = Some n.

Lemma body_app e w h l n : body_len pic e w h l = Some n ->
  (n <= length l)%nat /\ forall x, body_len pic e w h (l ++ x) = Some n.
Proof.
  unfold body_len.
  destruct (e =? -258); [intros [= <-]; split; [lia|reflexivity]|].
  destruct (e =? -1001); [intros [= <-]; split; [lia|reflexivity]|].
  destruct (e =? -223); [intros [= <-]; split; [lia|reflexivity]|].
  destruct (e =? -261). { intros H. split; [apply need_some in H; lia|intros x; apply need_app; exact H]. }
  destruct (e =? 1464686184). { intros H. split; [apply need_some in H; lia|intros x; apply need_app; exact H]. }
  destruct (e =? -1000). { intros H. split; [apply need_some in H; lia|intros x; apply need_app; exact H]. }
  destruct (e =? -308); [|apply PW].
  destruct (length l <? 4)%nat eqn:L; [discriminate|]. intros H. split; [apply need_some in H; lia|].
  intros x. rewrite (short_app l x 4 L). apply Nat.ltb_ge in L. rewrite app_nth1 by lia. apply need_app. exact H.
Qed.

Lemma rect_app l n : rect_len pic l = Some n ->
  (12 <= n <= length l)%nat /\ forall x, rect_len pic (l ++ x) = Some n.
Proof.
  unfold rect_len. destruct (length l <? 12)%nat eqn:L; [discriminate|].
  destruct (body_len _ _ _ _ _) as [k|] eqn:B; [|discriminate]. intros [= <-].
  pose proof L as L'. apply Nat.ltb_ge in L'. apply body_app in B as [B1 B2]. rewrite skipn_length in B1.
  split; [lia|]. intros x. rewrite (short_app l x 12 L), !field_app, skipn_app_le by lia. rewrite B2. reflexivity.
Qed.

Lemma rects_app n : forall l k, rects_len pic n l = Some k ->
  (k <= length l)%nat /\ forall x, rects_len pic n (l ++ x) = Some k.
Proof.
  induction n as [|n IH]; intros l k; cbn [rects_len]; [intros [= <-]; split; [lia|reflexivity]|].
  destruct (rect_len pic l) as [i|] eqn:R; [|discriminate].
  destruct (rects_len pic n (skipn i l)) as [j|] eqn:J; [|discriminate]. intros [= <-].
  apply rect_app in R as [R1 R2]. apply IH in J as [J1 J2]. rewrite skipn_length in J1.
  split; [lia|]. intros x. rewrite R2, skipn_app_le by lia. rewrite J2. reflexivity.
Qed.

Lemma rects_cat n m : forall l r k, rects_len pic n l = Some (length l) -> rects_len pic m r = Some k ->
  rects_len pic (n + m) (l ++ r) = Some (length l + k)%nat.
Proof.
  induction n as [|n IH]; intros l r k H M.
  - cbn [rects_len] in H. injection H as H. destruct l; [exact M|discriminate].
  - cbn [Nat.add rects_len] in *. destruct (rect_len pic l) as [i|] eqn:R; [|discriminate].
    destruct (rects_len pic n (skipn i l)) as [j|] eqn:J; [|discriminate]. injection H as H.
    apply rect_app in R as [R1 R2]. rewrite R2, skipn_app_le by lia.
    rewrite (IH (skipn i l) r k); [f_equal; rewrite skipn_length; lia| |exact M].
    rewrite J. f_equal. rewrite skipn_length. lia.
Qed.

Lemma message_app l n : message_len pic l = Some n ->
  (0 < n <= length l)%nat /\ forall x, message_len pic (l ++ x) = Some n.
Proof.
  unfold message_len. destruct l as [|t l0]; [discriminate|].
  set (l := t :: l0).
  assert (Hx : forall x, l ++ x = t :: l0 ++ x) by reflexivity.
  destruct (t =? 0) eqn:T0.
  { destruct (length l <? 4)%nat eqn:L; [discriminate|].
    destruct (rects_len _ _ _) as [k|] eqn:R; [|discriminate]. intros [= <-].
    pose proof L as L'. apply Nat.ltb_ge in L'. apply rects_app in R as [R1 R2]. rewrite skipn_length in R1.
    split; [lia|]. intros x. rewrite Hx; cbv beta iota; rewrite ?T0; rewrite <- Hx. rewrite (short_app l x 4 L), field_app, skipn_app_le by lia.
    rewrite R2. reflexivity. }
  destruct (t =? 1) eqn:T1.
  { destruct (length l <? 6)%nat eqn:L; [discriminate|]. intros H.
    split; [apply need_some in H; lia|]. intros x. rewrite Hx; cbv beta iota; rewrite ?T0, ?T1; rewrite <- Hx. rewrite (short_app l x 6 L).
    apply Nat.ltb_ge in L. rewrite field_app by lia. apply need_app. exact H. }
  destruct (t =? 2) eqn:T2. { intros [= <-]. split; [subst l; cbn [length]; lia|intros x; rewrite Hx; cbv beta iota; rewrite ?T0, ?T1, ?T2; reflexivity]. }
  destruct (t =? 3) eqn:T3.
  { destruct (length l <? 8)%nat eqn:L; [discriminate|]. intros H.
    split; [apply need_some in H; lia|]. intros x. rewrite Hx; cbv beta iota; rewrite ?T0, ?T1, ?T2, ?T3; rewrite <- Hx. rewrite (short_app l x 8 L).
    apply Nat.ltb_ge in L. rewrite field_app by lia. apply need_app. exact H. }
  destruct (t =? 150) eqn:T4. { intros [= <-]. split; [subst l; cbn [length]; lia|intros x; rewrite Hx; cbv beta iota; rewrite ?T0, ?T1, ?T2, ?T3, ?T4; reflexivity]. }
  destruct (t =? 160) eqn:T5.
  { intros H. split; [apply need_some in H; lia|]. intros x. rewrite Hx; cbv beta iota; rewrite ?T0, ?T1, ?T2, ?T3, ?T4, ?T5; rewrite <- Hx. apply need_app. exact H. }
  destruct (t =? 248) eqn:T6; [|discriminate].
  destruct (length l <? 9)%nat eqn:L; [discriminate|]. intros H.
  split; [apply need_some in H; lia|]. intros x. rewrite Hx; cbv beta iota; rewrite ?T0, ?T1, ?T2, ?T3, ?T4, ?T5, ?T6; rewrite <- Hx. rewrite (short_app l x 9 L).
  apply Nat.ltb_ge in L. rewrite app_nth1 by lia. apply need_app. exact H.
Qed.
End P.

Section S.
Variable pic : list Z -> picture.
Hypothesis PW : prefix_wise pic.

Lemma splits_snoc h l ms m : splits pic h l ms -> message_len (pic (h ++ l)) m = Some (length m) ->
  splits pic h (l ++ m) (ms ++ [m]).
Proof.
  intros S0 M. induction S0 as [h|h m' l ms E S0 IH].
  - rewrite app_nil_r in M. cbn [app]. pose proof (s_message pic h m [] []) as K. rewrite app_nil_r in K. apply K; [exact M|constructor].
  - rewrite <- app_assoc. cbn [app]. apply s_message.
    + rewrite app_assoc. apply (message_app (pic h) (PW h) (m' ++ l)) in E. apply E.
    + apply IH. rewrite <- app_assoc. exact M.
Qed.
End S.

(** ** The messages the server composes *)

Lemma field_at n pre v post : length v = n -> field n (length pre) (pre ++ v ++ post) = unbe v.
Proof. intros H. unfold field. rewrite skipn_app_exact, (firstn_app_eq _ n v post H). reflexivity. Qed.

Lemma colour_map_message pic : message_len pic colour_map = Some (length colour_map).
Proof. vm_compute. reflexivity. Qed.

Lemma signed_pattern v : - 2 ^ 31 <= v < 2 ^ 31 -> to_signed 32 (pattern32 v) = v.
Proof.
  intros H. unfold to_signed, pattern32. rewrite Z.mod_mod by lia. cbv zeta.
  destruct (Z.neg_nonneg_cases v) as [N|N].
  - replace (v mod 2 ^ 32) with (v + 2 ^ 32).
    + destruct (v + 2 ^ 32 <? 2 ^ (32 - 1)) eqn:X; lia.
    + symmetry. replace v with ((v + 2 ^ 32) + (-1) * 2 ^ 32) at 1 by lia. rewrite Z.mod_add by lia. apply Z.mod_small. lia.
  - rewrite Z.mod_small by lia. destruct (v <? 2 ^ (32 - 1)) eqn:X; lia.
Qed.

Lemma be_plain n v l : length (be n v ++ l) = (n + length l)%nat.
Proof. rewrite app_length, be_length. reflexivity. Qed.

Lemma fence_message pic flags p : (length p <= 64)%nat ->
  message_len pic (fence_bytes flags p) = Some (length (fence_bytes flags p)).
Proof.
  intros H. set (m := fence_bytes flags p).
  assert (L : length m = (9 + length p)%nat).
  { subst m. unfold fence_bytes. rewrite !app_length, be_length. cbn [length]. lia. }
  assert (N : nth 8 m 0 = zlen p).
  { subst m. unfold fence_bytes. rewrite app_nth2 by (cbn [length]; lia). cbn [length]. rewrite app_nth2 by (rewrite be_length; lia).
    rewrite be_length. reflexivity. }
  assert (X : message_len pic m = if (length m <? 9)%nat then None else need (9 + Z.to_nat (nth 8 m 0)) m) by reflexivity.
  rewrite X, L, N. destruct (Nat.ltb_spec (9 + length p) 9); [lia|].
  unfold zlen. rewrite Nat2Z.id. apply need_ok. rewrite L. lia.
Qed.

Lemma pattern_unbe v : unbe (be 4 (pattern32 v)) = pattern32 v.
Proof. apply unbe_be. unfold pattern32. change (256 ^ Z.of_nat 4) with (2 ^ 32). apply Z.mod_pos_bound. lia. Qed.

Lemma cut_message pic v rest : - 2 ^ 31 <= v < 2 ^ 31 -> zlen rest = Z.abs v ->
  message_len pic ([3; 0; 0; 0] ++ be 4 (pattern32 v) ++ rest) =
  Some (length ([3; 0; 0; 0] ++ be 4 (pattern32 v) ++ rest)).
Proof.
  intros V R. set (m := [3; 0; 0; 0] ++ be 4 (pattern32 v) ++ rest).
  assert (L : length m = (8 + length rest)%nat).
  { subst m. rewrite !app_length, be_length. cbn [length]. lia. }
  assert (F : field 4 4 m = pattern32 v).
  { subst m. change 4%nat with (length [3; 0; 0; 0]) at 2. rewrite (field_at 4 [3; 0; 0; 0] (be 4 (pattern32 v)) rest); [apply pattern_unbe|apply be_length]. }
  assert (X : message_len pic m = if (length m <? 8)%nat then None else
     need (8 + Z.to_nat (Z.abs (to_signed 32 (field 4 4 m)))) m) by reflexivity.
  rewrite X, F, signed_pattern by exact V. rewrite L. destruct (Nat.ltb_spec (8 + length rest) 8); [lia|].
  rewrite <- R. unfold zlen. rewrite Nat2Z.id. apply need_ok. rewrite L. lia.
Qed.

Lemma rect_header pic x y w h e body k : - 2 ^ 31 <= e < 2 ^ 31 ->
  body_len pic e (unbe (be 2 w)) (unbe (be 2 h)) body = Some k ->
  rect_len pic (rect_head x y w h e ++ body) = Some (12 + k)%nat.
Proof.
  intros Q B. unfold rect_len. set (l := rect_head x y w h e ++ body).
  assert (L : length (rect_head x y w h e) = 12%nat) by (unfold rect_head; rewrite !app_length, !be_length; reflexivity).
  assert (LL : length l = (12 + length body)%nat) by (subst l; rewrite app_length, L; reflexivity).
  rewrite LL. destruct (Nat.ltb_spec (12 + length body) 12); [lia|].
  assert (F4 : field 4 8 l = pattern32 e).
  { subst l. unfold rect_head. rewrite <- !app_assoc.
    pose proof (field_at 4 (be 2 x ++ be 2 y ++ be 2 w ++ be 2 h) (be 4 (pattern32 e)) body (be_length _ _)) as F.
    rewrite !app_length, !be_length in F; cbn [Nat.add] in F. rewrite <- !app_assoc in F. rewrite F. apply pattern_unbe. }
  assert (FW : field 2 4 l = unbe (be 2 w)).
  { subst l. unfold rect_head. rewrite <- !app_assoc.
    pose proof (field_at 2 (be 2 x ++ be 2 y) (be 2 w) (be 2 h ++ be 4 (pattern32 e) ++ body) (be_length _ _)) as F.
    rewrite !app_length, !be_length in F; cbn [Nat.add] in F. rewrite <- !app_assoc in F. exact F. }
  assert (FH : field 2 6 l = unbe (be 2 h)).
  { subst l. unfold rect_head. rewrite <- !app_assoc.
    pose proof (field_at 2 (be 2 x ++ be 2 y ++ be 2 w) (be 2 h) (be 4 (pattern32 e) ++ body) (be_length _ _)) as F.
    rewrite !app_length, !be_length in F; cbn [Nat.add] in F. rewrite <- !app_assoc in F. exact F. }
  rewrite F4, FW, FH, signed_pattern by exact Q.
  subst l. rewrite (skipn_app_eq _ 12 _ body L), B. reflexivity.
Qed.

Lemma one_rect pic x y w h e body : - 2 ^ 31 <= e < 2 ^ 31 ->
  body_len pic e (unbe (be 2 w)) (unbe (be 2 h)) body = Some (length body) ->
  rects_len pic 1 (rect_head x y w h e ++ body) = Some (length (rect_head x y w h e ++ body)).
Proof.
  intros Q B. cbn [rects_len]. rewrite (rect_header pic x y w h e body _ Q B). f_equal.
  unfold rect_head. rewrite !app_length, !be_length. lia.
Qed.

Lemma update_message pic n l : 0 <= n < 2 ^ 16 -> rects_len pic (Z.to_nat n) l = Some (length l) ->
  message_len pic (update_head n ++ l) = Some (length (update_head n ++ l)).
Proof.
  intros N R. set (m := update_head n ++ l).
  assert (F : field 2 2 m = n).
  { subst m. unfold update_head. rewrite <- app_assoc. change 2%nat with (length [0; 0]) at 2. rewrite (field_at 2 [0; 0]) by apply be_length.
    rewrite Z.mod_small by lia. apply unbe_be. exact N. }
  assert (L : length m = (4 + length l)%nat).
  { subst m. unfold update_head. rewrite !app_length, be_length. reflexivity. }
  assert (X : message_len pic m = if (length m <? 4)%nat then None else
     match rects_len pic (Z.to_nat (field 2 2 m)) (skipn 4 m) with Some n => Some (4 + n)%nat | None => None end) by reflexivity.
  rewrite X, F, L. destruct (Nat.ltb_spec (4 + length l) 4); [lia|].
  assert (SK : skipn 4 m = l).
  { subst m. apply skipn_app_eq. unfold update_head. rewrite app_length, be_length. reflexivity. }
  rewrite SK, R. reflexivity.
Qed.

Lemma ext_size_one pic w h i s : rects_len pic 1 (ext_size_rect w h i s) = Some (length (ext_size_rect w h i s)).
Proof.
  unfold ext_size_rect. apply one_rect; [unfold ENC_EXTDESKTOPSIZE; lia|].
  cbn [body_len Z.eqb ENC_EXTDESKTOPSIZE Pos.eqb app nth length Nat.ltb Nat.leb]. apply need_ok.
  cbn [length]. rewrite !app_length, !be_length. vm_compute. lia.
Qed.
