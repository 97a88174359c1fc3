(** The pictures of this server's encoders are ones a viewer finds the end of. *)
From Verif Require Import Common CommonProofs Pixels_Model Zrle_Model Zrle_Spec Raw_Spec Tight_Model Tight_Spec Cursor_Spec
  Msg_Model Clip_Model Wire_Spec Wire_Proofs.
From Verif Require H264_Spec.

Lemma read_len_app l v rest : read_len l = Some (v, rest) ->
  (length rest < length l)%nat /\ forall x, read_len (l ++ x) = Some (v, rest ++ x).
Proof.
  unfold read_len. destruct l as [|a l]; [discriminate|]. cbn [app].
  destruct (a <? 128); [intros [= <- <-]; split; [cbn; lia|reflexivity]|].
  destruct l as [|b l]; [discriminate|]. cbn [app].
  destruct (b <? 128); [intros [= <- <-]; split; [cbn; lia|reflexivity]|].
  destruct l as [|c l]; [discriminate|]. cbn [app]. intros [= <- <-]. split; [cbn; lia|reflexivity].
Qed.

Lemma viewer_prefix size tsize : prefix_wise (fun _ => viewer size tsize).
Proof.
  intros h e x y l n. unfold viewer.
  destruct (e =? 0). { intros H. split; [apply need_some in H; lia|intros z; apply need_app; exact H]. }
  destruct (e =? 7).
  { unfold tight_len. destruct l as [|c l]; [discriminate|]. cbn [app]. cbv zeta.
    destruct (_ && _). { intros H. split; [apply need_some in H; lia|]. intros z. apply (need_app _ (c :: l)). exact H. }
    destruct (_ || _); [|discriminate]. destruct (read_len l) as [[v rest]|] eqn:R; [|discriminate].
    intros H. split; [apply need_some in H; lia|]. intros z. apply read_len_app in R as [R1 R2]. rewrite R2.
    pose proof (need_app _ _ _ z H) as H'. cbn [app] in H'.
    replace (length (c :: l ++ z) - length (rest ++ z))%nat with (length (c :: l) - length rest)%nat
      by (cbn [length]; rewrite !app_length; lia). exact H'. }
  destruct (e =? 16).
  { destruct (length l <? 4)%nat eqn:L; [discriminate|]. intros H. split; [apply need_some in H; lia|].
    intros z. rewrite (short_app l z 4 L). apply Nat.ltb_ge in L. rewrite field_app by lia. apply need_app. exact H. }
  destruct (e =? 50).
  { destruct (length l <? 8)%nat eqn:L; [discriminate|]. intros H. split; [apply need_some in H; lia|].
    intros z. rewrite (short_app l z 8 L). apply Nat.ltb_ge in L. rewrite field_app by lia. apply need_app. exact H. }
  destruct (e =? -239); [|discriminate].
  intros H. split; [apply need_some in H; lia|intros z; apply need_app; exact H].
Qed.

Lemma take_some n l a b : take n l = Some (a, b) -> (n <= length l)%nat /\ a = firstn n l /\ b = skipn n l.
Proof. unfold take. destruct (Nat.leb_spec n (length l)); intros [= <- <-]. auto. Qed.

Lemma cpixels_some size n : forall l px r, read_cpixels size n l = Some (px, r) ->
  (n * size <= length l)%nat /\ r = skipn (n * size) l.
Proof.
  induction n as [|n IH]; intros l px r; cbn [read_cpixels]; [intros [= <- <-]; split; [lia|reflexivity]|].
  destruct (take size l) as [[p l']|] eqn:T; [|discriminate]. apply take_some in T as (T1 & _ & ->).
  destruct (read_cpixels size n (skipn size l)) as [[ps l'']|] eqn:R; [|discriminate]. intros [= <- <-].
  apply IH in R as [R1 ->]. rewrite skipn_length in R1. split; [cbn; lia|].
  rewrite skipn_skipn. f_equal. cbn. lia.
Qed.

Lemma head_part j n k (l : list Z) : (k + n <= j)%nat -> firstn n (skipn k (firstn j l)) = firstn n (skipn k l).
Proof. intros H. rewrite skipn_firstn_comm, firstn_firstn. f_equal. lia. Qed.
Lemma head_tail j k (l : list Z) : skipn k (firstn j l) = firstn (j - k) (skipn k l).
Proof. apply skipn_firstn_comm. Qed.

Lemma rects_S p n l k : rect_len p l = Some k -> (k <= length l)%nat -> rects_len p n (skipn k l) = Some (length (skipn k l)) ->
  rects_len p (S n) l = Some (length l).
Proof. intros R K N. cbn [rects_len]. rewrite R, N. f_equal. rewrite skipn_length. lia. Qed.

Lemma triple_eq A B C (a a' : A) (b b' : B) (c c' : C) : Some (a, b, c) = Some (a', b', c') -> c = c'.
Proof. intros [= _ _ E]. exact E. Qed.

Lemma pair_nil A B (a a' : A) (b : list B) : Some (a, b) = Some (a', []) -> b = [].
Proof. intros [= _ E]. exact E. Qed.

(* the header, for the encodings of pictures *)
Lemma picture_rect p l e k : (12 <= length l)%nat -> to_signed 32 (field 4 8 l) = e ->
  In e [0; 7; 16; 50; -239] -> p e (field 2 4 l) (field 2 6 l) (skipn 12 l) = Some k ->
  rect_len p l = Some (12 + k)%nat.
Proof.
  intros L T I0 P. unfold rect_len. destruct (Nat.ltb_spec (length l) 12); [lia|]. rewrite T.
  assert (B : body_len p e (field 2 4 l) (field 2 6 l) (skipn 12 l) = p e (field 2 4 l) (field 2 6 l) (skipn 12 l)).
  { repeat (destruct I0 as [<-|I0]; [reflexivity|]). destruct I0. }
  rewrite B, P. reflexivity.
Qed.

Lemma readable_raw size tsize : forall n l rs, read_raws size n l = Some rs ->
  rects_len (viewer size tsize) n l = Some (length l).
Proof.
  induction n as [|n IH]; intros l rs; cbn [read_raws]; [destruct l; [reflexivity|discriminate]|].
  destruct (read_raw size l) as [[r l']|] eqn:R; [|discriminate]. destruct (read_raws size n l') as [rs'|] eqn:RS; [|discriminate].
  intros _. apply IH in RS. clear IH. unfold read_raw in R. destruct (take 12 l) as [[hd l1]|] eqn:T; [|discriminate].
  apply take_some in T as (T1 & -> & ->). cbv zeta in R. unfold Zrle_Spec.u16 in R.
  rewrite !(head_part 12) in R by lia. rewrite head_tail in R. change (12 - 8)%nat with 4%nat in R.
  destruct (_ =? 0) eqn:Z0; [|discriminate]. apply Z.eqb_eq in Z0.
  destruct (read_cpixels _ _ _) as [[px l2]|] eqn:C; [|discriminate]. injection R as _ <-.
  apply cpixels_some in C as [C1 ->]. rewrite skipn_length in C1. rewrite skipn_skipn in RS.
  eapply (rects_S _ _ _ (12 + Z.to_nat (field 2 4 l * field 2 6 l) * size)).
  - apply (picture_rect _ _ 0); [exact T1| |cbn; auto|].
    + unfold field. rewrite Z0. reflexivity.
    + cbn [viewer Z.eqb]. apply need_ok. rewrite skipn_length. unfold field. exact C1.
  - unfold field. lia.
  - unfold field. rewrite Nat.add_comm. exact RS.
Qed.

Lemma readable_zrle istate inflate csize size tsize : forall n st l rs st',
  read_rects istate inflate csize n st l = Some (rs, st') ->
  rects_len (viewer size tsize) n l = Some (length l).
Proof.
  induction n as [|n IH]; intros st l rs st'; cbn [read_rects]; [destruct l; [reflexivity|discriminate]|].
  destruct (read_rect _ _ _ st l) as [[[r st1] l']|] eqn:R; [|discriminate].
  destruct (read_rects _ _ _ n st1 l') as [[rs' st2]|] eqn:RS; [|discriminate].
  intros _. apply IH in RS. clear IH. unfold read_rect in R. destruct (take 16 l) as [[hd l1]|] eqn:T; [|discriminate].
  apply take_some in T as (T1 & -> & ->). cbv zeta in R.
  rewrite !(head_part 16) in R by lia. rewrite head_tail in R. change (16 - 12)%nat with 4%nat in R.
  destruct (_ =? 16) eqn:Z0; [|discriminate]. apply Z.eqb_eq in Z0.
  destruct (take _ (skipn 16 l)) as [[data l2]|] eqn:C; [|discriminate]. apply take_some in C as (C1 & _ & ->).
  destruct (inflate _ _) as [st3 plain]. destruct (read_tiles _ _ _) as [[ts [|]]|]; [|discriminate|discriminate]. apply triple_eq in R as <-.
  rewrite skipn_length in C1. rewrite skipn_skipn in RS.
  assert (F : field 4 0 (skipn 12 l) = unbe (firstn 4 (skipn 12 l))) by reflexivity.
  eapply (rects_S _ _ _ (12 + (4 + Z.to_nat (unbe (firstn 4 (skipn 12 l)))))).
  - apply (picture_rect _ _ 16); [lia| |cbn; auto|].
    + unfold field. rewrite Z0. reflexivity.
    + unfold viewer. change (16 =? 0) with false. change (16 =? 7) with false. change (16 =? 16) with true. cbv iota.
      rewrite skipn_length. destruct (Nat.ltb_spec (length l - 12) 4); [lia|]. rewrite F. apply need_ok. rewrite skipn_length. lia.
  - lia.
  - replace (12 + (4 + Z.to_nat (unbe (firstn 4 (skipn 12 l)))))%nat with (Z.to_nat (unbe (firstn 4 (skipn 12 l))) + 16)%nat by lia. exact RS.
Qed.

Lemma readable_tight istate inflate size tsize : forall n sts l rs sts',
  read_trects istate inflate tsize n sts l = Some (rs, sts') ->
  rects_len (viewer size tsize) n l = Some (length l).
Proof.
  induction n as [|n IH]; intros sts l rs sts'; cbn [read_trects]; [destruct l; [reflexivity|discriminate]|].
  destruct (read_trect _ _ _ sts l) as [[[r st1] l']|] eqn:R; [|discriminate].
  destruct (read_trects _ _ _ n st1 l') as [[rs' st2]|] eqn:RS; [|discriminate].
  intros _. apply IH in RS. clear IH. unfold read_trect in R. destruct (take 12 l) as [[hd l1]|] eqn:T; [|discriminate].
  apply take_some in T as (T1 & -> & ->). cbv zeta in R. unfold Zrle_Spec.u16 in R.
  rewrite !(head_part 12) in R by lia. rewrite head_tail in R. change (12 - 8)%nat with 4%nat in R.
  destruct (_ =? 7) eqn:Z0; [|discriminate]. apply Z.eqb_eq in Z0.
  assert (T2 : to_signed 32 (field 4 8 l) = 7) by (unfold field; rewrite Z0; reflexivity).
  destruct (skipn 12 l) as [|c d] eqn:D; [discriminate|].
  assert (LD : (length d = length l - 13)%nat) by (assert (X := skipn_length 12 l); rewrite D in X; cbn [length] in X; lia).
  assert (DD : d = skipn 13 l).
  { change 13%nat with (1 + 12)%nat. rewrite <- skipn_skipn, D. reflexivity. }
  enough (G : exists k, tight_len tsize (field 2 4 l) (field 2 6 l) (c :: d) = Some k /\ (k <= length (c :: d))%nat /\ l' = skipn k (c :: d)).
  { destruct G as (k & G1 & G2 & G3). eapply (rects_S _ _ _ (12 + k)).
    - apply (picture_rect _ _ 7); [exact T1|exact T2|cbn; auto|]. rewrite D. exact G1.
    - assert (X := skipn_length 12 l). rewrite D in X. lia.
    - rewrite G3, <- D, skipn_skipn in RS. rewrite Nat.add_comm. exact RS. }
  unfold tight_len. cbv zeta. destruct (c =? 144) eqn:J.
  - assert (X : existsb (Z.eqb c) [0; 16; 32; 48] = false) by (apply Z.eqb_eq in J; subst c; reflexivity). rewrite X.
    cbn [andb orb]. destruct (read_len d) as [[v rest]|] eqn:RL; [|discriminate].
    destruct (take (Z.to_nat v) rest) as [[im l2]|] eqn:TK; [|discriminate]. apply take_some in TK as (K1 & _ & ->).
    apply triple_eq in R as <-. pose proof (read_len_app _ _ _ RL) as [RL1 _].
    eexists. split; [apply need_ok; cbn [length]; lia|]. split; [cbn [length]; lia|].
    assert (RR : rest = skipn (length d - length rest) d).
    { clear -RL. unfold read_len in RL. destruct d as [|a d]; [discriminate|]. destruct (a <? 128).
      { injection RL as _ <-. cbn [length]. replace (S (length d) - length d)%nat with 1%nat by lia. reflexivity. }
      destruct d as [|b d]; [discriminate|]. destruct (b <? 128).
      { injection RL as _ <-. cbn [length]. replace (S (S (length d)) - length d)%nat with 2%nat by lia. reflexivity. }
      destruct d as [|e d]; [discriminate|]. injection RL as _ <-. cbn [length].
      replace (S (S (S (length d))) - length d)%nat with 3%nat by lia. reflexivity. }
    rewrite RR at 1. rewrite skipn_skipn. cbn [length].
    replace (S (length d) - length rest + Z.to_nat v)%nat with (S (Z.to_nat v + (length d - length rest)))%nat by lia. reflexivity.
  - destruct (existsb (Z.eqb c) [0; 16; 32; 48]) eqn:B; [|discriminate].
    destruct (read_basic _ _ _ _ _ _ _ _) as [[[px sts1] l2]|] eqn:RB; [|discriminate]. apply triple_eq in R as <-.
    unfold read_basic in RB. cbv zeta in RB. fold (field 2 4 l) (field 2 6 l) in RB.
    destruct (_ <? 12)%nat; cbn [andb orb].
    + destruct (read_cpixels _ _ _) as [[px0 l3]|] eqn:C; [|discriminate]. apply triple_eq in RB as <-.
      apply cpixels_some in C as [C1 ->]. eexists. split; [apply need_ok; cbn [length]; lia|]. split; [cbn [length]; lia|reflexivity].
    + destruct (read_len d) as [[v rest]|] eqn:RL; [|discriminate]. destruct (nth_error sts _); [|discriminate].
      destruct (take (Z.to_nat v) rest) as [[im l3]|] eqn:TK; [|discriminate]. apply take_some in TK as (K1 & _ & ->).
      destruct (inflate _ _) as [st3 plain]. destruct (read_cpixels _ _ plain) as [[ts [|]]|]; [|discriminate|discriminate]. apply triple_eq in RB as <-.
      pose proof (read_len_app _ _ _ RL) as [RL1 _].
      eexists. split; [apply need_ok; cbn [length]; lia|]. split; [cbn [length]; lia|].
      assert (RR : rest = skipn (length d - length rest) d).
      { clear -RL. unfold read_len in RL. destruct d as [|a d]; [discriminate|]. destruct (a <? 128).
        { injection RL as _ <-. cbn [length]. replace (S (length d) - length d)%nat with 1%nat by lia. reflexivity. }
        destruct d as [|b d]; [discriminate|]. destruct (b <? 128).
        { injection RL as _ <-. cbn [length]. replace (S (S (length d)) - length d)%nat with 2%nat by lia. reflexivity. }
        destruct d as [|e d]; [discriminate|]. injection RL as _ <-. cbn [length].
        replace (S (S (S (length d))) - length d)%nat with 3%nat by lia. reflexivity. }
      rewrite RR at 1. rewrite skipn_skipn. cbn [length].
      replace (S (length d) - length rest + Z.to_nat v)%nat with (S (Z.to_nat v + (length d - length rest)))%nat by lia. reflexivity.
Qed.

Lemma readable_cursor size tsize l c : read_cursor size l = Some (c, []) ->
  rects_len (viewer size tsize) 1 l = Some (length l).
Proof.
  unfold read_cursor. destruct (take 12 l) as [[hd l1]|] eqn:T; [|discriminate].
  apply take_some in T as (T1 & -> & ->). cbv zeta. unfold Zrle_Spec.u16.
  rewrite !(head_part 12) by lia. rewrite head_tail. change (12 - 8)%nat with 4%nat.
  destruct (_ =? 2 ^ 32 - 239) eqn:Z0; [|discriminate]. apply Z.eqb_eq in Z0.
  destruct (read_cpixels size _ _) as [[px l2]|] eqn:C; [|discriminate]. apply cpixels_some in C as [C1 ->].
  destruct (read_cpixels _ _ (skipn _ _)) as [[rows l3]|] eqn:C; [|discriminate]. apply cpixels_some in C as [C2 ->].
  intros N. apply pair_nil in N. fold (field 2 4 l) (field 2 6 l) in *. rewrite !skipn_length in *.
  set (a := (Z.to_nat (field 2 4 l * field 2 6 l) * size)%nat) in *.
  set (b := (Z.to_nat (field 2 6 l) * Z.to_nat ((field 2 4 l + 7) / 8))%nat) in *.
  eapply (rects_S _ _ _ (12 + (a + b))).
  - apply (picture_rect _ _ (-239)); [exact T1| |cbn; auto 6|].
    + unfold field. rewrite Z0. reflexivity.
    + unfold viewer. cbn [Z.eqb Pos.eqb]. fold a b. apply need_ok. rewrite skipn_length. lia.
  - lia.
  - rewrite !skipn_skipn in N. replace (12 + (a + b))%nat with (b + a + 12)%nat by lia. rewrite N. reflexivity.
Qed.

Lemma readable_h264 size tsize l q : H264_Spec.read_h264 l = Some q -> rects_len (viewer size tsize) 1 l = Some (length l).
Proof.
  unfold H264_Spec.read_h264.
  do 8 (destruct l as [|? l]; [discriminate|]). do 4 (destruct l as [|[|p|p] l]; try discriminate).
  do 6 (destruct p as [p|p|]; try discriminate). do 8 (destruct l as [|? l]; [discriminate|]).
  destruct (Z.eqb_spec (unbe [z7; z8; z9; z10]) (zlen l)) as [E|]; [|discriminate]. intros _.
  eapply (rects_S _ _ _ (12 + (8 + Z.to_nat (zlen l)))).
  - apply (picture_rect _ _ 50); [cbn [length]; lia|reflexivity|cbn; auto|].
    unfold viewer. change (50 =? 0) with false. change (50 =? 7) with false. change (50 =? 16) with false.
    change (50 =? 50) with true. cbv iota. cbn [skipn length Nat.ltb Nat.leb].
    change (field 4 0 _) with (unbe [z7; z8; z9; z10]). rewrite E. apply need_ok. unfold zlen. cbn [length]. lia.
  - unfold zlen. cbn [length]. lia.
  - cbn [Nat.add skipn]. rewrite skipn_all2 by (unfold zlen; lia). reflexivity.
Qed.

(** A viewer whose reading of pictures does not change. *)
Lemma steady_proper p E fuel compress : forall l c,
  Forall (fun a => match a with
                   | Inp (IEncoded f) => 0 <= f_rects f <= 65533 /\ readable p (f_rects f) (f_data f)
                   | Inp _ => True
                   | Text _ t => zlen t <= 2000000000
                   end) l ->
  proper (fun _ => p) E fuel compress c l.
Proof.
  induction l as [|a l IH]; intros c F; [exact I|]. inversion F as [|? ? A B]; subst. split; [exact A|].
  intros c' _. apply IH, B.
Qed.

Lemma splits_step pic h l ms : splits pic h l ms -> l <> [] ->
  exists n, message_len (pic h) l = Some n /\ exists h' ms', splits pic h' (skipn n l) ms'.
Proof.
  intros M N. destruct M as [|h m l ms E M]; [destruct (N eq_refl)|]. exists (length m). split; [exact E|].
  exists (h ++ m), ms. rewrite skipn_app_eq; [exact M|reflexivity].
Qed.
