(** Single messages, continued: encodings, keys, clipboard, desktop size. *)
From Verif Require Import Common CommonProofs Pixels_Model Msg_Model Msg_Proofs Msg_Spec
  Msg2_Spec Upd_Proofs Msg5_Proofs.

(** ** Fields *)
Lemma u16_at p n l k : length p = k -> 0 <= n < 2 ^ 16 -> u16 (p ++ be 2 n ++ l) k = n.
Proof.
  intros L N. unfold u16. rewrite skipn_app_eq by exact L.
  rewrite firstn_app_eq by (apply be_length). apply unbe_be. exact N.
Qed.
Lemma u32_at p n l k : length p = k -> 0 <= n < 2 ^ 32 -> u32 (p ++ be 4 n ++ l) k = n.
Proof.
  intros L N. unfold u32. rewrite skipn_app_eq by exact L.
  rewrite firstn_app_eq by (apply be_length). apply unbe_be. exact N.
Qed.
Lemma u16_skip p l k : (length p <= k)%nat -> u16 (p ++ l) k = u16 l (k - length p).
Proof.
  intros L. unfold u16. rewrite skipn_app. rewrite (skipn_all2 p) by exact L. reflexivity.
Qed.
Lemma u32_skip p l k : (length p <= k)%nat -> u32 (p ++ l) k = u32 l (k - length p).
Proof.
  intros L. unfold u32. rewrite skipn_app. rewrite (skipn_all2 p) by exact L. reflexivity.
Qed.
Lemma u16_0 n l : 0 <= n < 2 ^ 16 -> u16 (be 2 n ++ l) 0 = n.
Proof. apply (u16_at []). reflexivity. Qed.
Lemma u32_0 n l : 0 <= n < 2 ^ 32 -> u32 (be 4 n ++ l) 0 = n.
Proof. apply (u32_at []). reflexivity. Qed.
Lemma u8_at p n l k : length p = k -> u8 (p ++ n :: l) k = n.
Proof. intros L. unfold u8. rewrite app_nth2 by lia. rewrite L, Nat.sub_diag. reflexivity. Qed.

Lemma signed32 e : - 2 ^ 31 <= e < 2 ^ 31 -> to_signed 32 (e mod 2 ^ 32) = e.
Proof.
  intros H. unfold to_signed. cbv zeta. rewrite Z.mod_mod by lia.
  change (2 ^ (32 - 1)) with 2147483648. change (2 ^ 32) with 4294967296.
  change (2 ^ 31) with 2147483648 in H.
  destruct (Z.ltb_spec (e mod 4294967296) 2147483648) as [L|L].
  - assert (0 <= e); [|rewrite Z.mod_small in * by lia; lia].
    destruct (Z.leb_spec 0 e); [assumption|]. exfalso.
    rewrite <- (Z.mod_add e 1) in L by lia. rewrite Z.mod_small in L by lia. lia.
  - assert (e < 0). { destruct (Z.ltb_spec e 0); [assumption|]. rewrite Z.mod_small in L by lia. lia. }
    rewrite <- (Z.mod_add e 1) by lia. rewrite Z.mod_small by lia. lia.
Qed.

(** ** Encodings *)
Lemma supported_known x e : supported x e = is_known x e.
Proof.
  unfold is_known. destruct (in_dec _ _ _) as [I|I].
  - unfold supported. apply orb_true_iff. unfold known_encodings in I.
    apply in_app_iff in I as [I|I].
    + left. apply existsb_exists. exists e. split; [exact I|apply Z.eqb_refl].
    + right. destruct x; [|destruct I]. apply andb_true_iff. split; [reflexivity|].
      apply existsb_exists. exists e. split; [exact I|apply Z.eqb_refl].
  - unfold supported. apply orb_false_iff. split.
    + destruct (existsb _ _) eqn:X; [|reflexivity]. exfalso. apply I.
      apply existsb_exists in X as (y & J & EQ). apply Z.eqb_eq in EQ. subst y.
      apply in_app_iff. left. exact J.
    + destruct x; [|reflexivity]. cbn [andb]. destruct (existsb _ _) eqn:X; [|reflexivity].
      exfalso. apply I. apply existsb_exists in X as (y & J & EQ). apply Z.eqb_eq in EQ. subst y.
      apply in_app_iff. right. exact J.
Qed.

Lemma scan_kept x l : forall kept q, (length kept <= 32)%nat ->
  fst (scan_encodings x l kept q) = kept ++ firstn (32 - length kept) (filter (is_known x) l).
Proof.
  induction l as [|e l IH]; intros kept q L; cbn [scan_encodings filter].
  - rewrite firstn_nil, app_nil_r. reflexivity.
  - destruct (zlen kept <? MAX_ENCODINGS) eqn:Z; unfold zlen, MAX_ENCODINGS in Z.
    + rewrite supported_known. destruct (is_known x e).
      * rewrite IH by (rewrite app_length; cbn; lia). rewrite app_length, <- app_assoc. cbn [length].
        replace (32 - length kept)%nat with (S (32 - (length kept + 1))) by lia. reflexivity.
      * apply IH. exact L.
    + replace (32 - length kept)%nat with O by lia. cbn. rewrite app_nil_r. reflexivity.
Qed.

Lemma scan_quality x l : forall kept q,
  (length kept + length (filter (is_known x) l) < 32)%nat ->
  snd (scan_encodings x l kept q) = last_quality l q.
Proof.
  induction l as [|e l IH]; intros kept q L; cbn [scan_encodings filter last_quality] in *.
  - reflexivity.
  - replace (zlen kept <? MAX_ENCODINGS) with true
      by (symmetry; apply Z.ltb_lt; unfold zlen, MAX_ENCODINGS; lia).
    apply IH. rewrite supported_known. destruct (is_known x e); cbn [length] in *;
      rewrite ?app_length; cbn [length]; lia.
Qed.

Lemma read_flat l : Forall (fun e => - 2 ^ 31 <= e < 2 ^ 31) l -> forall t,
  read_encodings (length l) (flat_map (fun e => be 4 (e mod 2 ^ 32)) l ++ t) = l.
Proof.
  induction 1 as [|e l H _ IH]; intros t; [reflexivity|]. cbn [length flat_map read_encodings].
  rewrite <- app_assoc. rewrite firstn_app_eq, skipn_app_eq by apply be_length.
  rewrite unbe_be by (apply Z.mod_pos_bound; reflexivity). rewrite signed32 by exact H.
  f_equal. apply IH.
Qed.

Lemma set_encodings_effect E r c p l c' n : Forall (fun e => - 2 ^ 31 <= e < 2 ^ 31) l ->
  zlen l < 2 ^ 16 -> on_message E r c (set_encodings_msg p l) = Ok (c', n) ->
  encs c' = fst (scan_encodings (e_experimental E) l [] 10) /\
  quality c' = snd (scan_encodings (e_experimental E) l [] 10) /\ n = 4 + 4 * zlen l.
Proof.
  intros F N H. unfold set_encodings_msg in H.
  assert (FL : zlen (flat_map (fun e => be 4 (e mod 2 ^ 32)) l) = 4 * zlen l).
  { clear. unfold zlen. induction l as [|e l IH]; [reflexivity|]. cbn [flat_map].
    rewrite app_length, be_length. cbn [length]. lia. }
  cbn [app on_message] in H.
  change (2 :: p :: ?x) with ([2; p] ++ x) in H.
  unfold on_set_encodings in H. unfold zlen in N, FL.
  rewrite u16_at in H by (auto; unfold zlen; lia).
  rewrite !ltb_f in H by (unfold zlen; rewrite !app_length, be_length; cbn [length]; lia).
  cbv zeta in H.
  replace (skipn 4 _) with (flat_map (fun e => be 4 (e mod 2 ^ 32)) l ++ []) in H
    by (rewrite app_nil_r, app_assoc; symmetry; apply skipn_app_eq;
        rewrite app_length, be_length; reflexivity).
  replace (Z.to_nat (zlen l)) with (length l) in H by (unfold zlen; lia).
  rewrite read_flat in H by exact F.
  destruct (scan_encodings _ _ _ _) as [kept q] eqn:S. cbn [fst snd].
  apply ok_inj in H. assert (N' : n = 4 + 4 * zlen l) by (apply (f_equal snd) in H; exact (eq_sym H)).
  apply (f_equal fst) in H. cbn [fst] in H.
  cut (encs c' = kept /\ quality c' = q); [tauto|].
  rewrite <- H. clear.
  set (c1 := set_fmt_changed true _).
  assert (X1 : encs c1 = kept /\ quality c1 = q) by (split; reflexivity). clearbody c1.
  set (c2 := if negb (cu_notified c1) && _ then _ else _).
  assert (X2 : encs c2 = kept /\ quality c2 = q) by (subst c2; destruct (_ && _); exact X1).
  clearbody c2. set (c3 := if has_encoding c2 ENC_EXT_CLIPBOARD then _ else _).
  assert (X3 : encs c3 = kept /\ quality c3 = q) by (subst c3; destruct (has_encoding _ _); exact X2).
  clearbody c3. destruct (has_encoding c3 ENC_FENCE); [|exact X3].
  unfold send_ping. destruct (negb _); exact X3.
Qed.

(** ** Choice of the encoding *)
Lemma choose_first E f l :
  (exists l1 e l2, l = l1 ++ e :: l2 /\ usable E f e /\ Forall (fun x => ~ usable E f x) l1 /\
     choose_encoding E (fb_gbm f) l = e) \/
  (Forall (fun x => ~ usable E f x) l /\ choose_encoding E (fb_gbm f) l = 0).
Proof.
  induction l as [|e l IH]; cbn [choose_encoding]; [right; split; [constructor|reflexivity]|].
  destruct (_ || _) eqn:A.
  - left. exists [], e, l. split; [reflexivity|]. split; [|split; [constructor|reflexivity]].
    unfold usable, ENC_RAW, ENC_TIGHT, ENC_ZRLE in *. lia.
  - destruct (_ && _ && _) eqn:B.
    + left. exists [], e, l. split; [reflexivity|]. split; [|split; [constructor|reflexivity]].
      unfold usable, ENC_H264 in *. apply andb_true_iff in B as [B1 B2].
      apply andb_true_iff in B1 as [B0 B1]. lia.
    + assert (U : ~ usable E f e).
      { unfold usable, ENC_RAW, ENC_TIGHT, ENC_ZRLE, ENC_H264 in *.
        intros [U|[U|[U|(U1 & U2 & U3)]]]; lia. }
      destruct IH as [(l1 & e' & l2 & L & V & F & C)|[F C]].
      * left. exists (e :: l1), e', l2. subst l. split; [reflexivity|]. split; [exact V|].
        split; [constructor; assumption|exact C].
      * right. split; [constructor; assumption|exact C].
Qed.

Lemma start_encoder E f c c' : start_encoding E f c = Ok c' -> log c' <> log c ->
  encoder c' = Some (choose_encoding E (fb_gbm f) (encs c)).
Proof.
  unfold start_encoding, ensure_encoder.
  set (e := choose_encoding _ _ _).
  destruct (match encoder c with Some k => k =? e | None => false end) eqn:M.
  - assert (X : encoder c = Some e).
    { destruct (encoder c) as [k|]; [|discriminate]. apply Z.eqb_eq in M. congruence. }
    cbn [negb]. destruct (e_encode _ _); cbv zeta; intros H _; apply ok_inj in H; subst c'.
    + destruct (0 <? _); exact X.
    + exact X.
  - destruct (e_encoder _ _ _); cbn [negb].
    + destruct (e_encode _ _); cbv zeta; intros H _; apply ok_inj in H; subst c'.
      * destruct (0 <? _); reflexivity.
      * reflexivity.
    + intros H NL. apply ok_inj in H. subst c'. contradiction NL. reflexivity.
Qed.

(** ** Line ends *)
Definition lf (a : Z) : Z := if a =? 13 then 10 else a.

Lemma crlf_exact l : exists l', normalised l l' /\ crlf_to_lf l = map lf l'.
Proof.
  remember (length l) as n eqn:N. revert l N.
  induction n as [n IH] using lt_wf_ind. intros l N. destruct l as [|a l].
  { exists []. split; [constructor|reflexivity]. }
  cbn [crlf_to_lf]. destruct (Z.eqb_spec a 13) as [->|NA].
  - destruct l as [|b l].
    + exists [13]. split; [apply n_other; [intros [_ [t T]]; discriminate|constructor]|reflexivity].
    + destruct (Z.eqb_spec b 10) as [->|NB].
      * destruct (IH (length l)) with (l := l) as (l' & A & B); [cbn in N; lia|reflexivity|].
        exists (10 :: l'). split; [constructor; exact A|]. cbn [crlf_to_lf map]. rewrite B. reflexivity.
      * destruct (IH (length (b :: l))) with (l := b :: l) as (l' & A & B); [cbn in *; lia|reflexivity|].
        exists (13 :: l'). split; [apply n_other; [|exact A]|].
        -- intros [_ [t T]]. congruence.
        -- rewrite B. reflexivity.
  - destruct (IH (length l)) with (l := l) as (l' & A & B); [cbn in N; lia|reflexivity|].
    exists (a :: l'). split; [apply n_other; [tauto|exact A]|].
    rewrite B. cbn [map]. unfold lf at 2. replace (a =? 13) with false by lia. reflexivity.
Qed.

Lemma normalised_fun l l1 : normalised l l1 -> forall l2, normalised l l2 -> l1 = l2.
Proof.
  induction 1 as [|l l1 _ IH|a l l1 NP _ IH]; intros l2 H; inversion H; subst; try reflexivity.
  - f_equal. auto.
  - exfalso. eauto.
  - exfalso. eauto.
  - f_equal. auto.
Qed.

Lemma normalised_no_cr l l' : normalised l l' -> ~ lone_cr l -> ~ In 13 l'.
Proof.
  induction 1 as [|l l' _ IH|a l l' NP _ IH]; intros NL.
  - intros [].
  - intros [I|I]; [discriminate|]. apply IH; [|exact I].
    intros (x & y & -> & Y). apply NL. exists (13 :: 10 :: x), y. auto.
  - intros [I|I].
    + subst a. apply NL. exists [], l. split; [reflexivity|].
      intros HD. destruct l as [|b l]; [discriminate|]. cbn in HD. subst b. apply NP. eauto.
    + apply IH; [|exact I]. intros (x & y & -> & Y). apply NL. exists (a :: x), y. auto.
Qed.

Lemma map_lf_id l : ~ In 13 l -> map lf l = l.
Proof.
  induction l as [|a l IH]; intros N; [reflexivity|]. cbn [map]. rewrite IH by (intros I; apply N; right; exact I).
  f_equal. unfold lf. destruct (Z.eqb_spec a 13); [|reflexivity]. exfalso. apply N. left. auto.
Qed.

(** ** What a provide message delivers *)
Lemma provide_delivers E z c text extra st : zlen text + 1 < 2 ^ 32 -> text <> [] ->
  e_inflate E z = (be 4 (zlen text + 1) ++ text ++ [0] ++ extra, st) ->
  clipboard_provide E z c = Ok (say (CutText (cstr (crlf_to_lf text))) c).
Proof.
  intros N NE I. unfold clipboard_provide. rewrite I.
  pose proof (zlen_pos extra). assert (0 < zlen text) by (destruct text; [contradiction|unfold zlen; cbn [length]; lia]).
  assert (Z : zlen (be 4 (zlen text + 1) ++ text ++ [0] ++ extra) = 5 + zlen text + zlen extra).
  { unfold zlen. rewrite !app_length, be_length. cbn [length]. lia. }
  rewrite Z. replace (_ <=? 4) with false by lia.
  rewrite firstn_app_eq, skipn_app_eq by apply be_length.
  rewrite unbe_be by (change (256 ^ Z.of_nat 4) with (2 ^ 32); lia).
  replace (_ <=? 1) with false by lia.
  replace (_ <? zlen text + 1) with false by lia.
  replace (firstn (Z.to_nat (zlen text + 1)) (text ++ [0] ++ extra)) with (text ++ [0]).
  2:{ rewrite app_assoc. symmetry. apply firstn_app_eq. rewrite app_length. unfold zlen. cbn. lia. }
  replace (nth _ (text ++ [0]) 0) with 0.
  2:{ rewrite app_nth2 by (unfold zlen; lia). replace (_ - _)%nat with 0%nat by (unfold zlen; lia). reflexivity. }
  cbn [Z.eqb negb]. rewrite removelast_last. reflexivity.
Qed.

(** ** Desktop size *)
Lemma layouts_told ls : Forall good_screen ls -> forall t,
  layouts_of (length ls) (flat_map screen_bytes ls ++ t) = map told ls.
Proof.
  induction 1 as [|s ls G _ IH]; intros t; [reflexivity|].
  cbn [length flat_map layouts_of map]. rewrite <- app_assoc.
  assert (L : length (screen_bytes s) = 16%nat).
  { unfold screen_bytes. rewrite !app_length, !be_length. reflexivity. }
  rewrite firstn_app_eq, skipn_app_eq by exact L. rewrite IH. f_equal.
  destruct G as (G1 & G2 & G3 & G4 & G5 & G6). unfold layout_of, told, screen_bytes.
  repeat (rewrite (u16_skip (be 4 (s_id s))), be_length by (rewrite be_length; lia); cbn [Nat.sub]).
  rewrite (u16_0 (s_x s)) by auto.
  repeat (rewrite (u16_skip (be 2 (s_x s))), be_length by (rewrite be_length; lia); cbn [Nat.sub]).
  rewrite (u16_0 (s_y s)) by auto.
  repeat (rewrite (u16_skip (be 2 (s_y s))), be_length by (rewrite be_length; lia); cbn [Nat.sub]).
  rewrite (u16_0 (s_w s)) by auto.
  repeat (rewrite (u16_skip (be 2 (s_w s))), be_length by (rewrite be_length; lia); cbn [Nat.sub]).
  rewrite u16_0, u32_0 by auto. reflexivity.
Qed.

Lemma size_effect E r c p w h q ls : Forall good_screen ls -> (length ls < 256)%nat ->
  0 <= w < 2 ^ 16 -> 0 <= h < 2 ^ 16 ->
  let out st := Update KLayout (size_answer w h st) in
  on_message E r c (set_size_msg p w h q ls) =
  Ok (if existsb (outside w h) (map told ls) then say (out 3) c
      else match e_layout E with
           | None => say (out 1) c
           | Some fn => say (out (if fn (log c) w h (map told ls) then 4 else 1))
                          (say (AskLayout w h (map told ls)) c)
           end, zlen (set_size_msg p w h q ls)).
Proof.
  intros G N W H out.
  assert (FL : length (flat_map screen_bytes ls) = (16 * length ls)%nat).
  { clear. induction ls as [|s ls IH]; [reflexivity|]. cbn [flat_map length]. rewrite app_length, IH.
    unfold screen_bytes. rewrite !app_length, !be_length. lia. }
  unfold set_size_msg. cbn [app on_message].
  change (251 :: p :: ?x) with ([251; p] ++ x).
  unfold on_set_desktop_size.
  set (tail := Z.of_nat (length ls) :: q :: flat_map screen_bytes ls).
  assert (ZL : zlen ([251; p] ++ be 2 w ++ be 2 h ++ tail) = 8 + 16 * Z.of_nat (length ls)).
  { unfold zlen, tail. rewrite !app_length, !be_length. cbn [length]. rewrite FL. lia. }
  assert (U8 : u8 ([251; p] ++ be 2 w ++ be 2 h ++ tail) 6 = Z.of_nat (length ls)).
  { unfold tail. rewrite app_assoc, app_assoc. apply u8_at. rewrite !app_length, !be_length. reflexivity. }
  rewrite ltb_f by lia. rewrite U8. cbv zeta. rewrite ltb_f by lia.
  rewrite u16_at by auto.
  rewrite (u16_skip [251; p]) by (cbn; lia). cbn [length Nat.sub].
  rewrite (u16_skip (be 2 w)), be_length by (rewrite be_length; lia). cbn [Nat.sub].
  rewrite u16_0 by auto.
  replace (skipn 8 _) with (flat_map screen_bytes ls ++ []).
  2:{ rewrite app_nil_r. unfold tail. change (?a :: ?b :: ?x) with ([a; b] ++ x) at 2.
      rewrite !app_assoc. symmetry. apply skipn_app_eq. rewrite !app_length, !be_length. reflexivity. }
  rewrite Nat2Z.id, layouts_told by exact G.
  rewrite ZL. replace (8 + Z.of_nat (length ls) * 16) with (8 + 16 * Z.of_nat (length ls)) by lia.
  unfold check_layout. destruct (existsb _ _); [reflexivity|]. destruct (e_layout E); reflexivity.
Qed.

Lemma outside_sticks w h s : outside w h (told s) = true <-> sticks_out w h s.
Proof. unfold outside, sticks_out, told. cbn. lia. Qed.

(** ** Extended clipboard *)
(* nothing after the message matters, and no byte outside it is read *)
Lemma clipboard_no_oob E z c : clipboard_provide E z c <> Fault OobRead.
Proof.
  unfold clipboard_provide. destruct (e_inflate E z) as [o st].
  destruct (zlen o <=? 4).
  { destruct st as [[]|]; try discriminate.
    destruct z; [discriminate|]. destruct (zlen o <? 4); [discriminate|].
    destruct (unbe o <=? 1); discriminate. }
  destruct (unbe (firstn 4 o) <=? 1); [discriminate|].
  destruct (zlen o - 4 <? unbe (firstn 4 o)); [destruct st; discriminate|].
  destruct (negb _); discriminate.
Qed.

Lemma neg_signed v : 2 ^ 31 < v < 2 ^ 32 ->
  to_signed 32 ((- v) mod 2 ^ 32) = 2 ^ 32 - v.
Proof.
  intros V. replace ((- v) mod 2 ^ 32) with (2 ^ 32 - v).
  - change (2 ^ 31) with 2147483648 in V. change (2 ^ 32) with 4294967296 in *.
    apply small_signed. lia.
  - symmetry. rewrite <- (Z.mod_add (- v) 1) by discriminate. rewrite Z.mod_small by lia. lia.
Qed.

Lemma ext_no_oob E c m : 2 ^ 31 < u32 m 4 <= 2 ^ 32 - 4 ->
  on_ext_clipboard E c m <> Fault OobRead.
Proof.
  intros V. unfold on_ext_clipboard. destruct (zlen m <? 12); [discriminate|]. cbv zeta.
  rewrite neg_signed by lia. set (len := 2 ^ 32 - u32 m 4 - 4).
  assert (L : 0 <= len) by lia. destruct (len <? - 2 ^ 31); [discriminate|].
  destruct (_ && _); [discriminate|]. destruct (_ <? len); [discriminate|].
  destruct (zlen m <? _); [destruct (cut c); discriminate|].
  set (body := if flag (u32 m 8) CB_CAPS then _ else _).
  assert (B : body <> Fault OobRead).
  { subst body. destruct (flag (u32 m 8) CB_CAPS); [discriminate|].
    destruct (_ && _ && _ && _); [unfold send_clipboard_provide; destruct (provide c); discriminate|].
    destruct (_ && _); [discriminate|]. destruct (_ && _ && _); [discriminate|].
    destruct (_ && _); [|discriminate]. rewrite ltb_f by lia. apply clipboard_no_oob. }
  clearbody body. destruct body; [discriminate|]. cbn. congruence.
Qed.

Lemma ext_app E c m t : 2 ^ 31 < u32 m 4 <= 2 ^ 32 - 4 -> zlen m = 8 + (2 ^ 32 - u32 m 4) ->
  on_ext_clipboard E c (m ++ t) = on_ext_clipboard E c m.
Proof.
  intros V L. pose proof (zlen_pos t) as T.
  assert (LA : zlen (m ++ t) = zlen m + zlen t) by (unfold zlen; rewrite app_length; lia).
  unfold on_ext_clipboard. rewrite LA, !(ltb_f _ 12) by lia. cbv zeta.
  assert (LN : (12 <= length m)%nat) by (unfold zlen in L; lia).
  rewrite !u32_app by lia. rewrite neg_signed by lia.
  set (len := 2 ^ 32 - u32 m 4 - 4). assert (ZL : zlen m = 12 + len) by lia.
  assert (S : (12 + len) mod 2 ^ 64 = 12 + len) by (apply Z.mod_small; lia).
  assert (S2 : (12 + Z.min 64 len) mod 2 ^ 64 = 12 + Z.min 64 len) by (apply Z.mod_small; lia).
  rewrite S, S2, !(ltb_f _ (12 + len)), !(ltb_f _ (12 + Z.min 64 len)) by lia.
  rewrite andb_false_r. destruct (len <? - 2 ^ 31); [reflexivity|].
  destruct (_ <? len); [reflexivity|]. f_equal.
  destruct (flag (u32 m 8) CB_CAPS).
  { destruct (4 <=? len) eqn:L4; [|reflexivity]. rewrite u32_app; [reflexivity|].
    unfold zlen in ZL. lia. }
  destruct (_ && _ && _ && _); [reflexivity|]. destruct (_ && _); [reflexivity|].
  destruct (_ && _ && _); [reflexivity|]. destruct (_ && _); [|reflexivity].
  destruct (len <? 0); [reflexivity|]. rewrite field_app; [reflexivity|]. unfold zlen in ZL. lia.
Qed.
