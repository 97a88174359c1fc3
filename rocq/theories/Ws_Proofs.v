From Verif Require Import Common CommonProofs Ws_Model Ws_Spec.

Lemma put_ok : forall block off new,
  0 <= off -> off + zlen new <= zlen block ->
  put block off new = Ok (firstn (Z.to_nat off) block ++ new
           ++ skipn (Z.to_nat off + length new) block).
Proof.
  intros block off new H0 H1. unfold put, zlen in *.
  replace ((0 <=? off) && (off + Z.of_nat (length new) <=? Z.of_nat (length block)))
    with true by lia. reflexivity.
Qed.

Lemma get_prefix : forall l r, get (l ++ r) 0 (zlen l) = Ok l.
Proof.
  intros l r. unfold get, zlen. rewrite app_length.
  replace ((0 <=? 0) && (0 <=? Z.of_nat (length l)) &&
     (0 + Z.of_nat (length l) <=? Z.of_nat (length l + length r))) with true by lia.
  cbn [Z.to_nat skipn]. rewrite Nat2Z.id, firstn_app_exact. reflexivity.
Qed.

(** First header byte: all 2 * 8 * 16 values. *)
Lemma byte0_fields : forall b rsv op, 0 <= rsv < 8 -> 0 <= op < 16 ->
  let x := bit b 128 + 16 * rsv + op in
  negb (Z.land x 128 =? 0) = b /\ Z.land x 15 = op.
Proof.
  intros b rsv op Hr Ho x.
  assert (H : forallb (fun r => forallb (fun o =>
     let x := bit b 128 + 16 * r + o in
     Bool.eqb (negb (Z.land x 128 =? 0)) b && (Z.land x 15 =? o)) (zrange 16)) (zrange 8) = true)
    by (destruct b; vm_compute; reflexivity).
  pose proof (sweep _ _ H rsv Hr) as H1. cbn beta in H1.
  pose proof (sweep _ _ H1 op Ho) as H2. cbn beta zeta in H2.
  apply andb_true_iff in H2. destruct H2 as [H2 H3].
  apply Bool.eqb_prop in H2. apply Z.eqb_eq in H3. split; assumption.
Qed.

Lemma byte1_fields : forall m l, 0 <= l < 128 ->
  let x := bit m 128 + l in
  negb (Z.land x 128 =? 0) = m /\ Z.land x 127 = l.
Proof.
  intros m l Hl x.
  assert (H : forallb (fun o => let x := bit m 128 + o in
     Bool.eqb (negb (Z.land x 128 =? 0)) m && (Z.land x 127 =? o)) (zrange 128) = true)
    by (destruct m; vm_compute; reflexivity).
  pose proof (sweep _ _ H l Hl) as H2. cbn beta zeta in H2.
  apply andb_true_iff in H2. destruct H2 as [H2 H3].
  apply Bool.eqb_prop in H2. apply Z.eqb_eq in H3. split; assumption.
Qed.

Lemma len_field_range : forall form n, fits form n -> 0 <= len_field form n < 128.
Proof. intros [| |] n H; cbn in *; lia. Qed.

(** What the parser leaves in the struct for a complete header. *)
Definition parsed (h : ws_header) (f : frame_header) : ws_header :=
  mk_hdr (h_fin f) (h_opcode f) (is_masked f) (h_len f)
    (match h_key f with None => masking_key h | Some k => k end)
    (zlen (header_bytes f)).

Lemma parse_complete : forall h f rest, valid_header f ->
  ws_parse_frame_header h (header_bytes f ++ rest) = (true, parsed h f).
Proof.
  intros h f rest (Hr & Ho & Hf & Hk).
  unfold header_bytes, ws_parse_frame_header, parsed. cbn [app].
  destruct (byte0_fields (h_fin f) (h_rsv f) (h_opcode f) Hr Ho) as [E1 E2].
  destruct (byte1_fields (is_masked f) _ (len_field_range _ _ Hf)) as [E3 E4].
  rewrite E1, E2, E3, E4. unfold header_bytes, key_bytes, is_masked, zlen in *.
  destruct (h_form f) eqn:Eform; cbn [len_field len_ext app fits] in *.
  - replace (h_len f =? 126) with false by lia. replace (h_len f =? 127) with false by lia.
    destruct (h_key f) as [k|] eqn:Ek; cbn [app length].
    + destruct Hk as [Hk _]. rewrite app_length.
      replace (length k + length rest <? 4)%nat with false by lia.
      rewrite (firstn_app_eq _ _ _ rest Hk), Hk. reflexivity.
    + reflexivity.
  - change (126 =? 126) with true. cbn iota.
    assert (Hb : length (be 2 (h_len f)) = 2%nat) by apply be_length.
    rewrite <- app_assoc. rewrite app_length, Hb.
    replace (2 + length _ <? 2)%nat with false by lia.
    match goal with |- context [firstn 2 (be 2 _ ++ ?r)] =>
      rewrite (firstn_app_eq _ _ _ r Hb), (skipn_app_eq _ _ _ r Hb) end.
    rewrite unbe_be by (change (256 ^ Z.of_nat 2) with (2 ^ 16); lia).
    destruct (h_key f) as [k|] eqn:Ek; cbn [app].
    + destruct Hk as [Hk _]. rewrite app_length.
      replace (length k + length rest <? 4)%nat with false by lia.
      cbn [length]. rewrite app_length, Hb, Hk.
      rewrite (firstn_app_eq _ _ _ rest Hk). reflexivity.
    + cbn [length]. rewrite app_length, Hb. reflexivity.
  - change (127 =? 126) with false. change (127 =? 127) with true. cbn iota.
    assert (Hb : length (be 8 (h_len f)) = 8%nat) by apply be_length.
    rewrite <- app_assoc. rewrite app_length, Hb.
    replace (8 + length _ <? 8)%nat with false by lia.
    match goal with |- context [firstn 8 (be 8 _ ++ ?r)] =>
      rewrite (firstn_app_eq _ _ _ r Hb), (skipn_app_eq _ _ _ r Hb) end.
    rewrite unbe_be by (change (256 ^ Z.of_nat 8) with (2 ^ 64); lia).
    destruct (h_key f) as [k|] eqn:Ek; cbn [app].
    + destruct Hk as [Hk _]. rewrite app_length.
      replace (length k + length rest <? 4)%nat with false by lia.
      cbn [length]. rewrite app_length, Hb, Hk.
      rewrite (firstn_app_eq _ _ _ rest Hk). reflexivity.
    + cbn [length]. rewrite app_length, Hb. reflexivity.
Qed.

Lemma app_split_length : forall A (p q a b : list A),
  p ++ q = a ++ b -> (length p < length a)%nat -> exists a2, a = p ++ a2 /\ q = a2 ++ b.
Proof.
  intros A p. induction p as [|x p IH]; intros q a b H Hl.
  - exists a. split; [reflexivity|exact H].
  - destruct a as [|y a]; [cbn in Hl; lia|]. cbn in H. inversion H; subst.
    destruct (IH q a b H2) as (a2 & -> & ->); [cbn in Hl; lia|]. exists a2. split; reflexivity.
Qed.

Lemma parse_prefix : forall h f p q, valid_header f ->
  header_bytes f = p ++ q -> q <> [] ->
  fst (ws_parse_frame_header h p) = false.
Proof.
  intros h f p q (Hr & Ho & Hf & Hk) Hpq Hq.
  destruct p as [|b0 p]; [reflexivity|]. destruct p as [|b1 p]; [reflexivity|].
  unfold header_bytes in Hpq. cbn [app] in Hpq. inversion Hpq as [[H0 H1 Hrest]]; clear Hpq.
  destruct (byte1_fields (is_masked f) _ (len_field_range _ _ Hf)) as [E3 E4].
  unfold ws_parse_frame_header. rewrite E3, E4.
  assert (Hql : (length q > 0)%nat) by (destruct q; [contradiction|cbn; lia]).
  assert (Htot : length (len_ext (h_form f) (h_len f) ++ key_bytes f) = (length p + length q)%nat)
    by (rewrite Hrest, app_length; reflexivity).
  rewrite app_length in Htot. unfold key_bytes, is_masked in *.
  assert (Hkl : match h_key f with None => True | Some k => length k = 4%nat end)
    by (destruct (h_key f); tauto).
  destruct (h_form f) eqn:Eform; cbn [len_field len_ext length fits] in *;
    rewrite ?be_length in Htot.
  - replace (h_len f =? 126) with false by lia. replace (h_len f =? 127) with false by lia.
    destruct (h_key f) as [k|]; [|cbn in Htot; lia].
    replace (length p <? 4)%nat with true by lia. reflexivity.
  - change (126 =? 126) with true. cbn iota.
    destruct (length p <? 2)%nat eqn:E2; [reflexivity|].
    destruct (h_key f) as [k|]; [|cbn in Htot; lia].
    rewrite skipn_length. replace (length p - 2 <? 4)%nat with true by lia. reflexivity.
  - change (127 =? 126) with false. change (127 =? 127) with true. cbn iota.
    destruct (length p <? 8)%nat eqn:E2; [reflexivity|].
    destruct (h_key f) as [k|]; [|cbn in Htot; lia].
    rewrite skipn_length. replace (length p - 8 <? 4)%nat with true by lia. reflexivity.
Qed.

(** Decomposition of the two fixed bytes. *)
Lemma byte0_decomp : forall x, is_byte x -> exists b rsv op,
  0 <= rsv < 8 /\ 0 <= op < 16 /\ x = bit b 128 + 16 * rsv + op.
Proof.
  unfold is_byte. intros x Hx.
  exists (128 <=? x), ((x mod 128) / 16), (x mod 16).
  pose proof (Z.mod_pos_bound x 128 ltac:(lia)).
  pose proof (Z.mod_pos_bound x 16 ltac:(lia)).
  split; [split; [apply Z.div_pos|apply Z.div_lt_upper_bound]; lia|]. split; [lia|].
  assert (H1 : forallb (fun x => x =? bit (128 <=? x) 128 + 16 * (x mod 128 / 16) + x mod 16) (zrange 256) = true)
      by (vm_compute; reflexivity).
  apply Z.eqb_eq. apply (sweep _ _ H1 x Hx).
Qed.

Lemma byte1_decomp : forall x, is_byte x -> exists m l,
  0 <= l < 128 /\ x = bit m 128 + l.
Proof.
  unfold is_byte. intros x Hx. exists (128 <=? x), (x mod 128).
  pose proof (Z.mod_pos_bound x 128 ltac:(lia)). split; [lia|].
  assert (H1 : forallb (fun x => x =? bit (128 <=? x) 128 + x mod 128) (zrange 256) = true)
      by (vm_compute; reflexivity).
  apply Z.eqb_eq. apply (sweep _ _ H1 x Hx).
Qed.

Lemma parse_sound : forall h buf h', all_bytes buf ->
  ws_parse_frame_header h buf = (true, h') ->
  exists f rest, valid_header f /\ buf = header_bytes f ++ rest /\ h' = parsed h f.
Proof.
  intros h buf h' Hb H.
  destruct buf as [|b0 [|b1 rest]]; try discriminate.
  inversion Hb as [|? ? Hb0 Hb']; subst. inversion Hb' as [|? ? Hb1 Hrest]; subst.
  destruct (byte0_decomp b0 Hb0) as (fn & rsv & op & Hr & Ho & E0).
  destruct (byte1_decomp b1 Hb1) as (m & l & Hl & E1).
  assert (Hkey : forall r, all_bytes r -> (4 <= length r)%nat ->
     length (firstn 4 r) = 4%nat /\ all_bytes (firstn 4 r)).
  { intros r Hr4 Hlen. split; [rewrite firstn_length; lia|apply Forall_firstn; exact Hr4]. }
  assert (Hgoal : exists form n ext rest2, fits form n /\ len_field form n = l /\
     len_ext form n = ext /\ rest = ext ++ rest2 /\
     (m = true -> (4 <= length rest2)%nat)).
  { pose proof (byte1_fields m l Hl) as [F1 F2]. rewrite <- E1 in F1, F2.
    unfold ws_parse_frame_header in H. rewrite F1, F2 in H.
    destruct (l =? 126) eqn:E126.
    - destruct (length rest <? 2)%nat eqn:E2; [discriminate|].
      exists L16, (unbe (firstn 2 rest)), (firstn 2 rest), (skipn 2 rest).
      pose proof (unbe_bound (firstn 2 rest) (Forall_firstn _ _ _ _ Hrest)) as Hu.
      rewrite firstn_length, Nat.min_l in Hu by lia.
      change (256 ^ Z.of_nat 2) with (2 ^ 16) in Hu.
      split; [exact Hu|]. split; [cbn; lia|]. split; [|split].
      + cbn [len_ext]. replace 2%nat with (length (firstn 2 rest)) at 1
          by (rewrite firstn_length; lia).
        apply be_unbe. apply Forall_firstn; exact Hrest.
      + symmetry. apply firstn_skipn.
      + intros ->. destruct (length (skipn 2 rest) <? 4)%nat eqn:E4; [discriminate|lia].
    - destruct (l =? 127) eqn:E127.
      + destruct (length rest <? 8)%nat eqn:E2; [discriminate|].
        exists L64, (unbe (firstn 8 rest)), (firstn 8 rest), (skipn 8 rest).
        pose proof (unbe_bound (firstn 8 rest) (Forall_firstn _ _ _ _ Hrest)) as Hu.
        rewrite firstn_length, Nat.min_l in Hu by lia.
        change (256 ^ Z.of_nat 8) with (2 ^ 64) in Hu.
        split; [exact Hu|]. split; [cbn; lia|]. split; [|split].
        * cbn [len_ext]. replace 8%nat with (length (firstn 8 rest)) at 1
            by (rewrite firstn_length; lia).
          apply be_unbe. apply Forall_firstn; exact Hrest.
        * symmetry. apply firstn_skipn.
        * intros ->. destruct (length (skipn 8 rest) <? 4)%nat eqn:E4; [discriminate|lia].
      + exists L7, l, [], rest. split; [cbn; lia|]. split; [reflexivity|].
        split; [reflexivity|]. split; [reflexivity|].
        intros ->. destruct (length rest <? 4)%nat eqn:E4; [discriminate|lia]. }
  destruct Hgoal as (form & n & ext & rest2 & Hfit & Hlf & Hext & Hsplit & Hm).
  assert (Hr2 : all_bytes rest2).
  { rewrite Hsplit in Hrest. apply Forall_app in Hrest. apply Hrest. }
  set (f := FH fn rsv op (if m then Some (firstn 4 rest2) else None) form n).
  assert (Hv : valid_header f).
  { unfold valid_header, f. cbn. repeat split; try lia; try exact Hfit.
    destruct m; [|exact I]. apply Hkey; auto. }
  assert (Hbuf : b0 :: b1 :: rest = header_bytes f ++ (if m then skipn 4 rest2 else rest2)).
  { unfold header_bytes, f, key_bytes, is_masked. cbn [h_fin h_rsv h_opcode h_key h_form h_len].
    rewrite Hext, Hlf. destruct m; cbn [app]; rewrite ?app_nil_r, <- ?app_assoc, ?firstn_skipn, Hsplit;
      subst b0 b1; reflexivity. }
  exists f, (if m then skipn 4 rest2 else rest2).
  split; [exact Hv|]. split; [exact Hbuf|].
  rewrite Hbuf, parse_complete in H by exact Hv. inversion H. reflexivity.
Qed.

(** Writer, unmasked. *)
Definition server_header (h : ws_header) : frame_header :=
  FH (fin h) 0 (opcode h) None (minimal_form (payload_length h)) (payload_length h).

Lemma lor_byte0 : forall b op, 0 <= op < 16 ->
  Z.lor (Z.shiftl (b2z b) 7 mod 256) op mod 256 = bit b 128 + 16 * 0 + op.
Proof.
  intros b op Ho. apply Z.eqb_eq. revert op Ho.
  apply (sweep (fun op => Z.lor (Z.shiftl (b2z b) 7 mod 256) op mod 256 =? bit b 128 + 16 * 0 + op)).
  destruct b; vm_compute; reflexivity.
Qed.

Lemma write_unmasked : forall dst h,
  mask h = false -> 0 <= opcode h < 16 -> 0 <= payload_length h < 2 ^ 64 ->
  10 <= zlen dst ->
  exists tl, ws_write_frame_header dst h =
    Ok (header_bytes (server_header h) ++ tl, zlen (header_bytes (server_header h))) /\
    length (header_bytes (server_header h) ++ tl) = length dst.
Proof.
  intros dst h Hm Ho Hp Hd. unfold zlen in *. unfold ws_write_frame_header.
  rewrite lor_byte0 by exact Ho. rewrite Hm.
  do 10 (destruct dst as [|? dst]; [cbn in Hd; lia|]).
  unfold header_bytes, server_header, minimal_form, key_bytes, is_masked.
  cbn [h_fin h_rsv h_opcode h_key h_form h_len].
  assert (Hl : forall l, (10 <= length l)%nat -> forall a b, put l 0 [a] = Ok (a :: skipn 1 l) /\
            put (a :: skipn 1 l) 1 [b] = Ok (a :: b :: skipn 2 l)).
  { intros l Hl a b. do 2 (destruct l as [|? l]; [cbn in Hl; lia|]).
    rewrite !put_ok by (unfold zlen; cbn [length skipn]; lia). split; reflexivity. }
  match goal with |- context [put ?l 0 [?a]] => set (L := l); set (A := a) end.
  assert (HL : (10 <= length L)%nat) by (subst L; cbn [length]; lia).
  rewrite (proj1 (Hl L HL A 0)). cbn [bind].
  destruct (payload_length h <=? 125) eqn:E1.
  - rewrite (proj2 (Hl L HL A _)). cbn [bind b2z bit len_field len_ext app].
    exists (skipn 2 L). split; [|subst L; cbn [skipn app length]; reflexivity].
    f_equal. f_equal. subst A. f_equal. f_equal.
    change (Z.shiftl 0 7) with 0. rewrite Z.lor_0_l. rewrite Z.mod_small by lia. reflexivity.
  - assert (H2 : forall a b (l : list Z), (10 <= length l)%nat -> put (a :: b :: skipn 2 l) 2 (be 2 (payload_length h))
       = Ok (a :: b :: be 2 (payload_length h) ++ skipn 4 l)).
    { intros a b l Hl'. rewrite put_ok.
      - rewrite be_length. cbn [Z.to_nat Pos.to_nat Pos.iter_op Nat.add firstn skipn app].
        do 4 (destruct l as [|? l]; [cbn in Hl'; lia|]). reflexivity.
      - lia.
      - unfold zlen. rewrite be_length. cbn [length]. rewrite skipn_length. lia. }
    assert (H8 : forall a b (l : list Z), (10 <= length l)%nat -> put (a :: b :: skipn 2 l) 2 (be 8 (payload_length h))
       = Ok (a :: b :: be 8 (payload_length h) ++ skipn 10 l)).
    { intros a b l Hl'. rewrite put_ok.
      - rewrite be_length. cbn [Z.to_nat Pos.to_nat Pos.iter_op Nat.add firstn skipn app].
        do 10 (destruct l as [|? l]; [cbn in Hl'; lia|]). reflexivity.
      - lia.
      - unfold zlen. rewrite be_length. cbn [length]. rewrite skipn_length. lia. }
    destruct (payload_length h <=? 65535) eqn:E2.
    + replace (payload_length h <? 2 ^ 16) with true by lia.
      rewrite (proj2 (Hl L HL A _)). cbn [bind]. rewrite H2 by exact HL.
      cbn [bind b2z bit len_field len_ext app].
      exists (skipn 4 L). rewrite app_nil_r. split.
      * reflexivity.
      * cbn [length]. rewrite app_length, be_length, skipn_length. lia.
    + replace (payload_length h <? 2 ^ 16) with false by lia.
      rewrite (proj2 (Hl L HL A _)). cbn [bind]. rewrite H8 by exact HL.
      cbn [bind b2z bit len_field len_ext app].
      exists (skipn 10 L). rewrite app_nil_r. split.
      * reflexivity.
      * cbn [length]. rewrite app_length, be_length, skipn_length. lia.
Qed.

Lemma server_header_valid : forall h,
  0 <= opcode h < 16 -> 0 <= payload_length h < 2 ^ 64 -> valid_header (server_header h).
Proof.
  intros h Ho Hp. unfold valid_header, server_header, minimal_form.
  cbn [h_rsv h_opcode h_form h_len h_key].
  split; [lia|]. split; [lia|]. split; [|exact I].
  destruct (payload_length h <=? 125) eqn:E1; [unfold fits; lia|].
  destruct (payload_length h <? 2 ^ 16) eqn:E2; unfold fits; lia.
Qed.

Lemma server_header_size : forall h, zlen (header_bytes (server_header h)) <= 10.
Proof.
  intros h. unfold zlen, header_bytes, server_header, minimal_form, key_bytes. cbn [h_key h_form h_len].
  destruct (payload_length h <=? 125); [cbn; lia|].
  destruct (payload_length h <? 2 ^ 16); cbn [len_ext length]; rewrite app_nil_r, be_length; lia.
Qed.

(** Masking. *)
Lemma xor_loop_length : forall key src i, length (xor_loop key i src) = length src.
Proof. intros key src. induction src as [|b t IH]; intros i; cbn; [reflexivity|]. rewrite IH. reflexivity. Qed.

Lemma xor_loop_involutive : forall key src i, xor_loop key i (xor_loop key i src) = src.
Proof.
  intros key src. induction src as [|b t IH]; intros i; cbn [xor_loop]; [reflexivity|].
  rewrite IH, Z.lxor_assoc, Z.lxor_nilpotent, Z.lxor_0_r. reflexivity.
Qed.

Lemma masked_from : forall key d s,
  map (fun ib => Z.lxor (snd ib) (nth (fst ib mod 4) key 0)) (combine (seq s (length d)) d)
  = xor_loop key s d.
Proof.
  intros key d. induction d as [|b t IH]; intros s; cbn [length seq combine map xor_loop fst snd];
    [reflexivity|]. rewrite IH. reflexivity.
Qed.

Lemma masked_xor_loop : forall key d, masked key d = xor_loop key 0 d.
Proof. intros key d. apply masked_from. Qed.

Lemma copy_payload_unmask : forall h d rest,
  mask h = true ->
  ws_copy_payload h (masked (masking_key h) d ++ rest) (zlen d) = Ok d.
Proof.
  intros h d rest Hm. unfold ws_copy_payload.
  replace (zlen d) with (zlen (masked (masking_key h) d)).
  2:{ unfold zlen. rewrite masked_xor_loop, xor_loop_length. reflexivity. }
  rewrite get_prefix. cbn [bind]. rewrite Hm, masked_xor_loop, xor_loop_involutive. reflexivity.
Qed.

Lemma copy_payload_plain : forall h d rest,
  mask h = false -> ws_copy_payload h (d ++ rest) (zlen d) = Ok d.
Proof.
  intros h d rest Hm. unfold ws_copy_payload. rewrite get_prefix. cbn [bind]. rewrite Hm. reflexivity.
Qed.

Lemma apply_mask_unmask : forall h d rest,
  mask h = true -> payload_length h = zlen d ->
  ws_apply_mask h (masked (masking_key h) d ++ rest) = Ok (d ++ rest).
Proof.
  intros h d rest Hm Hp. unfold ws_apply_mask. rewrite Hm, Hp.
  assert (Hl : length (masked (masking_key h) d) = length d)
    by (rewrite masked_xor_loop, xor_loop_length; reflexivity).
  replace (zlen d) with (zlen (masked (masking_key h) d)) by (unfold zlen; rewrite Hl; reflexivity).
  rewrite get_prefix. cbn [bind].
  rewrite masked_xor_loop, xor_loop_involutive.
  rewrite put_ok; [|lia|unfold zlen; rewrite app_length, xor_loop_length; lia].
  cbn [Z.to_nat firstn app Nat.add].
  rewrite (skipn_app_eq _ _ _ rest (xor_loop_length (masking_key h) d 0)). reflexivity.
Qed.

Lemma copy_payload_oob : forall h src len, 0 <= len -> zlen src < len ->
  ws_copy_payload h src len = Fault OobRead.
Proof.
  intros h src len H0 H1. unfold ws_copy_payload, get, zlen in *.
  replace ((0 <=? 0) && (0 <=? len) && (0 + len <=? Z.of_nat (length src))) with false by lia.
  reflexivity.
Qed.

(** The masked writer puts the key over the first four bytes. *)
Lemma write_masked_overwrites : forall dst h dst' n,
  mask h = true -> length (masking_key h) = 4%nat ->
  ws_write_frame_header dst h = Ok (dst', n) -> firstn 4 dst' = masking_key h.
Proof.
  intros dst h dst' n Hm Hk H. unfold ws_write_frame_header in H. rewrite Hm in H.
  destruct (put dst 0 _) as [d1|]; [|discriminate]. cbn [bind] in H.
  match type of H with bind ?e _ = _ => destruct e as [[d2 i]|]; [|discriminate] end.
  cbn [bind] in H. unfold put in H. cbn [Z.to_nat firstn app Nat.add] in H.
  destruct (_ && _); [|discriminate]. cbn [bind] in H. inversion H.
  apply firstn_app_eq. exact Hk.
Qed.
