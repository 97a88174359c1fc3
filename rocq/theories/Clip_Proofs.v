(** Lemmas about the clipboard, for Clip_Props.v. *)
From Verif Require Import Common CommonProofs Msg_Model Clip_Model Clip_Spec.

Lemma be4_cons v : be 4 v = [v / 256 / 256 / 256 mod 256; v / 256 / 256 mod 256; v / 256 mod 256; v mod 256].
Proof. reflexivity. Qed.

Lemma written_app (l m : list out) : written l (l ++ m) = flat_map (fun o => match o with Sent l => l | _ => [] end) m.
Proof. unfold written. rewrite skipn_app_exact; reflexivity. Qed.

Lemma written_same (l : list out) : written l l = [].
Proof. unfold written. rewrite skipn_all. reflexivity. Qed.

Lemma log_say o c : log (say o c) = log c ++ [o].
Proof. reflexivity. Qed.

Lemma log_set_provide m c : log (set_provide m c) = log c.
Proof. reflexivity. Qed.

Lemma read_cut_text_written text : zlen text < 2 ^ 32 ->
  read_server_cut_text (([3; 0; 0; 0] ++ be 4 (zlen text)) ++ text) = Some text.
Proof.
  intros L. rewrite be4_cons. cbn [app read_server_cut_text].
  rewrite <- be4_cons, unbe_be by (change (256 ^ Z.of_nat 4) with (2 ^ 32); unfold zlen in *; lia).
  rewrite Z.eqb_refl. reflexivity.
Qed.

Lemma read_ext_written k f rest : 0 <= f < 2 ^ 32 -> k = 4 + zlen rest -> k < 2 ^ 32 ->
  read_ext_clipboard (clipboard_head (- k) f ++ rest) = Some (f, rest).
Proof.
  intros F -> L. unfold clipboard_head. rewrite !be4_cons. cbn [app read_ext_clipboard].
  rewrite <- !be4_cons. assert (0 <= zlen rest) by (unfold zlen; lia).
  unfold pattern32. rewrite (unbe_be 4 f) by (change (256 ^ Z.of_nat 4) with (2 ^ 32); lia).
  assert (M : (- (4 + zlen rest)) mod 2 ^ 32 = 2 ^ 32 - (4 + zlen rest)).
  { symmetry. apply Z.mod_unique with (q := -1); lia. }
  rewrite M, unbe_be by (change (256 ^ Z.of_nat 4) with (2 ^ 32); lia).
  replace (2 ^ 32 - (2 ^ 32 - (4 + zlen rest))) with (4 + zlen rest) by lia.
  rewrite Z.eqb_refl. reflexivity.
Qed.

Lemma Ok_inj {A} (a b : A) : Ok a = Ok b -> a = b.
Proof. congruence. Qed.

(* what a client is sent *)
Lemma offer_total text c : exists c', offer text c = Ok c'.
Proof.
  unfold offer. destruct (closed c); [eauto|]. destruct (has_encoding c ENC_EXT_CLIPBOARD); [|eauto].
  destruct (provide c) eqn:P; [|eauto].
  destruct (flag (caps c) CB_PROVIDE && (zlen text <=? max_text c)).
  - unfold send_clipboard_provide. rewrite P. eauto.
  - destruct (flag (caps c) CB_NOTIFY); eauto.
Qed.

Lemma offer_all_nth text : forall l l', offer_all text l = Ok l' ->
  length l' = length l /\
  forall k p, nth_error l k = Some p ->
    exists p', nth_error l' k = Some p' /\ p_ready p' = p_ready p /\ offer text (p_client p) = Ok (p_client p').
Proof.
  induction l as [|q l IH]; intros l' H; cbn [offer_all] in H.
  - injection H as <-. split; [reflexivity|]. intros [|k] p E; discriminate.
  - destruct (offer text (p_client q)) as [c|] eqn:O; [|discriminate]. cbn [bind] in H.
    destruct (offer_all text l) as [m|] eqn:A; [|discriminate]. cbn [bind] in H. injection H as <-.
    destruct (IH _ eq_refl) as [L N]. split; [cbn [length]; lia|].
    intros [|k] p E; cbn [nth_error] in *.
    + injection E as <-. exists (mk_peer (p_ready q) c). cbn [p_ready p_client]. auto.
    + apply N. exact E.
Qed.

Lemma offer_all_total text : forall l, exists l', offer_all text l = Ok l'.
Proof.
  induction l as [|q l [m IH]]; cbn [offer_all]; [eauto|].
  destruct (offer_total text (p_client q)) as [c ->]. cbn [bind]. rewrite IH. cbn [bind]. eauto.
Qed.

Section P.
Variable compress : list Z -> option (list Z).

Definition message (l : list peer) (text : list Z) : option (list Z) :=
  if existsb (fun p => has_encoding (p_client p) ENC_EXT_CLIPBOARD) l
  then if zlen text =? 0 then None else compress (be 4 (zlen text) ++ text ++ [0])
  else None.

Lemma cut_text_nth l text : zlen text + 5 < 2 ^ 32 ->
  exists l', nvnc_send_cut_text compress l text = Ok l' /\ length l' = length l /\
  forall k p, nth_error l k = Some p ->
    exists p', nth_error l' k = Some p' /\ p_ready p' = p_ready p /\
      offer text (set_provide (message l text) (p_client p)) = Ok (p_client p').
Proof.
  intros L. assert (0 <= zlen text) by (unfold zlen; lia).
  assert (S : (if existsb (fun p => has_encoding (p_client p) ENC_EXT_CLIPBOARD) l
               then save_provide_msg compress text else Ok None) = Ok (message l text)).
  { unfold message, save_provide_msg.
    destruct (existsb _ l); [|reflexivity]. destruct (zlen text =? 0); [reflexivity|].
    rewrite Z.mod_small by lia. destruct (4 + zlen text + 1 <? 4 + zlen text) eqn:B; [lia|reflexivity]. }
  unfold nvnc_send_cut_text. rewrite S. cbn [bind].
  destruct (offer_all_total text (map (fun p => mk_peer (p_ready p) (set_provide (message l text) (p_client p))) l)) as [l' A].
  exists l'. destruct (offer_all_nth _ _ _ A) as [LL N]. rewrite map_length in LL.
  split; [exact A|]. split; [exact LL|].
  intros k p E. apply (N k (mk_peer (p_ready p) (set_provide (message l text) (p_client p)))).
  rewrite nth_error_map, E. reflexivity.
Qed.

End P.

Lemma has_set_provide m c e : has_encoding (set_provide m c) e = has_encoding c e.
Proof. reflexivity. Qed.

Lemma some_ext l k p : nth_error l k = Some p -> has_encoding (p_client p) ENC_EXT_CLIPBOARD = true ->
  existsb (fun p => has_encoding (p_client p) ENC_EXT_CLIPBOARD) l = true.
Proof. intros N H. apply existsb_exists. exists p. split; [eapply nth_error_In; eauto|exact H]. Qed.

Lemma offer_keeps text c c' : offer text c = Ok c' ->
  provide c' = provide c /\ encs c' = encs c /\ caps c' = caps c.
Proof.
  intros O. unfold offer in O. destruct (closed c); [apply Ok_inj in O; subst; auto|].
  destruct (has_encoding c ENC_EXT_CLIPBOARD); [|apply Ok_inj in O; subst; repeat split].
  destruct (provide c) as [z|] eqn:P; [|apply Ok_inj in O; subst; auto].
  destruct (flag (caps c) CB_PROVIDE && (zlen text <=? max_text c)).
  - unfold send_clipboard_provide in O. rewrite P in O. apply Ok_inj in O. subst c'. rewrite <- P. repeat split.
  - destruct (flag (caps c) CB_NOTIFY); apply Ok_inj in O; subst c'; rewrite <- P; repeat split.
Qed.

Lemma offer_plain text c c' : zlen text < 2 ^ 32 -> closed c = false ->
  has_encoding c ENC_EXT_CLIPBOARD = false -> offer text c = Ok c' ->
  read_server_cut_text (written (log c) (log c')) = Some text.
Proof.
  intros L C H O. unfold offer in O. rewrite C, H in O. injection O as <-.
  unfold send_cut_text_to_client. rewrite !log_say, <- app_assoc, written_app, flat_map_app.
  cbn [flat_map]. rewrite !app_nil_r. apply read_cut_text_written. exact L.
Qed.

Lemma offer_ext text c c' z : closed c = false -> has_encoding c ENC_EXT_CLIPBOARD = true ->
  provide c = Some z -> zlen z < 2 ^ 31 - 4 -> offer text c = Ok c' ->
  provide c' = Some z /\ caps c' = caps c /\ cut c' = cut c /\ max_text c' = max_text c /\ encs c' = encs c /\
  if flag (caps c) CB_PROVIDE && (zlen text <=? max_text c)
  then read_ext_clipboard (written (log c) (log c')) = Some (text_provide, z)
  else if flag (caps c) CB_NOTIFY
  then read_ext_clipboard (written (log c) (log c')) = Some (text_notify, [])
  else written (log c) (log c') = [].
Proof.
  intros C H P L O. unfold offer in O. rewrite C, H, P in O. assert (0 <= zlen z) by (unfold zlen; lia).
  destruct (flag (caps c) CB_PROVIDE && (zlen text <=? max_text c)).
  - unfold send_clipboard_provide in O. rewrite P in O. apply Ok_inj in O. subst c'.
    rewrite log_say, written_app. cbn [flat_map]. rewrite app_nil_r.
    repeat (split; [first [exact P|reflexivity]|]).
    apply read_ext_written; [split; [discriminate|reflexivity]|reflexivity|lia].
  - destruct (flag (caps c) CB_NOTIFY).
    + apply Ok_inj in O. subst c'. unfold send_clipboard_notify. rewrite P, log_say, written_app. cbn [flat_map].
      repeat (split; [first [exact P|reflexivity]|]).
      apply (read_ext_written 4 (CB_NOTIFY + CB_TEXT) []); [split; [discriminate|reflexivity]|reflexivity|lia].
    + injection O as <-. repeat (split; [first [exact P|reflexivity]|]). apply written_same.
Qed.

Lemma offer_none text c c' : closed c = true \/ (has_encoding c ENC_EXT_CLIPBOARD = true /\ provide c = None) ->
  offer text c = Ok c' -> c' = c.
Proof.
  intros D O. unfold offer in O. destruct D as [C|[H P]].
  - rewrite C in O. injection O as <-. reflexivity.
  - rewrite H, P in O. destruct (closed c); injection O as <-; reflexivity.
Qed.
Lemma lenient_reads text : zlen text < 2 ^ 32 ->
  read_text_leniently (be 4 (zlen text) ++ text ++ [0]) = Some text.
Proof.
  intros L. assert (0 <= zlen text) by (unfold zlen; lia).
  rewrite be4_cons. cbn [app read_text_leniently]. rewrite <- be4_cons, unbe_be
    by (change (256 ^ Z.of_nat 4) with (2 ^ 32); lia).
  destruct (zlen text <=? zlen (text ++ [0])) eqn:B.
  - unfold zlen. rewrite Nat2Z.id, firstn_app_exact; reflexivity.
  - unfold zlen in B. rewrite app_length in B. cbn [length] in B. lia.
Qed.

Lemma strict_refuses text : text <> [] -> zlen text < 2 ^ 32 -> last text 0 <> 0 ->
  read_text (be 4 (zlen text) ++ text ++ [0]) = None.
Proof.
  intros NE L LA. assert (0 <= zlen text) by (unfold zlen; lia).
  rewrite be4_cons. cbn [app read_text]. rewrite <- be4_cons, unbe_be
    by (change (256 ^ Z.of_nat 4) with (2 ^ 32); lia).
  destruct (exists_last NE) as [u [a ->]]. rewrite last_last in LA.
  assert (E : zlen (u ++ [a]) = zlen u + 1) by (unfold zlen; rewrite app_length; cbn [length]; lia).
  rewrite E. replace (zlen u + 1 - 1) with (zlen u) by lia.
  unfold zlen at 4. rewrite Nat2Z.id, <- app_assoc, app_nth2, Nat.sub_diag by lia. cbn [app nth].
  destruct (a =? 0) eqn:Z; [lia|]. rewrite andb_false_r. reflexivity.
Qed.

Lemma own_receiver_drops (E : env) (z text : list Z) st (c : client) :
  text <> [] -> zlen text < 2 ^ 32 -> last text 0 <> 0 ->
  e_inflate E z = (be 4 (zlen text) ++ text ++ [0], st) -> clipboard_provide E z c = Ok c.
Proof.
  intros NE L LA I. assert (0 <= zlen text) by (unfold zlen; lia).
  unfold clipboard_provide. rewrite I.
  assert (ZL : zlen (be 4 (zlen text) ++ text ++ [0]) = 5 + zlen text).
  { unfold zlen. rewrite !app_length, be_length. cbn [length]. lia. }
  rewrite ZL. destruct (5 + zlen text <=? 4) eqn:B; [lia|].
  change (firstn 4 (be 4 (zlen text) ++ text ++ [0])) with (be 4 (zlen text)).
  change (skipn 4 (be 4 (zlen text) ++ text ++ [0])) with (text ++ [0]).
  rewrite unbe_be by (change (256 ^ Z.of_nat 4) with (2 ^ 32); lia).
  destruct (zlen text <=? 1) eqn:N; [reflexivity|].
  destruct (5 + zlen text - 4 <? zlen text) eqn:K; [lia|].
  replace (firstn (Z.to_nat (zlen text)) (text ++ [0])) with text
    by (unfold zlen; rewrite Nat2Z.id, firstn_app_exact; reflexivity).
  destruct (exists_last NE) as [u [a ->]]. rewrite last_last in LA.
  replace (Z.to_nat (zlen (u ++ [a]) - 1)) with (length u)
    by (unfold zlen; rewrite app_length; cbn [length]; lia).
  rewrite app_nth2, Nat.sub_diag by lia. cbn [nth].
  destruct (a =? 0) eqn:Q; [lia|]. reflexivity.
Qed.

Lemma request_answered (E : env) (c : client) (z rest : list Z) :
  provide c = Some z -> zlen z < 2 ^ 31 - 4 -> flag (caps c) CB_PROVIDE = true ->
  exists c', on_ext_clipboard E c ([6; 0; 0; 0] ++ be 4 (2 ^ 32 - 4) ++ be 4 (2 ^ 25 + 1) ++ rest) = Ok (c', 12) /\
    read_ext_clipboard (written (log c) (log c')) = Some (text_provide, z).
Proof.
  intros P L F. assert (0 <= zlen z) by (unfold zlen; lia). assert (0 <= zlen rest) by (unfold zlen; lia).
  exists (say (Sent (clipboard_head (- (4 + zlen z)) (CB_PROVIDE + CB_TEXT) ++ z)) c).
  set (m := [6; 0; 0; 0] ++ be 4 (2 ^ 32 - 4) ++ be 4 (2 ^ 25 + 1) ++ rest).
  assert (ZL : zlen m = 12 + zlen rest) by (unfold m, zlen; rewrite !app_length, !be_length; cbn [length]; lia).
  assert (U4 : u32 m 4 = 2 ^ 32 - 4) by reflexivity.
  assert (U8 : u32 m 8 = 2 ^ 25 + 1) by reflexivity.
  unfold on_ext_clipboard. rewrite ZL, U4, U8, P, F. destruct (12 + zlen rest <? 12) eqn:B; [lia|].
  change (to_signed 32 (- (2 ^ 32 - 4) mod 2 ^ 32) - 4) with 0.
  change (0 <? - 2 ^ 31) with false. cbv iota.
  change (flag (2 ^ 25 + 1) CB_CAPS) with false. cbn [andb].
  change (MAX_CUT_TEXT_SIZE <? 0) with false. change ((12 + 0) mod 2 ^ 64) with 12. cbv iota.
  rewrite B.
  change (flag (2 ^ 25 + 1) CB_REQUEST && flag (2 ^ 25 + 1) CB_TEXT && true && true) with true. cbv iota.
  unfold send_clipboard_provide. rewrite P. cbn [bind]. split; [reflexivity|].
  rewrite log_say, written_app. cbn [flat_map]. rewrite app_nil_r.
  apply read_ext_written; [split; [discriminate|reflexivity]|reflexivity|lia].
Qed.
