(** Continuous updates: what touches the client's area is sent. *)
From Verif Require Import Common CommonProofs Pixels_Model Msg_Model Msg_Spec Msg2_Spec Upd_Spec Upd_Proofs Upd2_Proofs Ev_Spec Msg6_Proofs Ev_Proofs Cont_Spec.

Lemma answered_on sent c k : updating c = false -> cu_on c = true -> forall r, answered r sent c k = k c.
Proof. intros U C r. unfold answered, decrement_pending. destruct sent; [|reflexivity]. rewrite U, C. reflexivity. Qed.

Lemma covers_inter_at r x y w h px py : covers r px py -> x <= px < x + w -> y <= py < y + h ->
  0 <= x -> 0 <= y -> x + w <= 32767 -> y + h <= 32767 -> covers (intersect_rect r x y w h) px py.
Proof.
  intros C X Y A B W H. unfold intersect_rect. rewrite rect_box_small by lia.
  apply Exists_exists in C as ([[[x1 y1] x2] y2] & I & D). apply Exists_exists.
  exists (box_inter (x1, y1, x2, y2) (x, y, x + w, y + h)). split.
  - apply filter_In. split; [apply in_map_iff; eauto|]. cbn. lia.
  - cbn. lia.
Qed.
Lemma covers_not_empty r px py : covers r px py -> not_empty r = true.
Proof.
  intros C. apply Exists_exists in C as ([[[x1 y1] x2] y2] & I & D). apply existsb_exists. eexists. split; [exact I|]. cbn. lia.
Qed.

(* what the steps before the frame change *)
Definition kept (c c' : client) : Prop :=
  cu_on c' = cu_on c /\ cu_rect c' = cu_rect c /\ damage c' = damage c /\ updating c' = updating c /\
  exists l, log c' = log c ++ l.
Lemma kept_refl c : kept c c.
Proof. repeat split. exists []. now rewrite app_nil_r. Qed.
Lemma kept_trans a b c : kept a b -> kept b c -> kept a c.
Proof.
  intros (A1 & A2 & A3 & A4 & l & A5) (B1 & B2 & B3 & B4 & m & B5). repeat split; try congruence.
  exists (l ++ m). rewrite B5, A5, app_assoc. reflexivity.
Qed.
Lemma kept_say c o : kept c (say o c).
Proof. repeat split. now exists [o]. Qed.

Lemma ext_kept c : kept c (fst (if ext_notified c then (c, false) else send_ext_support (set_ext_notified true c))).
Proof.
  destruct (ext_notified c); [apply kept_refl|]. unfold send_ext_support.
  destruct (_ && _); cbn [fst]; [repeat split; exists []; now rewrite app_nil_r|repeat split; eexists; reflexivity].
Qed.
Lemma cursor_kept E c (b : bool) : kept c (if b then send_cursor_update E c else c).
Proof.
  destruct b; [|apply kept_refl]. unfold send_cursor_update. destruct (e_cursor E _ _); [|apply kept_say].
  repeat split. eexists. reflexivity.
Qed.
Lemma led_kept c : kept c (fst (send_led_state c)).
Proof.
  unfold send_led_state. destruct (_ =? _); [apply kept_refl|]. destruct (_ && _); [apply kept_refl|]. repeat split. eexists. reflexivity.
Qed.

Lemma frame_sent E f c x y w h : obliging E -> cu_on c = true -> cu_rect c = (x, y, w, h) -> updating c = false ->
  0 <= x -> 0 <= y -> x + w <= 32767 -> y + h <= 32767 -> touches (damage c) x y w h ->
  exists c' l, send_frame E f c = Ok c' /\ log c' = log c ++ l /\ updating c' = true /\
    forall px py, covers (damage c) px py -> holds px py f -> encoded l px py.
Proof.
  intros (O1 & O2 & O3) CU CR U X Y W H (qx & qy & C & QX & QY). unfold send_frame.
  assert (D : has_damage c = true).
  { unfold has_damage. rewrite (covers_not_empty _ _ _ C), CU, CR. cbn [negb].
    eapply covers_not_empty. apply covers_inter_at; eassumption. }
  rewrite D, O1. cbn [negb]. cbv iota. unfold start_encoding.
  assert (EE : exists c1, ensure_encoder E f c = (c1, true) /\ damage c1 = damage c /\ log c1 = log c).
  { unfold ensure_encoder. rewrite O2. destruct (match encoder c with Some k => _ | None => _ end); eexists; repeat split. }
  destruct EE as (c1 & -> & D1 & L1). cbn [negb]. cbv iota zeta. rewrite O3.
  eexists. exists [Encode (intersect_rect (damage c1) 0 0 (fb_w f) (fb_h f)) (fb_w f) (fb_h f) true].
  split; [reflexivity|]. split; [|split].
  - rewrite <- L1. destruct (0 <? _); reflexivity.
  - destruct (0 <? _); reflexivity.
  - intros px py CP (P1 & P2 & P3 & P4). eexists _, _, _, _. split; [left; reflexivity|]. rewrite D1. now apply covers_inter.
Qed.

Lemma process_sends E r f c x y w h : obliging E -> cu_on c = true -> cu_rect c = (x, y, w, h) -> updating c = false ->
  closed c = false -> disp c = Some f ->
  0 <= x -> 0 <= y -> x + w <= 32767 -> y + h <= 32767 -> touches (damage c) x y w h ->
  exists c' l, process_requests E r c = Ok c' /\ log c' = log c ++ l /\ updating c' = true /\
    forall px py, covers (damage c) px py -> holds px py f -> encoded l px py.
Proof.
  intros O CU CR U CL D X Y W H T. unfold process_requests. rewrite CL, D, U, CU. cbn [negb andb]. cbv iota.
  pose proof (ext_kept c) as K1. destruct (if ext_notified c then _ else _) as [c1 s1]. cbn [fst] in K1.
  rewrite answered_on by (destruct K1 as (? & ? & ? & ? & ?); congruence). cbv zeta.
  set (b := negb _ && _). pose proof (kept_trans _ _ _ K1 (cursor_kept E c1 b)) as K2.
  rewrite answered_on by (destruct K2 as (? & ? & ? & ? & ?); congruence).
  set (c2 := if b then send_cursor_update E c1 else c1) in *. clearbody c2. clear c1 K1 b.
  pose proof (kept_trans _ _ _ K2 (led_kept c2)) as K3. destruct (send_led_state c2) as [c3 s3]. cbn [fst] in K3. clear c2 K2.
  destruct K3 as (K1 & K2 & K3 & K4 & l & K5).
  rewrite answered_on by congruence.
  destruct (frame_sent E f c3 x y w h O) as (c' & m & F & L & V & A); try congruence; try assumption.
  exists c', (l ++ m). split; [exact F|]. split; [rewrite L, K5, app_assoc; reflexivity|]. split; [exact V|].
  intros px py C P. apply encoded_app. right. apply A; [now rewrite K3|exact P].
Qed.

Lemma full_request E r f c x y w h ax ay aw ah : obliging E -> cu_on c = true -> cu_rect c = (ax, ay, aw, ah) -> updating c = false ->
  closed c = false -> disp c = Some f ->
  0 <= ax -> 0 <= ay -> ax + aw <= 32767 -> ay + ah <= 32767 ->
  0 <= x -> 0 <= y -> 0 <= w -> 0 <= h -> x + w <= 32767 -> y + h <= 32767 ->
  (exists px py, (x <= px < x + w /\ y <= py < y + h) /\ ax <= px < ax + aw /\ ay <= py < ay + ah) ->
  exists c' l, on_message E r c (update_request_msg 0 x y w h) = Ok (c', 10) /\ log c' = log c ++ l /\ updating c' = true /\
    forall px py, x <= px < x + w -> y <= py < y + h -> holds px py f -> encoded l px py.
Proof.
  intros O CU CR U CL D AX AY AW AH X Y W H XW YH (qx & qy & (Q1 & Q2) & Q3 & Q4).
  change (update_request_msg 0 x y w h) with (wire (Ask 0 x y w h)).
  assert (XX : u16 (wire (Ask 0 x y w h)) 2 = x /\ u16 (wire (Ask 0 x y w h)) 4 = y /\
               u16 (wire (Ask 0 x y w h)) 6 = w /\ u16 (wire (Ask 0 x y w h)) 8 = h).
  { assert (0 <= x < 65536 /\ 0 <= y < 65536 /\ 0 <= w < 65536 /\ 0 <= h < 65536) as (Gx & Gy & Gw & Gh) by lia.
    unfold wire, update_request_msg. split; [apply u16_at; [reflexivity|exact Gx]|].
    split; [rewrite app_assoc; apply u16_at; [reflexivity|exact Gy]|].
    split; [rewrite !app_assoc, <- (app_assoc _ (be 2 w)); apply u16_at; [reflexivity|exact Gw]|].
    rewrite !app_assoc. rewrite <- (app_nil_r (be 2 h)). apply u16_at; [reflexivity|exact Gh]. }
  destruct XX as (X1 & X2 & X3 & X4).
  change (on_message E r c (wire (Ask 0 x y w h))) with (on_fb_update_request E r c (wire (Ask 0 x y w h))).
  unfold on_fb_update_request. change (zlen (wire (Ask 0 x y w h)) <? 10) with false. cbv iota. rewrite X1, X2, X3, X4.
  change (u8 (wire (Ask 0 x y w h)) 1) with 0. change (0 =? 0) with true. cbn [negb andb]. cbv iota zeta.
  match goal with |- context [process_requests E r ?v] => set (c2 := v) end.
  assert (A : cu_on c2 = true /\ cu_rect c2 = (ax, ay, aw, ah) /\ updating c2 = false /\ closed c2 = false /\ disp c2 = Some f /\
              damage c2 = union_rect (damage c) x y w h /\ exists l, log c2 = log c ++ l).
  { subst c2. destruct (encoder _); destruct (has_encoding _ _);
      (split; [exact CU|]; split; [exact CR|]; split; [exact U|]; split; [exact CL|]; split; [exact D|]; split; [reflexivity|]);
      cbn [log say set_log set_known set_damage set_pending]; rewrite <- ?app_assoc; eexists; reflexivity. }
  destruct A as (A1 & A2 & A3 & A4 & A5 & A6 & l & A7). clearbody c2.
  assert (CV : forall px py, x <= px < x + w -> y <= py < y + h -> covers (damage c2) px py).
  { intros px py PX PY. rewrite A6. apply covers_union. right. rewrite rect_box_small by lia. split; [cbn; lia|]. constructor. lia. }
  destruct (process_sends E r f c2 ax ay aw ah O A1 A2 A3 A4 A5 AX AY AW AH) as (c' & m & F & L & V & B).
  { exists qx, qy. split; [now apply CV|]. auto. }
  rewrite F. cbn [bind]. exists c', (l ++ m). split; [reflexivity|]. split; [rewrite L, A7, app_assoc; reflexivity|]. split; [exact V|].
  intros px py PX PY P. apply encoded_app. right. apply B; [now apply CV|exact P].
Qed.

Lemma damage_sent E fuel f rg c x y w h : obliging E -> cu_on c = true -> cu_rect c = (x, y, w, h) -> updating c = false ->
  closed c = false ->
  0 <= x -> 0 <= y -> x + w <= 32767 -> y + h <= 32767 -> touches rg x y w h ->
  exists c' l, step E fuel c (IDamage f rg) = Ok c' /\ log c' = log c ++ l /\ updating c' = true /\
    forall px py, covers rg px py -> holds px py f -> encoded l px py.
Proof.
  intros O CU CR U CL X Y W H (qx & qy & C & Q1 & Q2). cbn [step]. cbv zeta. change (closed (set_disp (Some f) c)) with (closed c). rewrite CL.
  set (c2 := set_damage _ _).
  assert (CV : forall px py, covers rg px py -> covers (damage c2) px py).
  { intros px py P. change (damage c2) with (region_union (damage c) rg). unfold region_union. apply covers_app. now right. }
  destruct (process_sends E (fun c => receive E fuel c (e_more E (log c))) f c2 x y w h O CU CR U CL eq_refl X Y W H) as (c' & m & F & L & V & B).
  { exists qx, qy. auto. }
  exists c', m. split; [exact F|]. split; [exact L|]. split; [exact V|]. intros px py P PH. apply B; auto.
Qed.
