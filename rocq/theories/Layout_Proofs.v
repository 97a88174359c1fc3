From Coq Require Import ZArith List Lia Bool Arith.
From Verif Require Import Common CommonProofs Msg_Model Msg2_Spec Layout_Model Layout_Spec.
Import ListNotations.
Open Scope Z_scope.

Lemma get_mid a b c n : n = zlen b -> get (a ++ b ++ c) (zlen a) n = Ok b.
Proof.
  intros ->. unfold get, zlen. rewrite !app_length.
  replace (_ && _ && _) with true by lia. rewrite !Nat2Z.id.
  rewrite skipn_app_exact, firstn_app_exact; reflexivity.
Qed.

Lemma net_mid a k v c off n : off = zlen a -> n = Z.of_nat k -> 0 <= v < 256 ^ Z.of_nat k ->
  net (a ++ be k v ++ c) off n = Ok v.
Proof.
  intros -> -> V. unfold net. rewrite get_mid.
  - cbn [bind]. rewrite unbe_be by exact V. reflexivity.
  - unfold zlen. rewrite be_length. reflexivity.
Qed.

Lemma zlen_app a b : zlen (a ++ b) = zlen a + zlen b.
Proof. unfold zlen. rewrite app_length. lia. Qed.
Lemma zlen_be k v : zlen (be k v) = Z.of_nat k.
Proof. unfold zlen. rewrite be_length. reflexivity. Qed.

Definition plain (s : screen) : cell := mk_cell None (s_id s) (s_x s) (s_y s) (s_w s) (s_h s).
Definition cell_of (display : option Z) (s : screen) : cell :=
  mk_cell (if s_id s =? 0 then display else None) (s_id s) (s_x s) (s_y s) (s_w s) (s_h s).

Lemma init_at a s t : good_screen s -> display_layout_init (a ++ screen_bytes s ++ t) (zlen a) = Ok (plain s).
Proof.
  intros (G1 & G2 & G3 & G4 & G5 & G6). unfold display_layout_init, screen_bytes. rewrite <- !app_assoc.
  rewrite (net_mid a 4 (s_id s)) by (try reflexivity; exact G1). cbn [bind].
  replace (net _ (zlen a + 4) 2) with (Ok (s_x s)).
  2:{ rewrite (app_assoc a (be 4 (s_id s))). symmetry. apply net_mid; [rewrite zlen_app, zlen_be; lia|reflexivity|exact G2]. }
  cbn [bind].
  replace (net _ (zlen a + 6) 2) with (Ok (s_y s)).
  2:{ rewrite (app_assoc a), (app_assoc (a ++ _)). symmetry.
      apply net_mid; [rewrite !zlen_app, !zlen_be; lia|reflexivity|exact G3]. }
  cbn [bind].
  replace (net _ (zlen a + 8) 2) with (Ok (s_w s)).
  2:{ rewrite (app_assoc a), (app_assoc (a ++ _)), (app_assoc ((a ++ _) ++ _)). symmetry.
      apply net_mid; [rewrite !zlen_app, !zlen_be; lia|reflexivity|exact G4]. }
  cbn [bind].
  replace (net _ (zlen a + 10) 2) with (Ok (s_h s)).
  2:{ rewrite (app_assoc a), (app_assoc (a ++ _)), (app_assoc ((a ++ _) ++ _)), (app_assoc (((a ++ _) ++ _) ++ _)). symmetry.
      apply net_mid; [rewrite !zlen_app, !zlen_be; lia|reflexivity|exact G5]. }
  reflexivity.
Qed.

Lemma id_at a s t : get (a ++ screen_bytes s ++ t) (zlen a) 4 = Ok (be 4 (s_id s)).
Proof. unfold screen_bytes. rewrite <- !app_assoc. apply get_mid. rewrite zlen_be. reflexivity. Qed.

Lemma zero_either_way v : 0 <= v < 2 ^ 32 -> (unle (be 4 v) =? 0) = (v =? 0).
Proof.
  intros V. pose proof (unbe_be 4 v V) as U. pose proof (be_bytes 4 v) as B. pose proof (be_length 4 v) as L.
  destruct (be 4 v) as [|a [|b [|c [|d [|]]]]]; try discriminate L. unfold all_bytes in B. rewrite !Forall_cons_iff in B. unfold is_byte in B.
  unfold unle. cbn in U |- *. lia.
Qed.

Lemma screen_len s : zlen (screen_bytes s) = 16.
Proof. unfold screen_bytes. rewrite !zlen_app, !zlen_be. reflexivity. Qed.
Lemma screens_len ls : zlen (flat_map screen_bytes ls) = 16 * Z.of_nat (length ls).
Proof. induction ls as [|s ls IH]; [reflexivity|]. cbn [flat_map length]. rewrite zlen_app, screen_len, IH. lia. Qed.

Lemma set_cell_next (l : list (option cell)) x r v : set_cell (l ++ x :: r) (length l) v = Ok (l ++ Some v :: r).
Proof. induction l as [|y l IH]; [reflexivity|]. cbn [app length set_cell]. rewrite IH. reflexivity. Qed.

Lemma fill_screens display w h t todo : forall done, Forall good_screen todo ->
  Forall (fun s => ~ sticks_out w h s) todo ->
  fill display w h (flat_map screen_bytes (done ++ todo) ++ t) (length todo) (length done)
    (map (fun s => Some (cell_of display s)) done ++ repeat None (length todo)) =
  Ok (Some (map (fun s => Some (cell_of display s)) (done ++ todo))).
Proof.
  induction todo as [|s todo IH]; intros done G N.
  - cbn [length repeat fill]. rewrite !app_nil_r. reflexivity.
  - apply Forall_cons_iff in G as [G1 G2]. apply Forall_cons_iff in N as [N1 N2]. cbn [length repeat fill].
    rewrite flat_map_app. cbn [flat_map]. rewrite <- !app_assoc.
    replace (16 * Z.of_nat (length done)) with (zlen (flat_map screen_bytes done)) by apply screens_len.
    rewrite init_at by exact G1. cbn [bind]. rewrite id_at. cbn [bind]. rewrite zero_either_way by apply G1.
    replace (if s_id s =? 0 then _ else plain s) with (cell_of display s) by (unfold cell_of, plain; destruct (s_id s =? 0); reflexivity).
    replace (length done) with (length (map (fun s => Some (cell_of display s)) done)) at 1 by apply map_length.
    rewrite set_cell_next. cbn [bind].
    replace ((c_x (cell_of display s) + c_w (cell_of display s) >? w) || (c_y (cell_of display s) + c_h (cell_of display s) >? h)) with false
      by (unfold sticks_out in N1; cbn [c_x c_w c_y c_h cell_of]; lia).
    specialize (IH (done ++ [s]) G2 N2). rewrite app_length in IH. cbn [length] in IH. rewrite Nat.add_1_r in IH.
    rewrite <- !app_assoc in IH. cbn [app] in IH. rewrite flat_map_app in IH. cbn [flat_map] in IH. rewrite <- !app_assoc in IH.
    rewrite map_app in IH. cbn [map] in IH. rewrite <- app_assoc in IH. exact IH.
Qed.

Lemma fill_sticks display w h t todo : forall done, Forall good_screen todo -> Exists (sticks_out w h) todo ->
  fill display w h (flat_map screen_bytes (done ++ todo) ++ t) (length todo) (length done)
    (map (fun s => Some (cell_of display s)) done ++ repeat None (length todo)) = Ok None.
Proof.
  induction todo as [|s todo IH]; intros done G N; [inversion N|].
  apply Forall_cons_iff in G as [G1 G2]. cbn [length repeat fill].
  rewrite flat_map_app. cbn [flat_map]. rewrite <- !app_assoc.
  replace (16 * Z.of_nat (length done)) with (zlen (flat_map screen_bytes done)) by apply screens_len.
  rewrite init_at by exact G1. cbn [bind]. rewrite id_at. cbn [bind]. rewrite zero_either_way by apply G1.
  replace (if s_id s =? 0 then _ else plain s) with (cell_of display s) by (unfold cell_of, plain; destruct (s_id s =? 0); reflexivity).
  replace (length done) with (length (map (fun s => Some (cell_of display s)) done)) at 1 by apply map_length.
  rewrite set_cell_next. cbn [bind]. cbn [c_x c_w c_y c_h cell_of].
  destruct ((s_x s + s_w s >? w) || (s_y s + s_h s >? h)) eqn:O; [reflexivity|].
  apply Exists_cons in N as [N|N]; [unfold sticks_out in N; lia|].
  specialize (IH (done ++ [s]) G2 N). rewrite app_length in IH. cbn [length] in IH. rewrite Nat.add_1_r in IH.
  rewrite <- !app_assoc in IH. cbn [app] in IH. rewrite flat_map_app in IH. cbn [flat_map] in IH. rewrite <- !app_assoc in IH.
  rewrite map_app in IH. cbn [map] in IH. rewrite <- app_assoc in IH. exact IH.
Qed.

Lemma cells_read display w h ls :
  reads_as (mk_desk w h (Z.of_nat (length ls)) (map (fun s => Some (cell_of display s)) ls)) display w h ls.
Proof.
  split; [reflexivity|]. split; [reflexivity|]. split; [reflexivity|]. intros i.
  unfold says, get_display_x_pos, get_display_y_pos, get_display_width, get_display_height, get_display, at_index.
  cbn [d_n d_cells]. rewrite Nat2Z.id, nth_error_map.
  destruct (nth_error ls i) as [s|] eqn:X.
  - assert (i < length ls)%nat by (apply nth_error_Some; congruence).
    replace (Z.of_nat i >=? Z.of_nat (length ls)) with false by lia. cbn. repeat split.
  - apply nth_error_None in X. replace (Z.of_nat i >=? Z.of_nat (length ls)) with true by lia. repeat split.
Qed.

(* whatever the message holds *)
Lemma net_in m off n : 0 <= off -> 0 <= n -> off + n <= zlen m -> exists v, net m off n = Ok v.
Proof.
  intros. unfold net, get. unfold zlen in *. replace (_ && _ && _) with true by lia. eexists. reflexivity.
Qed.

Lemma init_in m off : 0 <= off -> off + 16 <= zlen m -> exists c, display_layout_init m off = Ok c.
Proof.
  intros. unfold display_layout_init.
  destruct (net_in m off 4) as [a ->]; try lia. destruct (net_in m (off + 4) 2) as [b ->]; try lia.
  destruct (net_in m (off + 6) 2) as [c ->]; try lia. destruct (net_in m (off + 8) 2) as [d ->]; try lia.
  destruct (net_in m (off + 10) 2) as [e ->]; try lia. eexists. reflexivity.
Qed.

Lemma fill_any display w h m todo : forall done : list cell, 16 * Z.of_nat (length done + todo) <= zlen m ->
  exists r, fill display w h m todo (length done) (map Some done ++ repeat None todo) = Ok r /\
    match r with None => True | Some l => exists cs, l = map Some cs /\ length cs = (length done + todo)%nat end.
Proof.
  induction todo as [|todo IH]; intros done L.
  - cbn [fill repeat]. eexists. split; [reflexivity|]. exists done. rewrite app_nil_r. split; [reflexivity|lia].
  - cbn [fill repeat]. destruct (init_in m (16 * Z.of_nat (length done))) as [c ->]; try lia. cbn [bind].
    unfold get at 1. unfold zlen in L. replace (_ && _ && _) with true by lia. cbn [bind].
    match goal with |- context [set_cell _ _ ?v] => set (c' := v) end.
    pose proof (set_cell_next (map Some done) None (repeat None todo) c') as SC. rewrite map_length in SC. rewrite SC. cbn [bind].
    destruct ((c_x c' + c_w c' >? w) || (c_y c' + c_h c' >? h)); [eexists; split; [reflexivity|exact I]|].
    destruct (IH (done ++ [c'])) as (r & E & P); [rewrite app_length; unfold zlen; cbn [length]; lia|].
    rewrite app_length in E, P. cbn [length] in E, P. rewrite Nat.add_1_r in E, P. rewrite map_app in E. cbn [map] in E. rewrite <- app_assoc in E.
    exists r. split; [exact E|]. destruct r; [|exact I]. destruct P as (cs & -> & P). exists cs. split; [reflexivity|lia].
Qed.

Lemma any_reads w h cs i : 0 <= i ->
  exists x y ww hh p, says (mk_desk w h (Z.of_nat (length cs)) (map Some cs)) i x y ww hh p.
Proof.
  intros I. unfold says, get_display_x_pos, get_display_y_pos, get_display_width, get_display_height, get_display, at_index.
  cbn [d_n d_cells]. destruct (i >=? Z.of_nat (length cs)) eqn:O; [exists 0, 0, 0, 0, None; repeat split|].
  rewrite nth_error_map. destruct (nth_error cs (Z.to_nat i)) as [c|] eqn:X.
  - cbn. eexists _, _, _, _, _. repeat split.
  - apply nth_error_None in X. lia.
Qed.
