From Coq Require Import ZArith List Lia Bool.
From Verif Require Import Common CommonProofs Msg_Model Msg2_Spec Msg6_Proofs Layout_Model Layout_Spec Layout_Proofs.
Import ListNotations.
Open Scope Z_scope.

(** The application is asked exactly when no screen sticks out; it then reads, through the
    accessors, the desktop and the screens of the message and nothing else.  [t]: what
    happens to follow in the buffer. *)
Theorem C171_application_reads_the_request :
  forall (display : option Z) (fn : desk -> bool) (w h : Z) (ls : list screen) (t : list Z),
    Forall good_screen ls -> Forall (fun s => ~ sticks_out w h s) ls ->
    exists d, check_desktop_layout display (Some fn) w h (Z.of_nat (length ls)) (flat_map screen_bytes ls ++ t) =
                Ok (if fn d then 4 else 1, Some d) /\
      reads_as d display w h ls.
Proof.
  intros display fn w h ls t G N. eexists. split; [|apply cells_read].
  unfold check_desktop_layout. rewrite Nat2Z.id. pose proof (fill_screens display w h t ls [] G N) as F. cbn [app map length] in F.
  rewrite F. reflexivity.
Qed.

Theorem C171_not_asked_otherwise :
  forall (display : option Z) (fn : option (desk -> bool)) (w h : Z) (ls : list screen) (t : list Z),
    Forall good_screen ls -> Exists (sticks_out w h) ls \/ fn = None ->
    exists status, check_desktop_layout display fn w h (Z.of_nat (length ls)) (flat_map screen_bytes ls ++ t) = Ok (status, None) /\
      (Exists (sticks_out w h) ls /\ status = 3 \/ ~ Exists (sticks_out w h) ls /\ status = 1).
Proof.
  intros display fn w h ls t G C. unfold check_desktop_layout. rewrite Nat2Z.id.
  assert (D : Exists (sticks_out w h) ls \/ ~ Exists (sticks_out w h) ls).
  { destruct (existsb (outside w h) (map told ls)) eqn:X.
    - left. apply existsb_exists in X as (y & I & O). apply in_map_iff in I as (s & <- & I).
      apply Exists_exists. exists s. split; [exact I|]. apply outside_sticks, O.
    - right. intros E. apply Exists_exists in E as (s & I & O). apply outside_sticks in O.
      enough (existsb (outside w h) (map told ls) = true) by congruence.
      apply existsb_exists. exists (told s). split; [apply in_map; exact I|exact O]. }
  destruct D as [D|D].
  - pose proof (fill_sticks display w h t ls [] G D) as F. cbn [app map length] in F. rewrite F. cbn [bind]. exists 3. split; [reflexivity|]. auto.
  - assert (N : Forall (fun s => ~ sticks_out w h s) ls).
    { rewrite Forall_forall. intros s I O. apply D, Exists_exists. exists s. auto. }
    destruct C as [C|C]; [contradiction|]. subst fn.
    pose proof (fill_screens display w h t ls [] G N) as F. cbn [app map length] in F. rewrite F. cbn [bind]. exists 1. split; [reflexivity|]. auto.
Qed.

(** Whatever the bytes of the screens are, the server is fine, and so is an application
    which reads at any index. *)
Theorem C171_any_screens_any_index :
  forall (display : option Z) (fn : option (desk -> bool)) (w h n : Z) (m : list Z), 0 <= n -> 16 * n <= zlen m ->
    exists status d, check_desktop_layout display fn w h n m = Ok (status, d) /\
      forall d', d = Some d' -> forall i, 0 <= i -> exists x y ww hh p, says d' i x y ww hh p.
Proof.
  intros display fn w h n m N L. unfold check_desktop_layout.
  destruct (fill_any display w h m (Z.to_nat n) []) as (r & E & P); [cbn [length]; lia|].
  cbn [length map app] in E. rewrite E. cbn [bind]. destruct r as [l|].
  - destruct P as (cs & -> & P). cbn [length] in P. destruct fn as [fn|].
    + eexists _, _. split; [reflexivity|]. intros d' X i I. injection X as <-.
      replace n with (Z.of_nat (length cs)) by lia. apply any_reads, I.
    + eexists _, _. split; [reflexivity|]. discriminate.
  - eexists _, _. split; [reflexivity|]. discriminate.
Qed.

(** The message handler of C49 does the same: it asks an application that judges by the
    accessors about the same layouts, with the same answer. *)
Theorem C171_same_as_the_handler :
  forall (display : option Z) (E : env) (fn : desk -> bool) (w h : Z) (ls : list screen) (t : list Z) (c : client),
    Forall good_screen ls ->
    e_layout E = Some (fun _ w h l => fn (mk_desk w h (Z.of_nat (length l))
      (map (fun s => Some (mk_cell (if l_own s then display else None) (l_id s) (l_x s) (l_y s) (l_w s) (l_h s))) l))) ->
    exists d, check_desktop_layout display (Some fn) w h (Z.of_nat (length ls)) (flat_map screen_bytes ls ++ t) =
      Ok (snd (check_layout E w h (layouts_of (length ls) (flat_map screen_bytes ls ++ t)) c), d).
Proof.
  intros display E fn w h ls t c G EL. rewrite layouts_told by exact G. unfold check_layout. rewrite EL.
  unfold check_desktop_layout. rewrite Nat2Z.id.
  destruct (existsb (outside w h) (map told ls)) eqn:X.
  - pose proof (fill_sticks display w h t ls [] G) as F. cbn [app map length] in F. rewrite F; [eexists; reflexivity|].
    apply existsb_exists in X as (y & I & O). apply in_map_iff in I as (s & <- & I).
    apply Exists_exists. exists s. split; [exact I|]. apply outside_sticks, O.
  - pose proof (fill_screens display w h t ls [] G) as F. cbn [app map length] in F. rewrite F.
    + eexists. cbn [bind snd]. rewrite !map_length, map_map. reflexivity.
    + rewrite Forall_forall. intros s I O. apply outside_sticks in O.
      enough (existsb (outside w h) (map told ls) = true) by congruence.
      apply existsb_exists. exists (told s). split; [apply in_map; exact I|exact O].
Qed.

(** Two screens beside each other, the second with number 7, and bytes of another message. *)
Example C171_case :
  let ls := [mk_screen 0 0 0 400 600 0; mk_screen 7 400 0 400 600 5] in
  Forall good_screen ls /\ Forall (fun s => ~ sticks_out 800 600 s) ls /\
  exists d, check_desktop_layout (Some 9) (Some (fun d => get_display_count d =? 2)) 800 600 2 (flat_map screen_bytes ls ++ [4; 1]) = Ok (4, Some d) /\
    says d 0 0 0 400 600 (Some 9) /\ says d 1 400 0 400 600 None /\ says d 2 0 0 0 0 None /\ says d 255 0 0 0 0 None /\
  (* the second one does not fit *)
  check_desktop_layout (Some 9) (Some (fun _ => true)) 799 600 2 (flat_map screen_bytes ls) = Ok (3, None).
Proof.
  split; [repeat constructor; cbn; lia|]. split; [repeat constructor; unfold sticks_out; cbn; lia|].
  eexists. split; [vm_compute; reflexivity|]. repeat split; vm_compute; reflexivity.
Qed.

Print Assumptions C171_application_reads_the_request.
Print Assumptions C171_not_asked_otherwise.
Print Assumptions C171_any_screens_any_index.
Print Assumptions C171_same_as_the_handler.
