(** Refined damage: C51. *)
From Verif Require Import Common CommonProofs Zrle_Model Transform_Model Transform_Spec Refinery_Model Refinery_Spec
  Refinery_Proofs.

(** ** C51
    Any sequence of frames, of any sizes up to 32736, with damage inside of each,
    while clients that want damage come and go: nothing is read or written out of
    bounds, and the damage passed on for the newest frame is exactly the part
    inside the buffer of those tiles touched by the damage whose hash differs from
    the hash remembered.  With no client that wants damage it is passed on as it
    is.  Missing: larger buffers, damage outside the buffer (both refuted below),
    and hashes for contents (as any hash has collisions). *)
Theorem C51_refined_exactly_partial : forall xxh rects_of before f,
  keeps_points rects_of -> Forall proper before -> proper f ->
  exists r out outs, feeds xxh rects_of (f :: before) = Ok (r, out :: outs) /\
    length outs = length before /\
    if f_clients f then
      forall x y, in_region out x y <->
        0 <= x < pic_w (f_pic f) /\ 0 <= y < pic_h (f_pic f) /\
        touches (f_damage f) (x / 32) (y / 32) /\
        xxh (tile_bytes (f_pic f) (x / 32) (y / 32)) mod 2 ^ 32
          <> remembered xxh before (pic_w (f_pic f)) (pic_h (f_pic f)) (x / 32) (y / 32)
    else out = f_damage f.
Proof. exact feed_exact. Qed.
Print Assumptions C51_refined_exactly_partial.

(** Nothing damaged and changed is dropped as long as the hash tells the old from
    the new contents of the tile. *)
Theorem C51_changes_are_kept : forall xxh rects_of before old f x y,
  keeps_points rects_of -> Forall proper before -> proper old -> proper f ->
  f_clients old = true -> f_clients f = true ->
  pic_w (f_pic old) = pic_w (f_pic f) -> pic_h (f_pic old) = pic_h (f_pic f) ->
  touches (f_damage old) (x / 32) (y / 32) ->
  0 <= x < pic_w (f_pic f) -> 0 <= y < pic_h (f_pic f) -> in_region (f_damage f) x y ->
  xxh (tile_bytes (f_pic f) (x / 32) (y / 32)) mod 2 ^ 32
    <> xxh (tile_bytes (f_pic old) (x / 32) (y / 32)) mod 2 ^ 32 ->
  exists r out outs, feeds xxh rects_of (f :: old :: before) = Ok (r, out :: outs) /\ in_region out x y.
Proof.
  intros xxh rects_of before old f x y K F Po Pf Co Cf Ew Eh T X Y D N.
  destruct (feed_exact xxh rects_of (old :: before) f K (Forall_cons _ Po F) Pf) as (r & out & outs & E & _ & B).
  exists r, out, outs. split; [exact E|]. rewrite Cf in B. apply B. split; [exact X|]. split; [exact Y|].
  split; [exists x, y; auto|]. cbn [remembered]. rewrite Co, Ew, Eh, !Z.eqb_refl. cbn [andb].
  apply touchesb_touches in T. rewrite T. exact N.
Qed.
Print Assumptions C51_changes_are_kept.

(** A frame without changes since the last one damages nothing, whatever the
    application says. *)
Theorem C51_same_frame_again : forall xxh rects_of before old f,
  keeps_points rects_of -> Forall proper before -> proper old -> proper f ->
  f_clients old = true -> f_clients f = true -> f_pic old = f_pic f ->
  (forall x y, in_region (f_damage f) x y -> in_region (f_damage old) x y) ->
  exists r out outs, feeds xxh rects_of (f :: old :: before) = Ok (r, out :: outs) /\
    forall x y, ~ in_region out x y.
Proof.
  intros xxh rects_of before old f K F Po Pf Co Cf E S.
  destruct (feed_exact xxh rects_of (old :: before) f K (Forall_cons _ Po F) Pf) as (r & out & outs & Ef & _ & B).
  exists r, out, outs. split; [exact Ef|]. rewrite Cf in B. intros x y I. apply B in I.
  destruct I as (_ & _ & (u & v & D & T1 & T2) & N). apply N. cbn [remembered]. rewrite Co, E, !Z.eqb_refl. cbn [andb].
  assert (T : touchesb (f_damage old) (x / 32) (y / 32) = true) by (apply touchesb_touches; exists u, v; auto).
  rewrite T. reflexivity.
Qed.
Print Assumptions C51_same_frame_again.

(** A tile that was not looked at before and whose hash is 0 is left out. *)
Theorem C51_zero_hash_is_left_out : forall xxh rects_of f x y,
  keeps_points rects_of -> proper f -> f_clients f = true ->
  xxh (tile_bytes (f_pic f) (x / 32) (y / 32)) mod 2 ^ 32 = 0 ->
  exists r out, feeds xxh rects_of [f] = Ok (r, [out]) /\ ~ in_region out x y.
Proof.
  intros xxh rects_of f x y K P C Z0.
  destruct (feed_exact xxh rects_of [] f K (Forall_nil _) P) as (r & out & outs & E & L & B).
  destruct outs; [|discriminate]. exists r, out. split; [exact E|]. rewrite C in B. intros I. apply B in I.
  destruct I as (_ & _ & _ & N). apply N. exact Z0.
Qed.
Print Assumptions C51_zero_hash_is_left_out.

(** The hash of 32 bits does not tell all contents apart: for every hash function
    there are two frames of 2 by 1 pixels, both damaged as a whole, where the
    change is dropped. *)
Definition two_pixels (v : Z) : fed := mk_fed true (mk_pic 2 1 2 4 (be 8 v)) [mk_box 0 0 2 1].

Lemma two_pixels_proper v : proper (two_pixels v).
Proof.
  unfold proper, sound, two_pixels. cbn [f_pic f_damage pic_w pic_h pic_bpp pic_stride pic_mem]. unfold zlen. rewrite be_length.
  split; [lia|]. repeat constructor; cbn; lia.
Qed.

Lemma two_pixels_bytes v : tile_bytes (f_pic (two_pixels v)) 0 0 = be 8 v.
Proof.
  unfold tile_bytes, two_pixels. cbn [f_pic pic_w pic_h pic_bpp pic_stride pic_mem].
  change (range (32 * 0) (Z.min (32 * 0 + 32) 1)) with [0]. cbn [flat_map]. rewrite app_nil_r.
  change (skipn (Z.to_nat ((0 * 2 + 32 * 0) * 4)) (be 8 v)) with (be 8 v).
  change (Z.to_nat ((Z.min (32 * 0 + 32) 2 - 32 * 0) * 4)) with 8%nat.
  rewrite <- (be_length 8 v) at 1. apply firstn_all.
Qed.

Theorem C51_every_hash_drops_a_change : forall xxh rects_of, keeps_points rects_of ->
  exists old new, proper old /\ proper new /\
    f_clients old = true /\ f_clients new = true /\
    f_damage old = [mk_box 0 0 2 1] /\ f_damage new = [mk_box 0 0 2 1] /\
    pic_mem (f_pic old) <> pic_mem (f_pic new) /\
    exists r out outs, feeds xxh rects_of [new; old] = Ok (r, out :: outs) /\ forall x y, ~ in_region out x y.
Proof.
  intros xxh rects_of K.
  remember (Z.to_nat (2 ^ 32)) as n eqn:En.
  assert (Hn : Z.of_nat n = 2 ^ 32) by (subst n; apply Z2Nat.id; discriminate).
  destruct (pigeonhole n (fun i => xxh (be 8 (Z.of_nat i)) mod 2 ^ 32)) as (i & j & Hij & E).
  { intros i. rewrite Hn. apply Z.mod_pos_bound. reflexivity. }
  exists (two_pixels (Z.of_nat i)), (two_pixels (Z.of_nat j)).
  split; [apply two_pixels_proper|]. split; [apply two_pixels_proper|].
  do 4 (split; [reflexivity|]). split.
  - intros B. apply be_inj in B; [lia| |]; change (256 ^ Z.of_nat 8) with (2 ^ 64); clear -Hij Hn;
      (assert (2 ^ 32 < 2 ^ 64) by reflexivity; lia).
  - destruct (feed_exact xxh rects_of [two_pixels (Z.of_nat i)] (two_pixels (Z.of_nat j)) K) as (r & out & outs & Ef & _ & B).
    { constructor; [apply two_pixels_proper|constructor]. } { apply two_pixels_proper. }
    exists r, out, outs. split; [exact Ef|]. intros x y I. cbn [f_clients two_pixels] in B. apply B in I.
    destruct I as (X & Y & _ & N). change (pic_w (f_pic (two_pixels (Z.of_nat j)))) with 2 in *.
    change (pic_h (f_pic (two_pixels (Z.of_nat j)))) with 1 in *.
    rewrite (Z.div_small x 32), (Z.div_small y 32) in N by lia.
    apply N. rewrite two_pixels_bytes. unfold remembered. cbn [f_clients].
    change (touchesb (f_damage (two_pixels (Z.of_nat i))) 0 0) with true.
    change (true && (pic_w (f_pic (two_pixels (Z.of_nat i))) =? 2) && (pic_h (f_pic (two_pixels (Z.of_nat i))) =? 1)) with true.
    rewrite two_pixels_bytes. symmetry. exact E.
Qed.
Print Assumptions C51_every_hash_drops_a_change.

Lemma keeps_same : keeps_points (fun l => l).
Proof. intros l x y. tauto. Qed.

Theorem C51_changed_contents_refuted :
  exists xxh rects_of old new x y r out outs, keeps_points rects_of /\ proper old /\ proper new /\
    f_clients old = true /\ f_clients new = true /\
    in_region (f_damage new) x y /\ pic_mem (f_pic old) <> pic_mem (f_pic new) /\
    feeds xxh rects_of [new; old] = Ok (r, out :: outs) /\ ~ in_region out x y.
Proof.
  destruct (C51_every_hash_drops_a_change (fun l => unbe l) (fun l => l) keeps_same)
    as (old & new & Po & Pn & Co & Cn & Do & Dn & M & r & out & outs & E & N).
  exists (fun l => unbe l), (fun l => l), old, new, 0, 0, r, out, outs.
  split; [exact keeps_same|]. do 4 (split; [assumption|]).
  split; [rewrite Dn; eexists; split; [left; reflexivity|cbn; lia]|].
  split; [exact M|]. split; [exact E|apply N].
Qed.
Print Assumptions C51_changed_contents_refuted.

(** Damage outside the buffer, which the application may give, is read outside. *)
Theorem C51_damage_outside_refuted :
  exists xxh f, f_clients f = true /\ sound (f_pic f) /\ region_within (f_damage f) 64 64 /\
    feeds xxh (fun l => l) [f] = Fault OobRead.
Proof.
  exists unbe, (mk_fed true (mk_pic 1 1 1 4 [1; 2; 3; 4]) [mk_box 0 0 64 1]).
  split; [reflexivity|]. split; [unfold sound; vm_compute; intuition discriminate|].
  split; [repeat constructor; cbn; lia|]. vm_compute. reflexivity.
Qed.
Print Assumptions C51_damage_outside_refuted.

(** In a buffer wider than 32736 the last column of tiles is never passed on: its
    right edge does not fit the type of pixman. *)
Theorem C51_wide_buffer_refuted :
  exists xxh f r out, f_clients f = true /\ pic_w (f_pic f) = 32767 /\
    region_within (f_damage f) (pic_w (f_pic f)) (pic_h (f_pic f)) /\
    pic_h (f_pic f) * pic_stride (f_pic f) * pic_bpp (f_pic f) <= zlen (pic_mem (f_pic f)) /\
    in_region (f_damage f) 32740 0 /\ xxh (tile_bytes (f_pic f) 1023 0) mod 2 ^ 32 = 1 /\
    feeds xxh (fun l => l) [f] = Ok (r, [out]) /\ forall x y, ~ in_region out x y.
Proof.
  exists (fun _ => 1), (mk_fed true (mk_pic 32767 1 32767 1 (repeat 7 (Z.to_nat 32767))) [mk_box 32736 0 32767 1]).
  eexists _, _. split; [reflexivity|]. split; [reflexivity|]. split; [repeat constructor; cbn; lia|].
  split; [unfold zlen; cbn [f_pic pic_mem pic_h pic_stride pic_bpp]; rewrite repeat_length; vm_compute; discriminate|].
  split; [eexists; split; [left; reflexivity|cbn; lia]|]. split; [reflexivity|].
  split; [vm_compute; reflexivity|]. intros x y (b & [] & _).
Qed.
Print Assumptions C51_wide_buffer_refuted.

(** A case of the theorems: a picture of 40 by 2 pixels of one byte; the second
    frame says all is damaged while only the right tile changed.  Then no client
    wants damage for one frame, which makes the refinery forget. *)
Definition stripes (a b : Z) : list Z := repeat a 32 ++ repeat b 8 ++ repeat a 32 ++ repeat b 8.
Definition frame (clients : bool) (a b : Z) : fed :=
  mk_fed clients (mk_pic 40 2 40 1 (stripes a b)) [mk_box 0 0 40 1; mk_box 0 1 40 2].
Example C51_ex :
  proper (frame true 1 3) /\
  feeds (fold_right Z.add 0) (fun l => l)
    [frame true 1 3; frame false 1 3; frame true 1 3; frame true 1 3; frame true 1 2]
  = Ok (mk_rf 40 2 [64; 48],
        [[mk_box 0 0 32 2; mk_box 32 0 40 2]; [mk_box 0 0 40 1; mk_box 0 1 40 2]; []; [mk_box 32 0 40 2];
         [mk_box 0 0 32 2; mk_box 32 0 40 2]]) /\
  remembered (fold_right Z.add 0) [frame true 1 2] 40 2 1 0 = 32.
Proof.
  split; [unfold proper, sound; cbn; repeat split; try lia; repeat constructor; cbn; lia|]. vm_compute. auto.
Qed.

(** Left out when the hash happens to be 0. *)
Example C51_ex_zero :
  proper (frame true 0 0) /\
  feeds (fold_right Z.add 0) (fun l => l) [frame true 0 0] = Ok (mk_rf 40 2 [0; 0], [[]]).
Proof.
  split; [unfold proper, sound; cbn; repeat split; try lia; repeat constructor; cbn; lia|]. vm_compute. reflexivity.
Qed.
