(** Claims about framebuffers, pools and shared buffers. *)
From Verif Require Import Common CommonProofs Pixels_Model Fb_Model Fb_Spec Fb_Proofs.

(** C29: as long as owners drop only what they have, every call is defined (in
    particular, no call touches a destroyed framebuffer); at each point the
    framebuffer is destroyed iff no reference is left, and the release callback
    was run as often as the last hold was released. *)
Theorem C29_destroyed_and_released_in_time : forall g ops, used_right ops ->
  exists f, fb_run (fb_fresh g) ops = Ok f /\
  (fb_freed f = true <-> refs ops = 0) /\ fb_released f = last_releases 0 ops.
Proof.
  intros g ops U. eexists. split; [apply fb_run_ok, U|]. cbn [fb_freed fb_released]. split; [lia|reflexivity].
Qed.
Print Assumptions C29_destroyed_and_released_in_time.

(** The callback is run by the release of the last hold itself. *)
Theorem C29_release_runs_callback_at_once : forall g ops, used_right (ops ++ [Release]) ->
  exists f, fb_run (fb_fresh g) ops = Ok f /\
  exists f', nvnc_fb_release f = Ok (f', holds ops =? 1).
Proof.
  intros g ops U. eexists. split; [apply fb_run_ok; eapply used_right_app, U|].
  destruct (U ops Release [] eq_refl) as [R _]. unfold nvnc_fb_release. cbn [fb_freed fb_hold].
  destruct (refs ops =? 0) eqn:E; [lia|]. replace (holds ops - 1 =? 0) with (holds ops =? 1) by lia.
  destruct (holds ops =? 1); eexists; reflexivity.
Qed.
Print Assumptions C29_release_runs_callback_at_once.

(** An encoder and the display hold the same framebuffer; the owner lets go first. *)
Definition C29_trace : list fb_op := [Ref; Hold; Ref; Hold; Unref; Release; Unref; Hold; Release; Release; Unref].

Example C29_ex : used_right C29_trace /\ refs C29_trace = 0 /\ last_releases 0 C29_trace = 1 /\
  exists f, fb_run (fb_fresh (4, 4, 0, 4)) C29_trace = Ok f /\ fb_freed f = true /\ fb_released f = 1.
Proof.
  split.
  - intros pre o post E. unfold C29_trace in E.
    do 11 (destruct pre as [|? pre];
      [injection E as <- _; split; [vm_compute; reflexivity|first [discriminate|intros _; vm_compute; reflexivity]]
      |cbn [app] in E; injection E as <- E]).
    destruct pre; discriminate.
  - split; [vm_compute; reflexivity|]. split; [vm_compute; reflexivity|]. eexists.
    split; [vm_compute; reflexivity|]. split; vm_compute; reflexivity.
Qed.

(** C55: a shared buffer is freed, once, exactly when as many references are
    dropped as were taken, and not touched before or after. *)
Theorem C55_freed_once_at_balance : forall payload ups,
  (forall pre up post, ups = pre ++ up :: post ->
     0 < 1 + Z.of_nat (count_occ Bool.bool_dec pre true) - Z.of_nat (count_occ Bool.bool_dec pre false)) ->
  exists b, rcbuf_run (rcbuf_new payload) ups = Ok b /\ rc_payload b = payload /\
  rc_frees b = if 1 + Z.of_nat (count_occ Bool.bool_dec ups true) =? Z.of_nat (count_occ Bool.bool_dec ups false) then 1 else 0.
Proof.
  intros payload ups U. unfold rcbuf_new.
  enough (G : forall n, 0 < n ->
    (forall pre up post, ups = pre ++ up :: post ->
       0 < n + Z.of_nat (count_occ Bool.bool_dec pre true) - Z.of_nat (count_occ Bool.bool_dec pre false)) ->
    exists b, rcbuf_run (mk_rc n payload 0) ups = Ok b /\ rc_payload b = payload /\
      rc_frees b = if n + Z.of_nat (count_occ Bool.bool_dec ups true) =? Z.of_nat (count_occ Bool.bool_dec ups false) then 1 else 0)
    by (apply G; [lia|exact U]).
  clear. induction ups as [|up ups IH]; intros n N U.
  - cbn [rcbuf_run count_occ]. eexists. split; [reflexivity|]. split; [reflexivity|]. cbn [rc_frees].
    destruct (n + Z.of_nat 0 =? Z.of_nat 0) eqn:E; [lia|reflexivity].
  - destruct up; cbn [rcbuf_run].
    + unfold rcbuf_ref. cbn [rc_frees rc_ref rc_payload Z.gtb Z.compare bind].
      destruct (IH (n + 1)) as [b [E [P F]]].
      * lia.
      * intros pre up post ->. specialize (U (true :: pre) up post eq_refl). cbn [count_occ] in U.
        destruct (Bool.bool_dec true true); [|congruence]. destruct (Bool.bool_dec true false); [congruence|]. lia.
      * exists b. split; [exact E|]. split; [exact P|]. rewrite F. cbn [count_occ].
        destruct (Bool.bool_dec true true); [|congruence]. destruct (Bool.bool_dec true false); [congruence|].
        replace (n + Z.of_nat (S (count_occ Bool.bool_dec ups true))) with (n + 1 + Z.of_nat (count_occ Bool.bool_dec ups true)) by lia.
        reflexivity.
    + unfold rcbuf_unref. cbn [rc_frees rc_ref rc_payload Z.gtb Z.compare].
      destruct (negb (n >? 0)) eqn:A; [lia|]. destruct (n - 1 >? 0) eqn:B; cbn [bind].
      * destruct (IH (n - 1)) as [b [E [P F]]].
        -- lia.
        -- intros pre up post ->. specialize (U (false :: pre) up post eq_refl). cbn [count_occ] in U.
           destruct (Bool.bool_dec false false); [|congruence]. destruct (Bool.bool_dec false true); [congruence|]. lia.
        -- exists b. split; [exact E|]. split; [exact P|]. rewrite F. cbn [count_occ].
           destruct (Bool.bool_dec false false); [|congruence]. destruct (Bool.bool_dec false true); [congruence|].
           replace (n - 1 + Z.of_nat (count_occ Bool.bool_dec ups true) =? Z.of_nat (count_occ Bool.bool_dec ups false))
             with (n + Z.of_nat (count_occ Bool.bool_dec ups true) =? Z.of_nat (S (count_occ Bool.bool_dec ups false))) by lia.
           reflexivity.
      * destruct ups as [|up ups].
        -- cbn [rcbuf_run]. eexists. split; [reflexivity|]. split; [reflexivity|]. cbn [rc_frees count_occ].
           destruct (Bool.bool_dec false false); [|congruence]. destruct (Bool.bool_dec false true); [congruence|].
           destruct (n + Z.of_nat 0 =? Z.of_nat 1) eqn:E; [reflexivity|lia].
        -- specialize (U [false] up ups eq_refl). cbn [count_occ] in U.
           destruct (Bool.bool_dec false false); [|congruence]. destruct (Bool.bool_dec false true); [congruence|]. lia.
Qed.
Print Assumptions C55_freed_once_at_balance.

Example C55_ex : exists b, rcbuf_run (rcbuf_new [1; 2]) [true; false; true; true; false; false; false] = Ok b /\ rc_frees b = 1.
Proof. eexists. split; [vm_compute; reflexivity|vm_compute; reflexivity]. Qed.

(** C30: in any execution in which calls are made through references the callers
    have and a framebuffer is held only from acquiring it to giving it back:
    every allowed call is defined; and what the pool hands out is a live
    framebuffer of the geometry last asked for, held by nobody, either new or
    given back by its last user. *)
Theorem C30_pool_hands_out_idle_buffers_of_its_geometry : forall g w u, runs g w u ->
  (forall o, may u o -> exists w' got, pool_step w o = Ok (w', got)) /\
  forall w' got, 0 < u_pool u -> pool_step w Acquire = Ok (w', got) ->
    exists i f, got = Some i /\ nth_error (w_heap w') i = Some f /\ fb_geo f = u_geo u /\
    fb_hold f = 0 /\ fb_freed f = false /\
    (i = length (u_fbs u) \/ exists r, nth_error (u_fbs u) i = Some (r, Returned)).
Proof.
  intros g w u R. apply runs_inv in R. split.
  - intros o M. destruct (step_inv w u o R M) as [w' [got [E _]]]. eauto.
  - intros w' got P E. destruct (step_inv w u Acquire R P) as [w2 [got2 [E2 [A _]]]].
    rewrite E in E2. injection E2 as <- <-. apply A. reflexivity.
Qed.
Print Assumptions C30_pool_hands_out_idle_buffers_of_its_geometry.

(** A framebuffer in use is destroyed by nobody but its users: while it is
    acquired or held and somebody has a reference, it is alive. *)
Theorem C30_framebuffers_in_use_stay : forall g w u i r ph f, runs g w u ->
  nth_error (u_fbs u) i = Some (r, ph) -> 0 < r -> nth_error (w_heap w) i = Some f -> fb_freed f = false.
Proof.
  intros g w u i r ph f R U P F. apply runs_inv in R. destruct (i_fbs _ _ R _ _ _ F U) as [_ [K2 [K3 _]]].
  rewrite K3, K2. cbn [fst]. pose proof (occ_range i (p_fbs (w_pool w))). lia.
Qed.
Print Assumptions C30_framebuffers_in_use_stay.

(** The condition on holds is needed: a framebuffer that is held again after it
    was given back (by an owner who kept a reference, without acquiring it) is
    handed out while held. *)
Theorem C30_holding_a_returned_buffer_breaks_the_pool : exists ops w got f,
  (fix go w ops := match ops with
                   | [] => Ok w
                   | o :: ops => let* r := pool_step w o in go (fst r) ops
                   end) (pool_new (4, 4, 0, 4)) ops = Ok w /\
  pool_step w Acquire = Ok (got, Some 0%nat) /\ nth_error (w_heap got) 0 = Some f /\ fb_hold f = 1.
Proof.
  exists [Acquire; FbHold 0%nat; FbRelease 0%nat; FbHold 0%nat]. do 3 eexists.
  split; [vm_compute; reflexivity|]. split; [vm_compute; reflexivity|]. split; [vm_compute; reflexivity|vm_compute; reflexivity].
Qed.
Print Assumptions C30_holding_a_returned_buffer_breaks_the_pool.

(** Two framebuffers are acquired and held; one is given back, the pool is resized,
    then the other is given back: the next one handed out is new. *)
Fixpoint play (w : world) (u : users) (ops : list pool_op) : option (world * users) :=
  match ops with
  | [] => Some (w, u)
  | o :: ops =>
      match pool_step w o with
      | Ok (w, got) => match allowed u o got with Some u => play w u ops | None => None end
      | Fault _ => None
      end
  end.

Lemma play_runs g ops : forall w u w' u', runs g w u -> play w u ops = Some (w', u') -> runs g w' u'.
Proof.
  induction ops as [|o ops IH]; intros w u w' u' R H; cbn [play] in H.
  - injection H as <- <-. exact R.
  - destruct (pool_step w o) as [[w1 got]|] eqn:S; [|discriminate].
    destruct (allowed u o got) as [u1|] eqn:A; [|discriminate]. eapply IH; [|exact H]. eapply then_; eassumption.
Qed.

Definition C30_trace : list pool_op :=
  [Acquire; FbHold 0; Acquire; FbHold 1; FbHold 0; FbRelease 0; FbRelease 0; FbUnref 0;
   Resize (8, 4, 0, 8); FbRelease 1; FbUnref 1].

Example C30_ex : exists w u, runs (4, 4, 0, 4) w u /\ 0 < u_pool u /\ u_geo u = (8, 4, 0, 8) /\
  u_fbs u = [(0, Returned); (0, Returned)] /\ exists w', pool_step w Acquire = Ok (w', Some 2%nat).
Proof.
  destruct (play (pool_new (4, 4, 0, 4)) (mk_u 1 (4, 4, 0, 4) []) C30_trace) as [[w u]|] eqn:E; [|vm_compute in E; discriminate].
  exists w, u. split; [eapply play_runs; [constructor|exact E]|]. vm_compute in E. injection E as <- <-.
  split; [reflexivity|]. split; [reflexivity|]. split; [reflexivity|]. eexists. vm_compute. reflexivity.
Qed.

(** C31 is false: the size is computed in 32 bits. A framebuffer of 32768 by 32768
    pixels of four bytes is given no bytes; with a larger one the product
    overflows an int; and framebuffers in formats the library does not know, like
    RGB565, are given no bytes either, without an error. *)
Theorem C31_allocation_is_large_enough_refuted :
  (exists width height name bytes stride size, 0 < width <= stride /\ stride <= 65535 /\ 0 < height <= 65535 /\
     In (name, bytes) rgb_formats /\ fb_new width height (fourcc name) stride = Ok size /\ size < stride * height * bytes) /\
  (exists width height name bytes stride, 0 < width <= stride /\ stride <= 65535 /\ 0 < height <= 65535 /\
     In (name, bytes) rgb_formats /\ fb_new width height (fourcc name) stride = Fault SignedOverflow) /\
  exists name bytes, In (name, bytes) other_formats /\ fb_new 640 480 (fourcc name) 640 = Ok 0 /\ 0 < bytes.
Proof.
  split; [|split].
  - exists 32768, 32768, "XR24"%string, 4, 32768, 0. split; [lia|]. split; [lia|]. split; [lia|].
    split; [vm_compute; tauto|]. split; [vm_compute; reflexivity|vm_compute; reflexivity].
  - exists 65535, 65535, "XR24"%string, 4, 65535. split; [lia|]. split; [lia|]. split; [lia|].
    split; [vm_compute; tauto|]. vm_compute. reflexivity.
  - exists "RG16"%string, 2. split; [vm_compute; tauto|]. split; [vm_compute; reflexivity|lia].
Qed.
Print Assumptions C31_allocation_is_large_enough_refuted.

(** What holds: framebuffers in the formats the library knows, of less than 2^32
    bytes and 2^31 pixels, are large enough, by less than eight bytes. *)
Theorem C31_allocation_is_large_enough_partial : forall width height name bytes stride,
  0 <= height -> 0 <= stride -> height * stride < 2 ^ 31 -> stride * height * bytes < 2 ^ 32 ->
  In (name, bytes) rgb_formats ->
  exists size, fb_new width height (fourcc name) stride = Ok size /\
  stride * height * bytes <= size < stride * height * bytes + 8.
Proof.
  intros width height name bytes stride H S L M I. unfold fb_new.
  assert (B : pixel_size_from_fourcc (fourcc name) = bytes /\ 0 <= bytes).
  { assert (F : Forall (fun f => pixel_size_from_fourcc (fourcc (fst f)) = snd f /\ 0 <= snd f) rgb_formats)
      by (unfold rgb_formats; cbn [map app]; repeat (constructor; [split; [vm_compute; reflexivity|cbn [snd]; lia]|]); constructor).
    rewrite Forall_forall in F. exact (F _ I). }
  destruct B as [-> P]. unfold fb_alloc_size.
  destruct (height * stride <? 2 ^ 31) eqn:E; [|lia]. eexists. split; [reflexivity|].
  rewrite (Z.mul_comm height stride).
  assert (Q : 0 <= stride * height * bytes) by (apply Z.mul_nonneg_nonneg; [apply Z.mul_nonneg_nonneg; assumption|exact P]).
  rewrite Z.mod_small by lia. remember (stride * height * bytes) as n eqn:EN. clear - Q.
  pose proof (Z.div_mod (n + 8 - 1) 8 ltac:(lia)). pose proof (Z.mod_pos_bound (n + 8 - 1) 8 ltac:(lia)). lia.
Qed.
Print Assumptions C31_allocation_is_large_enough_partial.

Example C31_ex : fb_new 1919 1080 (fourcc "XR24") 1919 = Ok 8290080 /\ 1080 * 1919 < 2 ^ 31 /\
  1919 * 1080 * 4 = 8290080 /\ fb_new 3 1 (fourcc "RG24") 3 = Ok 16 /\ In ("RG24"%string, 3) rgb_formats.
Proof. split; [vm_compute; reflexivity|]. split; [lia|]. split; [lia|]. split; [vm_compute; reflexivity|vm_compute; tauto]. Qed.
