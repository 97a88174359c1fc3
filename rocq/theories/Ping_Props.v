(** C129: a ping says how large the frame before it was, and that much counts as in flight. *)
From Verif Require Import Common CommonProofs Pace_Model Tcp_Model Ping_Model Ping_Spec.

(** What it says: the whole size if the socket took all of it, or nothing; else only what the
    socket did not take at once. *)
Theorem C129_ping_counts_what_is_left : forall p t n now s pc, idle s -> p <> [] -> zlen p < 2 ^ 32 ->
  exists s' pc', frame_and_ping p None t (Sent n) now s pc = Ok (Some (now mod 2 ^ 32, counted n p), s', pc') /\
    wire s' = wire s ++ firstn n p /\
    p_inflight pc' = to_signed 32 ((p_inflight pc + counted n p) mod 2 ^ 32).
Proof.
  intros p t n now [q cl ck pw wi ac fi] pc (Q & C & K) P L. cbn [queue closed cork] in *. subst q cl ck.
  unfold frame_and_ping, send, flush, enqueue.
  assert (M : exists m, IOV_MAX = S (S m)) by (do 2 eexists; reflexivity). destruct M as [m ->].
  cbn -[zlen firstn skipn Z.sub Z.leb Z.ltb Z.eqb Z.of_nat size_after send_ping counted Z.pow to_signed Z.modulo].
  rewrite firstn_cons, firstn_nil.
  cbn -[zlen firstn skipn Z.sub Z.leb Z.ltb Z.eqb Z.of_nat size_after send_ping counted Z.pow to_signed Z.modulo].
  rewrite app_nil_r. unfold counted.
  assert (F : zlen (firstn n p) = Z.min (Z.of_nat n) (zlen p)) by (unfold zlen; rewrite firstn_length; lia).
  rewrite F. assert (0 < zlen p) by (unfold zlen; destruct p; [congruence|cbn; lia]).
  destruct (zlen p <=? Z.of_nat n) eqn:E.
  - replace (Z.min (Z.of_nat n) (zlen p) - zlen p) with 0 by lia. cbn [Z.leb Z.compare finish_done rcb bind fst snd].
    unfold finish_done, log_finish. cbn [rcb bind fst snd queue closed cork poll_w wire accepted finished set_queue set_cork Z.eqb andb negb Z.ltb Z.leb Z.compare set_poll].
    replace (Z.min (Z.of_nat n) (zlen p) <? 0) with false by lia. unfold size_after. cbn [queue find send_ping].
    eexists. eexists. split; [reflexivity|]. split; reflexivity.
  - replace (0 <=? Z.min (Z.of_nat n) (zlen p) - zlen p) with false by lia.
    cbn [bind fst snd]. cbn [set_poll set_queue set_cork queue closed cork poll_w wire accepted finished rid rcb].
    replace (Z.min (Z.of_nat n) (zlen p) - zlen p =? 0) with false by lia. cbn [andb].
    replace (0 <? Z.min (Z.of_nat n) (zlen p) - zlen p) with false by lia. cbn [bind fst snd].
    replace (Z.min (Z.of_nat n) (zlen p) <? 0) with false by lia. unfold size_after. unfold set_cork, set_poll, set_queue. cbn [queue find rid rpay]. rewrite Nat.eqb_refl.
    cbn [rpay]. replace (zlen (skipn _ p)) with (zlen p - Z.of_nat n).
    + cbn [send_ping]. eexists. eexists. split; [reflexivity|]. split; reflexivity.
    + unfold zlen in *. rewrite skipn_length. lia.
Qed.
Print Assumptions C129_ping_counts_what_is_left.

Example C129_half_case : idle tcp0 /\
  match frame_and_ping [1; 2; 3; 4; 5] None 0 (Sent 3) 1000 tcp0 (pace_new 0) with
  | Ok (pl, s, pc) => pl = Some (1000, 2) /\ wire s = [1; 2; 3] /\ p_inflight pc = 2
  | Fault _ => False
  end.
Proof. split; [repeat split|]. now vm_compute. Qed.

(** So the claim holds of frames that go out in one piece, *)
Theorem C129_ping_carries_size_partial : forall p t n now s pc, idle s -> p <> [] -> zlen p < 2 ^ 32 -> zlen p <= Z.of_nat n ->
  exists s' pc', frame_and_ping p None t (Sent n) now s pc = Ok (Some (now mod 2 ^ 32, zlen p), s', pc').
Proof.
  intros p t n now s pc I P L N. destruct (C129_ping_counts_what_is_left p t n now s pc I P L) as (s' & pc' & E & _).
  exists s', pc'. rewrite E. unfold counted. replace (zlen p <=? Z.of_nat n) with true by lia. reflexivity.
Qed.
Print Assumptions C129_ping_carries_size_partial.

Example C129_whole_case :
  match frame_and_ping [1; 2; 3; 4; 5] None 0 (Sent 5) 1000 tcp0 (pace_new 0) with
  | Ok (pl, s, pc) => pl = Some (1000, 5) /\ p_inflight pc = 5
  | Fault _ => False
  end.
Proof. now vm_compute. Qed.

(** and of no others: a frame of any size above one may count as a single byte. *)
Theorem C129_frame_counts_as_one_byte : forall p, (1 < length p)%nat -> zlen p < 2 ^ 32 ->
  exists t o now s' pc', frame_and_ping p None t o now tcp0 (pace_new 0) = Ok (Some (now, 1), s', pc') /\ p_inflight pc' = 1.
Proof.
  intros p P L. destruct (C129_ping_counts_what_is_left p 0 (length p - 1) 0 tcp0 (pace_new 0)) as (s' & pc' & E & W & F); auto.
  - repeat split.
  - intros ->. cbn in P. lia.
  - exists 0%nat, (Sent (length p - 1)), 0, s', pc'. unfold counted in *. unfold zlen in *.
    replace (Z.of_nat (length p) <=? Z.of_nat (length p - 1)) with false in * by lia.
    replace (Z.of_nat (length p) - Z.of_nat (length p - 1)) with 1 in * by lia. split; [exact E|]. rewrite F. reflexivity.
Qed.
Print Assumptions C129_frame_counts_as_one_byte.

Theorem C129_ping_carries_size_refuted : exists p t o now s' pc', zlen p = 1000 /\
  frame_and_ping p None t o now tcp0 (pace_new 0) = Ok (Some (now, 1), s', pc') /\ p_inflight pc' = 1.
Proof.
  exists (repeat 7 1000). destruct (C129_frame_counts_as_one_byte (repeat 7 1000)) as (t & o & now & s' & pc' & E & F).
  - rewrite repeat_length. lia.
  - unfold zlen. rewrite repeat_length. lia.
  - exists t, o, now, s', pc'. split; [unfold zlen; now rewrite repeat_length|]. auto.
Qed.
Print Assumptions C129_ping_carries_size_refuted.

(** Nothing is sent and nothing counted if the stream does not take the frame: because it
    is closed, or because it turns out to be broken. *)
Theorem C129_no_frame_no_ping : forall p cb t o now s pc,
  closed s = true \/ (idle s /\ (o = Pipe \/ o = Err)) ->
  exists s', frame_and_ping p cb t o now s pc = Ok (None, s', pc) /\ wire s' = wire s.
Proof.
  intros p cb t o now s pc [C|[(Q & C & K) O0]]; unfold frame_and_ping, send.
  - rewrite C. cbn. eauto.
  - destruct s as [q cl ck pw wi ac fi]. cbn [queue closed cork] in *. subst q cl ck.
    unfold flush, enqueue.
    assert (M : exists m, IOV_MAX = S (S m)) by (do 2 eexists; reflexivity). destruct M as [m ->].
    destruct O0 as [-> | ->]; cbn; eauto.
Qed.
Print Assumptions C129_no_frame_no_ping.

Example C129_pipe_case : idle tcp0 /\
  match frame_and_ping [1; 2; 3] None 0 Pipe 1000 tcp0 (pace_new 0) with
  | Ok (pl, s, pc) => pl = None /\ closed s = true /\ p_inflight pc = 0
  | Fault _ => False
  end.
Proof. split; [repeat split|]. now vm_compute. Qed.
