From Verif Require Import Common RsaAes_Model RsaAes_Spec RsaAes_Proofs.

(** C14: whatever is sent in however many calls, the byte stream is a sequence
    of well-formed messages of 1..8192 bytes that decode to the payloads
    concatenated, and no other complete decoding exists. *)
Theorem C14_send_round_trip : forall seal unseal mac, cipher_ok seal unseal mac ->
  forall payloads, exists c bytes,
    send_all seal mac payloads counter0 = Ok (c, bytes) /\
    (exists ms, decodes unseal mac 0 bytes ms [] /\ concat ms = concat payloads /\
                Forall (fun m => 0 < zlen m <= 8192) ms) /\
    (forall ms, decodes unseal mac 0 bytes ms [] -> concat ms = concat payloads).
Proof.
  intros seal unseal mac Hc payloads.
  destruct (send_all_wire seal unseal mac payloads 0) as [ms [E [C F]]]; [lia|].
  assert (D : decodes unseal mac 0 (wire seal mac 0 ms) ms []).
  { rewrite <- (app_nil_r (wire seal mac 0 ms)). apply decodes_wire; [exact Hc|].
    eapply Forall_impl; [|exact F]. intros a H. unfold BUFSIZE in H. cbn beta in *. lia. }
  eexists _, _. split; [exact E|]. split.
  - exists ms. auto.
  - intros qs Q. rewrite <- C. f_equal.
    destruct Hc as [_ [_ Hm]]. eapply decodes_unique; eauto.
Qed.
Print Assumptions C14_send_round_trip.

(** C14, other direction: whatever bytes arrive, cut anyhow, reading never goes
    out of bounds, and what is handed on is the text of the leading authentic
    messages, in order: nothing forged, skipped, reordered or repeated. *)
Theorem C14_receive_authentic : forall unseal mac size segs, Forall all_bytes segs ->
  exists s d ok ms rest, receive unseal mac rstate0 size segs = Ok (s, d, ok) /\
    d = concat ms /\ decodes unseal mac 0 (concat segs) ms rest.
Proof.
  intros unseal mac size segs Hs.
  destruct (receive_auth (fun _ _ m => m) unseal mac segs rstate0 size [] []) as [s [d [ok [E H]]]];
    [constructor|exact Hs|apply inv0|].
  exists s, d, ok. destruct ok; cbn [app] in H.
  - destruct H as [ms [Ed [D _]]]. exists ms, (rbuf s). auto.
  - destruct H as [ms [rest [Ed D]]]. exists ms, rest. auto.
Qed.
Print Assumptions C14_receive_authentic.

(** C15: the nonces of any two messages among the first 2^128 in one direction
    differ, and the counter goes on as the message number. *)
Fixpoint nth_counter (n : nat) : counter :=
  match n with O => counter0 | S n => snd (update_nonce (nth_counter n)) end.

Lemma nth_counter_of : forall n, nth_counter n = counter_of (Z.of_nat n).
Proof.
  induction n; [reflexivity|]. cbn [nth_counter]. rewrite IHn, update_nonce_of by lia.
  cbn [snd]. f_equal. lia.
Qed.

Theorem C15_nonces_distinct : forall i j,
  Z.of_nat i < 2 ^ 128 -> Z.of_nat j < 2 ^ 128 -> i <> j ->
  fst (update_nonce (nth_counter i)) <> fst (update_nonce (nth_counter j)).
Proof.
  intros i j Hi Hj N E. apply N. rewrite !nth_counter_of, !update_nonce_of in E by lia.
  apply Nat2Z.inj. apply nonce_inj; [lia|lia|exact E].
Qed.
Print Assumptions C15_nonces_distinct.

Example C15_nonces_distinct_ex : Z.of_nat 3 < 2 ^ 128 /\ 3%nat <> 700%nat /\
  fst (update_nonce (nth_counter 3)) = [3;0;0;0;0;0;0;0;0;0;0;0;0;0;0;0] /\
  fst (update_nonce (nth_counter 700)) = [188;2;0;0;0;0;0;0;0;0;0;0;0;0;0;0] /\
  (* the carry *)
  update_nonce (2 ^ 64 - 1, 7) = ([255;255;255;255;255;255;255;255;7;0;0;0;0;0;0;0], (0, 8)).
Proof. repeat split; vm_compute; congruence. Qed.

(** A toy cipher meeting [cipher_ok], for the examples. *)
Definition toy_seal (n ad m : list Z) : list Z := map (fun b => Z.lxor b (hd 0 n + 5)) m.
Definition toy_mac (n ad m : list Z) : list Z :=
  repeat (fold_left Z.add (n ++ ad ++ m) 0 mod 256) 16.

Lemma toy_ok : cipher_ok toy_seal toy_seal toy_mac.
Proof.
  split; [|split].
  - intros. unfold toy_seal, zlen. rewrite map_length. reflexivity.
  - intros. unfold toy_seal. rewrite map_map. rewrite <- (map_id m) at 2. apply map_ext.
    intros b. rewrite Z.lxor_assoc, Z.lxor_nilpotent, Z.lxor_0_r. reflexivity.
  - intros. unfold toy_mac, zlen. rewrite repeat_length. reflexivity.
Qed.

Example C14_send_round_trip_ex : exists c bytes,
  send_all toy_seal toy_mac [repeat 9 (Z.to_nat 8200); []; [1;2;3]] counter0 = Ok (c, bytes) /\
  zlen bytes = 8203 + 3 * 18 /\ firstn 4 bytes = [32; 0; 12; 12] /\
  firstn 4 (skipn (Z.to_nat 8210) bytes) = [0; 8; 15; 15] /\ c = (3, 0).
Proof. eexists _, _. split; [vm_compute; reflexivity|]. repeat split; vm_compute; reflexivity. Qed.

Example C14_receive_authentic_ex :
  (* two messages cut in the middle; then a bit flipped in the second *)
  let w := wire toy_seal toy_mac 0 [[65;66]; [67]] in
  Forall all_bytes [firstn 7 w; skipn 7 w] /\
  (exists s, receive toy_seal toy_mac rstate0 100 [firstn 7 w; skipn 7 w] = Ok (s, [65;66;67], true)) /\
  (exists s, receive toy_seal toy_mac rstate0 100 [firstn 20 w; [0; 1; 99] ++ skipn 23 w]
             = Ok (s, [65;66], false)).
Proof.
  cbv zeta. split; [|split].
  - repeat (constructor; [vm_compute; repeat (constructor; [split; congruence|]); constructor|]).
    constructor.
  - eexists. vm_compute. reflexivity.
  - eexists. vm_compute. reflexivity.
Qed.

(** C16 is false.  A message longer than 8174 bytes, which the length field
    allows up to 65535 and this server itself sends, never comes through: for
    any splitting nothing is delivered, and once all has arrived the stream has
    been closed. *)
Theorem C16_long_message_never_delivered : forall seal unseal mac, cipher_ok seal unseal mac ->
  forall m size segs, 8174 < zlen m < 2 ^ 16 -> concat segs = frame seal mac 0 m ->
  exists s, receive unseal mac rstate0 size segs = Ok (s, [], false).
Proof.
  intros seal unseal mac Hc m size segs Hm Hw.
  destruct (receive_stuck seal unseal mac m segs rstate0 size []) as [s [ok [E H]]].
  - unfold BUFSIZE. lia.
  - lia.
  - reflexivity.
  - cbn [rbuf rstate0]. rewrite app_nil_l, app_nil_r. exact Hw.
  - cbn. unfold BUFSIZE. lia.
  - exists s. rewrite E. destruct ok; [|reflexivity]. specialize (H eq_refl).
    cbn [rbuf rstate0] in H. rewrite app_nil_l, Hw, (frame_len seal unseal mac Hc) in H.
    unfold BUFSIZE in H. lia.
Qed.
Print Assumptions C16_long_message_never_delivered.

Theorem C16_progress_refuted : exists seal unseal mac m segs, cipher_ok seal unseal mac /\
  0 < zlen m < 2 ^ 16 /\ concat segs = wire seal mac 0 [m] /\
  exists s, receive unseal mac rstate0 (2 ^ 32) segs = Ok (s, [], false).
Proof.
  exists toy_seal, toy_seal, toy_mac, (repeat 1 (Z.to_nat 8192)), [wire toy_seal toy_mac 0 [repeat 1 (Z.to_nat 8192)]].
  split; [exact toy_ok|]. split; [vm_compute; split; congruence|].
  split; [apply app_nil_r|]. eapply C16_long_message_never_delivered.
  - exact toy_ok.
  - instantiate (1 := repeat 1 (Z.to_nat 8192)). vm_compute. split; congruence.
  - cbn [concat wire]. rewrite !app_nil_r. reflexivity.
Qed.
Print Assumptions C16_progress_refuted.

(** With the 4096 bytes the server reads at a time, two complete messages that
    arrive together: the second stays behind. *)
Theorem C16_backlog_refuted : exists seal unseal mac a b segs s, cipher_ok seal unseal mac /\
  zlen a = 3000 /\ zlen b = 3000 /\ concat segs = wire seal mac 0 [a; b] /\
  receive unseal mac rstate0 4096 segs = Ok (s, a, true).
Proof.
  exists toy_seal, toy_seal, toy_mac, (repeat 1 (Z.to_nat 3000)), (repeat 2 (Z.to_nat 3000)),
    [wire toy_seal toy_mac 0 [repeat 1 (Z.to_nat 3000); repeat 2 (Z.to_nat 3000)]].
  eexists. split; [exact toy_ok|]. split; [reflexivity|]. split; [reflexivity|].
  split; [apply app_nil_r|]. vm_compute. reflexivity.
Qed.
Print Assumptions C16_backlog_refuted.

(** An empty message ends the read as if nothing more had arrived. *)
Theorem C16_empty_message_refuted : exists seal unseal mac segs s, cipher_ok seal unseal mac /\
  concat segs = wire seal mac 0 [[]; [1; 2; 3]] /\
  receive unseal mac rstate0 4096 segs = Ok (s, [], true).
Proof.
  exists toy_seal, toy_seal, toy_mac, [wire toy_seal toy_mac 0 [[]; [1;2;3]]].
  eexists. split; [exact toy_ok|]. split; [apply app_nil_r|]. vm_compute. reflexivity.
Qed.
Print Assumptions C16_empty_message_refuted.

(** What holds: messages of 1..8174 bytes, read with room for 8174, are all
    delivered, in order, as soon as their last byte is there, however the
    stream is cut.  Missing from the full claim: lengths 0 and above 8174,
    smaller destination buffers. *)
Theorem C16_progress_partial : forall seal unseal mac, cipher_ok seal unseal mac ->
  forall size ms segs future, Forall (fun m => 0 < zlen m <= 8174) ms -> 8174 <= size ->
  concat segs ++ future = wire seal mac 0 ms ->
  exists s dn todo, receive unseal mac rstate0 size segs = Ok (s, concat dn, true) /\
    ms = dn ++ todo /\
    match todo with
    | [] => future = []
    | m :: _ => zlen (concat segs) < zlen (wire seal mac 0 (dn ++ [m]))
    end.
Proof.
  intros seal unseal mac Hc size ms segs future Hm Hs Hw.
  eapply receive_messages; eauto.
Qed.
Print Assumptions C16_progress_partial.

(** For any destination size: a complete message at the front of the buffer that
    fits is delivered by the next read (unless a later message in the same read
    is forged), even if nothing more arrives. *)
Theorem C16_front_message_partial : forall seal unseal mac, cipher_ok seal unseal mac ->
  forall s size k m rest, 0 <= k -> rcnt s = counter_of k -> rclosed s = false ->
  all_bytes (rbuf s) -> rbuf s = frame seal mac k m ++ rest ->
  0 < zlen m < 2 ^ 16 -> zlen m <= size -> zlen (rbuf s) < 8192 ->
  exists s' r, read unseal mac s size [] = Ok (s', r, []) /\
    match r with RGot d => exists d', d = m ++ d' | RErr => True end.
Proof. intros. eapply read_front; eauto; lia. Qed.
Print Assumptions C16_front_message_partial.

Example C16_progress_partial_ex :
  let w := wire toy_seal toy_mac 0 [[65;66]; [67]; [68; 69; 70]] in
  Forall (fun m => 0 < zlen m <= 8174) [[65;66]; [67]; [68; 69; 70]] /\
  exists s, receive toy_seal toy_mac rstate0 8174 [firstn 19 w; firstn 20 (skipn 19 w); firstn 5 (skipn 39 w)]
            = Ok (s, [65;66;67], true).
Proof.
  cbv zeta. split.
  - repeat (constructor; [vm_compute; split; congruence|]). constructor.
  - eexists. vm_compute. reflexivity.
Qed.

Example C16_front_message_partial_ex :
  let s := mk_r (frame toy_seal toy_mac 5 [1;2;3] ++ [0]) (counter_of 5) false in
  rcnt s = counter_of 5 /\ exists s', read toy_seal toy_mac s 3 [] = Ok (s', RGot [1;2;3], []).
Proof. cbv zeta. split; [reflexivity|]. eexists. vm_compute. reflexivity. Qed.
