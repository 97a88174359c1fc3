(** C157: what a viewer gets does not depend on the kind of stream. *)
From Verif Require Import Common CommonProofs Pixels_Model Pixels_Props Zrle_Model Zrle_Spec Zrle_Props Raw_Model Raw_Spec
  Tight_Model Tight_Spec Transform_Model Transform_Spec Refinery_Model Refinery_Spec Refinery_Props Turn_Model Turn_Spec Turn_Proofs Turn_Props
  Msg_Model Msg_Spec Msg_Proofs Upd_Spec Upd_Props Mirror_Spec Mirror_Proofs Mirror_Props Wire_Spec Eye_Spec Eye2_Spec Eye3_Spec
  Eye_Props Eye2_Props Eye3_Props Feed_Model Feed_Spec Feed_Proofs Feed_Props.
From Verif Require Tcp_Model WsStream_Model WsStream_Spec RsaAes_Model RsaAes_Spec RsaAes_Props Gnutls_Model Tight_Props.
From Verif Require Import Net_Spec Net_Proofs.

(** C12, C57, C14 and C98 as one statement.  Whichever stream carries the messages, and
    however the network takes them apart, once all is sent the viewer has got the messages,
    one after the other, and nothing else. *)
Theorem C157_all_streams_carry_the_same :
  forall seal unseal mac ms got, carried seal unseal mac ms got -> got = concat ms.
Proof. exact carried_whole. Qed.
Print Assumptions C157_all_streams_carry_the_same.

(** And each of the four can: [carried] has no empty cases.  The WebSocket case is for
    messages of up to 2^64 bytes, from any state of an open stream. *)
Theorem C157_every_stream_can_carry :
  forall seal unseal mac, RsaAes_Spec.cipher_ok seal unseal mac -> forall ms, Forall (fun m => zlen m < 2 ^ 64) ms ->
  over_tcp ms (concat ms) /\ over_tls ms (concat ms) /\
  (forall st, WsStream_Model.closed st = false -> WsStream_Model.sent st = [] ->
     exists st' w fs, ws_sends st ms = Ok st' /\ over_tcp (WsStream_Model.sent st') w /\ unframes w fs) /\
  (forall k, exists c bytes texts,
     RsaAes_Model.send_all seal mac ms (Nat.iter k (fun c => snd (RsaAes_Model.update_nonce c)) RsaAes_Model.counter0) = Ok (c, bytes) /\
     over_tcp [bytes] bytes /\ RsaAes_Spec.decodes unseal mac (Z.of_nat k) bytes texts []).
Proof.
  intros seal unseal mac H ms L. split; [apply tcp_carry|]. split; [apply tls_carry|]. split.
  - intros st. exact (ws_carry ms st L).
  - exact (rsa_carry seal unseal mac H ms).
Qed.
Print Assumptions C157_every_stream_can_carry.

(** So the viewer of C155 may read from any of them. *)
Theorem C157_fed_is_seen_through_any_stream :
  forall zstate istate deflate inflate synced, zlib_works zstate istate deflate inflate synced ->
  forall xxh rects_of pool before n r outs P hs src f fs, keeps_points rects_of ->
    feeds xxh rects_of (map fr_fed before) = Ok (r, outs) -> shows before P ->
    well_fed xxh src (all_fed before hs) -> all_fed before hs = f :: fs ->
  exists l, staged xxh rects_of pool r n P hs = Ok l /\
  forall E fuel p d seq e st e' c v x y,
    synced (fst e) st -> well_formed (snd e) -> streams_synced synced (snd e) [st; st; st; st] ->
    cursors (fun _ => viewer_of p) E -> cursor_shapes E ->
    watch _ (touched p) E fuel l (ready p d seq) (nothing_yet _) = Ok (c, v) ->
    orderly _ (touched p) E fuel l (ready p d seq) (nothing_yet _) = true ->
    made_run (touched p) (zstate * tenc zstate) (any_frame zstate deflate p src) E fuel l (ready p d seq) (nothing_yet _) e e' ->
    one_byte_leds (log c) -> holds x y d -> Forall (fun z => input_holds x y (fst z)) l -> Turn_Spec.inside f x y ->
    (forall h, e_more E h = None) \/ count is_fence (log c) = 0 ->
    none_lost (log c) -> ~ Upd_Spec.covers (damage c) x y -> coming _ v = None ->
    forall seal unseal mac got, carried seal unseal mac (Wire_Spec.sent (log c)) got ->
    exists ms, splits (fun _ => viewer_of p) [] got ms /\
      (on_screen istate inflate p st ms x y = None \/
       exists q s, on_screen istate inflate p st ms x y = Some q /\ pixfmt_from_fourcc (fr_format f) = Some s /\
         pixel_form p s (snd (Turn_Spec.pixel f x y)) q).
Proof.
  intros zstate istate deflate inflate synced ZW xxh rects_of pool before n r outs P hs src f fs K F S W A.
  destruct (C155_viewer_sees_what_is_fed zstate istate deflate inflate synced ZW xxh rects_of pool before n r outs P hs src f fs K F S W A) as (l & L & G).
  exists l. split; [exact L|]. intros E fuel p d seq e st e' c v x y S1 S2 S3 C1 C2 Wa Or Ma One H Hi I Fe NL D Co seal unseal mac got T.
  rewrite (carried_whole _ _ _ _ _ T). exact (G E fuel p d seq e st e' c v x y S1 S2 S3 C1 C2 Wa Or Ma One H Hi I Fe NL D Co).
Qed.
Print Assumptions C157_fed_is_seen_through_any_stream.

Theorem C157_marked_is_seen_through_any_stream :
  forall zstate istate deflate inflate synced, zlib_works zstate istate deflate inflate synced ->
  forall xxh rects_of pool before n r outs P hs0 hs src f fs, keeps_points rects_of ->
    feeds xxh rects_of (map fr_fed before) = Ok (r, outs) -> shows before P ->
    well_fed xxh src (all_fed before (hs0 ++ hs)) -> all_fed before (hs0 ++ hs) = f :: fs ->
  exists l0 l, staged xxh rects_of pool r n P (hs0 ++ hs) = Ok (l0 ++ l) /\ length l0 = length hs0 /\
  forall E fuel p d seq e st e1 e2 c0 v0 c v x y,
    synced (fst e) st -> well_formed (snd e) -> streams_synced synced (snd e) [st; st; st; st] ->
    cursors (fun _ => viewer_of p) E -> cursor_shapes E ->
    watch _ (touched p) E fuel l0 (ready p d seq) (nothing_yet _) = Ok (c0, v0) ->
    orderly _ (touched p) E fuel l0 (ready p d seq) (nothing_yet _) = true ->
    made_run (touched p) (zstate * tenc zstate) (any_frame zstate deflate p src) E fuel l0 (ready p d seq) (nothing_yet _) e e1 ->
    updating c0 = false -> Upd_Spec.covers (damage c0) x y ->
    watch _ (touched p) E fuel l c0 (nothing_yet _) = Ok (c, v) ->
    orderly _ (touched p) E fuel l c0 (nothing_yet _) = true ->
    made_run (touched p) (zstate * tenc zstate) (any_frame zstate deflate p src) E fuel l c0 (nothing_yet _) e1 e2 ->
    one_byte_leds (log c) -> holds x y d -> Forall (fun z => input_holds x y (fst z)) (l0 ++ l) -> Turn_Spec.inside f x y ->
    (forall h, e_more E h = None) \/ count is_fence (log c) = 0 ->
    none_lost (log c) -> ~ Upd_Spec.covers (damage c) x y -> coming _ v = None ->
    forall seal unseal mac got, carried seal unseal mac (Wire_Spec.sent (log c)) got ->
    exists ms q s, splits (fun _ => viewer_of p) [] got ms /\
      on_screen istate inflate p st ms x y = Some q /\ pixfmt_from_fourcc (fr_format f) = Some s /\
      pixel_form p s (snd (Turn_Spec.pixel f x y)) q.
Proof.
  intros zstate istate deflate inflate synced ZW xxh rects_of pool before n r outs P hs0 hs src f fs K F S W A.
  destruct (C155_viewer_sees_what_is_marked zstate istate deflate inflate synced ZW xxh rects_of pool before n r outs P hs0 hs src f fs K F S W A)
    as (l0 & l & L & N & G).
  exists l0, l. split; [exact L|]. split; [exact N|].
  intros E fuel p d seq e st e1 e2 c0 v0 c v x y S1 S2 S3 C1 C2 Wa0 Or0 Ma0 Up Mk Wa Or Ma One H Hi I Fe NL D Co seal unseal mac got T.
  rewrite (carried_whole _ _ _ _ _ T).
  exact (G E fuel p d seq e st e1 e2 c0 v0 c v x y S1 S2 S3 C1 C2 Wa0 Or0 Ma0 Up Mk Wa Or Ma One H Hi I Fe NL D Co).
Qed.
Print Assumptions C157_marked_is_seen_through_any_stream.

(** Cases.  Two messages of which the kernel takes a byte, nothing, two bytes and the rest;
    the same over TLS, and as RSA-AES messages after three others, and in frames. *)
Example C157_ex : let ms := [[1; 2]; [3; 4; 5]] in let got := [1; 2; 3; 4; 5] in
  over_tcp ms got /\ over_tls ms got /\
  (exists st' w fs, ws_sends WsStream_Model.ws_ready0 ms = Ok st' /\ over_tcp (WsStream_Model.sent st') w /\ unframes w fs /\
     w = [130; 2; 1; 2; 130; 3; 3; 4; 5] /\ WsStream_Spec.data (filter is_binary fs) = got) /\
  (exists c bytes texts, RsaAes_Model.send_all RsaAes_Props.toy_seal RsaAes_Props.toy_mac ms
       (Nat.iter 3 (fun c => snd (RsaAes_Model.update_nonce c)) RsaAes_Model.counter0) = Ok (c, bytes) /\
     over_tcp [bytes] bytes /\ RsaAes_Spec.decodes RsaAes_Props.toy_seal RsaAes_Props.toy_mac 3 bytes texts [] /\ zlen bytes = 41 /\ concat texts = got).
Proof.
  cbv zeta. split; [|split; [|split]].
  - exists [Tcp_Model.OSend [1; 2] None 0 (Tcp_Model.Sent 1); Tcp_Model.OSend [3; 4; 5] None 0 Tcp_Model.Again;
            Tcp_Model.OWritable 0 (Tcp_Model.Sent 2); Tcp_Model.OWritable 0 (Tcp_Model.Sent 9)].
    eexists. split; [vm_compute; reflexivity|]. repeat split; reflexivity.
  - exists (Gnutls_Model.HAgain true), [Gnutls_Model.OTurn (Gnutls_Model.mk_turn false true Gnutls_Model.HOk Gnutls_Model.HOk 0 []) [];
      Gnutls_Model.OSend [1; 2] [] [Gnutls_Model.Sent 1]; Gnutls_Model.OSend [3; 4; 5] [] [Gnutls_Model.Again];
      Gnutls_Model.OTurn (Gnutls_Model.mk_turn false true Gnutls_Model.HOk Gnutls_Model.HOk 0 []) [Gnutls_Model.Sent 9; Gnutls_Model.Sent 9]].
    eexists. split; [vm_compute; reflexivity|]. repeat split; reflexivity.
  - assert (L : Forall (fun m => zlen m < 2 ^ 64) [[1; 2]; [3; 4; 5]]) by (repeat constructor).
    destruct (ws_carry [[1; 2]; [3; 4; 5]] WsStream_Model.ws_ready0 L eq_refl eq_refl) as (st' & w & fs & E & T & U).
    exists st', w, fs. split; [exact E|]. split; [exact T|]. split; [exact U|]. split.
    + rewrite (tcp_carries _ _ T). vm_compute in E. apply ok_inj in E. rewrite <- E. reflexivity.
    + exact (ws_carries _ WsStream_Model.ws_ready0 st' w fs eq_refl eq_refl L E T U).
  - destruct (rsa_carry _ _ _ RsaAes_Props.toy_ok [[1; 2]; [3; 4; 5]] 3) as (c & bytes & texts & E & T & D).
    exists c, bytes, texts. split; [exact E|]. split; [exact T|]. split; [exact D|]. split.
    + assert (X : match RsaAes_Model.send_all RsaAes_Props.toy_seal RsaAes_Props.toy_mac [[1; 2]; [3; 4; 5]]
        (Nat.iter 3 (fun c => snd (RsaAes_Model.update_nonce c)) RsaAes_Model.counter0) with Ok (_, b) => zlen b | Fault _ => 0 end = 41)
        by (vm_compute; reflexivity).
      rewrite E in X. exact X.
    + exact (rsa_carries _ _ _ RsaAes_Props.toy_ok _ 3 _ _ _ E D).
Qed.

(** The case of C155: whatever the client was sent arrives through any of them. *)
Example C157_case : exists c v got,
  watch _ (touched rgb565be) no_cursor 3 (told_scene new_seen ++ asked_scene new_seen) start (nothing_yet _) = Ok (c, v) /\
  carried RsaAes_Props.toy_seal RsaAes_Props.toy_seal RsaAes_Props.toy_mac (Wire_Spec.sent (log c)) got /\
  splits (fun _ => viewer_of rgb565be) [] got fed_wire /\
  on_screen unit id_i rgb565be tt fed_wire 2 1 = Some [112; 231].
Proof.
  destruct (fed_runs new_seen new_is_seven) as (c & v & R & _ & _ & _ & _ & _ & S). exists c, v, (traffic (log c)).
  split; [exact R|]. split; [apply by_tls, tls_carry|]. split; [exact S|]. vm_compute. reflexivity.
Qed.
