(** Lemmas for Net_Props. *)
From Verif Require Import Common CommonProofs Net_Spec.
From Verif Require Tcp_Model Tcp_Props Ws_Model Ws_Spec Ws_Props WsStream_Model WsStream_Spec WsStream_Proofs
  RsaAes_Model RsaAes_Spec RsaAes_Proofs Gnutls_Model Gnutls_Spec Gnutls_Props.

Lemma tcp_carries : forall ms w, over_tcp ms w -> w = concat ms.
Proof. intros ms w (ops & s & R & A & C & Q & ->). exact (Tcp_Props.C12_drained ops s ms R C Q A). Qed.

Lemma tls_carries : forall ms w, over_tls ms w -> w = concat ms.
Proof.
  intros ms w (h & ops & s & R & A & C & Q & ->).
  destruct (Gnutls_Props.C98_tls_in_order_once [] h ops s R) as (k & (part & W & P) & K & L & _).
  specialize (L C). rewrite Q in L. cbn in L. rewrite A in *. rewrite W.
  assert (k = length ms) by lia. subst k. rewrite firstn_all.
  destruct P as [->|(p & N & _)]; [apply app_nil_r|].
  assert (nth_error ms (length ms) = None) by (apply nth_error_None; lia). congruence.
Qed.

Lemma nth_counter_of : forall n,
  Nat.iter n (fun c => snd (RsaAes_Model.update_nonce c)) RsaAes_Model.counter0 = RsaAes_Proofs.counter_of (Z.of_nat n).
Proof.
  induction n; [reflexivity|]. cbn [Nat.iter nat_rect]. unfold Nat.iter in IHn. rewrite IHn, RsaAes_Proofs.update_nonce_of by lia.
  cbn [snd]. f_equal. lia.
Qed.

Lemma rsa_carries : forall seal unseal mac, RsaAes_Spec.cipher_ok seal unseal mac -> forall ms k c bytes texts,
  RsaAes_Model.send_all seal mac ms (Nat.iter k (fun c => snd (RsaAes_Model.update_nonce c)) RsaAes_Model.counter0) = Ok (c, bytes) ->
  RsaAes_Spec.decodes unseal mac (Z.of_nat k) bytes texts [] -> concat texts = concat ms.
Proof.
  intros seal unseal mac H ms k c bytes texts E D. rewrite nth_counter_of in E.
  destruct (RsaAes_Proofs.send_all_wire seal unseal mac ms (Z.of_nat k)) as (chunks & E' & C & F); [lia|].
  rewrite E' in E. injection E as _ E. subst bytes.
  assert (B : Forall (fun m => zlen m < 2 ^ 16) chunks).
  { eapply Forall_impl; [|exact F]. cbn beta. intros a L. change RsaAes_Model.BUFSIZE with 8192 in L. lia. }
  pose proof (RsaAes_Proofs.decodes_wire seal unseal mac H chunks (Z.of_nat k) B []) as W. rewrite app_nil_r in W.
  destruct H as (_ & _ & M).
  rewrite (RsaAes_Proofs.decodes_unique seal unseal mac M _ _ _ _ W eq_refl texts D). exact C.
Qed.

Import Ws_Spec WsStream_Spec.

Lemma app_inj_length {A} : forall a b c d : list A, length a = length c -> a ++ b = c ++ d -> a = c /\ b = d.
Proof.
  induction a; intros b [|y c] d L E; try discriminate; [auto|]. cbn in E, L. injection E as -> E.
  apply IHa in E as [-> ->]; [auto|lia].
Qed.

Lemma frame_split : forall f g r r', valid_frame f -> valid_frame g -> h_key (f_head f) = None -> h_key (f_head g) = None ->
  frame_bytes f ++ r = frame_bytes g ++ r' -> h_opcode (f_head f) = h_opcode (f_head g) /\ f_data f = f_data g /\ r = r'.
Proof.
  intros f g r r' [V L] [V' L'] K K' E. unfold frame_bytes, body in E. rewrite K, K', <- !app_assoc in E.
  destruct (Ws_Props.C05_parser_accepts_complete Ws_Model.hdr0 _ (f_data f ++ r) V) as (h1 & P & _ & O1 & _ & N1 & _ & H1).
  destruct (Ws_Props.C05_parser_accepts_complete Ws_Model.hdr0 _ (f_data g ++ r') V') as (h2 & P' & _ & O2 & _ & N2 & _ & H2).
  rewrite E, P' in P. injection P as <-.
  split; [congruence|]. unfold zlen in *.
  assert (A : length (header_bytes (f_head f)) = length (header_bytes (f_head g))) by lia.
  assert (B : length (f_data f) = length (f_data g)) by lia.
  apply app_inj_length in E as [_ E]; [|exact A]. apply app_inj_length in E; [exact E|exact B].
Qed.

Lemma bytes_cons : forall f, frame_bytes f <> [].
Proof. intros f. unfold frame_bytes, header_bytes. discriminate. Qed.

Lemma frames_unique : forall gs fs w, unframes w fs -> unframes w gs -> map f_data fs = map f_data gs /\
  map (fun f => h_opcode (f_head f)) fs = map (fun f => h_opcode (f_head f)) gs.
Proof.
  induction gs as [|g gs IH]; intros [|f fs] w (V & K & W) (V' & K' & W'); subst w; unfold wire in W'; cbn [map concat] in W'.
  - split; reflexivity.
  - exfalso. symmetry in W'. apply app_eq_nil in W' as [W' _]. exact (bytes_cons _ W').
  - exfalso. apply app_eq_nil in W' as [W' _]. exact (bytes_cons _ W').
  - symmetry in W'. cbn [map].
    apply frame_split in W' as (O1 & D1 & R); [|inversion V; assumption|inversion V'; assumption|inversion K; assumption|inversion K'; assumption].
    destruct (IH fs (wire fs)) as [A B].
    + split; [inversion V; assumption|]. split; [inversion K; assumption|reflexivity].
    + split; [inversion V'; assumption|]. split; [inversion K'; assumption|symmetry; exact R].
    + rewrite O1, D1, A, B. split; reflexivity.
Qed.

Definition framed (m : list Z) : frame := Frame (FH true 0 2 None (minimal_form (zlen m)) (zlen m)) m.

Lemma framed_valid : forall m, zlen m < 2 ^ 64 -> valid_frame (framed m).
Proof.
  intros m H. pose proof (WsStream_Proofs.zlen_nonneg m). split; [|reflexivity]. unfold valid_header, framed. cbn [f_head h_rsv h_opcode h_form h_len h_key].
  split; [lia|]. split; [lia|]. split; [|exact Logic.I]. unfold minimal_form, fits.
  destruct (zlen m <=? 125) eqn:A; [lia|]. destruct (zlen m <? 2 ^ 16) eqn:B; lia.
Qed.

Lemma ws_sends_frames : forall ms st st', WsStream_Model.closed st = false -> Forall (fun m => zlen m < 2 ^ 64) ms ->
  ws_sends st ms = Ok st' -> concat (WsStream_Model.sent st') = concat (WsStream_Model.sent st) ++ wire (map framed ms).
Proof.
  induction ms as [|m ms IH]; intros st st' C L E; cbn [ws_sends] in E.
  - injection E as <-. unfold wire. cbn. symmetry. apply app_nil_r.
  - pose proof (Forall_inv L) as Lm. apply Forall_inv_tail in L.
    rewrite (WsStream_Proofs.ws_send_frames st m C Lm) in E. cbn [bind] in E.
    apply IH in E; [|exact C|exact L]. rewrite E. unfold WsStream_Model.tcp_send. cbn [WsStream_Model.sent WsStream_Model.closed]. rewrite C.
    rewrite !concat_app. cbn [concat]. rewrite !app_nil_r. unfold wire. cbn [map concat]. unfold frame_bytes, body, framed at 1. cbn [f_head f_data h_key].
    rewrite <- !app_assoc. reflexivity.
Qed.

Lemma binary_data : forall ms fs, map f_data fs = ms -> map (fun f => h_opcode (f_head f)) fs = map (fun _ => 2) ms ->
  data (filter is_binary fs) = concat ms.
Proof.
  intros ms fs <-. induction fs as [|f fs IH]; intros E; [reflexivity|]. cbn [map] in E. injection E as O1 E.
  cbn [filter]. unfold is_binary at 1. rewrite O1. cbn [Z.eqb orb]. unfold data. cbn. f_equal. exact (IH E).
Qed.

Lemma ws_carries : forall ms st st' w fs, WsStream_Model.closed st = false -> WsStream_Model.sent st = [] -> Forall (fun m => zlen m < 2 ^ 64) ms ->
  ws_sends st ms = Ok st' -> over_tcp (WsStream_Model.sent st') w -> unframes w fs -> data (filter is_binary fs) = concat ms.
Proof.
  intros ms st st' w fs C S0 L E T U. apply tcp_carries in T. subst w. apply ws_sends_frames in E; [|exact C|exact L].
  rewrite S0 in E. cbn in E. rewrite E in U.
  destruct (frames_unique (map framed ms) fs (wire (map framed ms)) U) as [A B].
  - split; [|split; [|reflexivity]].
    + apply Forall_forall. intros f I. apply in_map_iff in I as (m & <- & I). apply framed_valid.
      rewrite Forall_forall in L. apply L, I.
    + apply Forall_forall. intros f I. apply in_map_iff in I as (m & <- & I). reflexivity.
  - rewrite map_map in A, B. cbn in A, B. rewrite map_id in A. exact (binary_data ms fs A B).
Qed.

Lemma carried_whole : forall seal unseal mac ms got, carried seal unseal mac ms got -> got = concat ms.
Proof.
  intros seal unseal mac ms got [w T|st st' w fs C S0 L E T U|k c bytes ps w texts H E P T D|w T].
  - exact (tcp_carries _ _ T).
  - exact (ws_carries ms st st' w fs C S0 L E T U).
  - apply tcp_carries in T. subst w. rewrite P in D. exact (rsa_carries seal unseal mac H ms k c bytes texts E D).
  - exact (tls_carries _ _ T).
Qed.

(** Each stream can carry anything: a network that takes all at once. *)
Lemma tcp_step : forall m s, Tcp_Model.closed s = false -> Tcp_Model.cork s = false -> Tcp_Model.queue s = [] ->
  exists s', Tcp_Model.step (Tcp_Model.OSend m None 0 (Tcp_Model.Sent (length m))) s = Ok s' /\
    Tcp_Model.closed s' = false /\ Tcp_Model.cork s' = false /\ Tcp_Model.queue s' = [] /\
    Tcp_Model.accepted s' = Tcp_Model.accepted s ++ [Tcp_Model.Fixed m].
Proof.
  intros m [q cl co pw wi ac fi] C K Q. cbn in C, K, Q. subst. eexists.
  unfold Tcp_Model.step, Tcp_Model.send, Tcp_Model.flush, Tcp_Model.enqueue. cbn [Tcp_Model.closed Tcp_Model.cork Tcp_Model.queue app].
  unfold Tcp_Model.set_queue. cbn [Tcp_Model.prepare Tcp_Model.IOV_MAX Tcp_Model.queue Tcp_Model.closed Tcp_Model.cork Tcp_Model.poll_w Tcp_Model.wire Tcp_Model.accepted Tcp_Model.finished].
  change Tcp_Model.IOV_MAX with (S 1023). cbn [Tcp_Model.prepare Tcp_Model.rexec firstn Tcp_Model.gather Tcp_Model.rpay bind].
  rewrite app_nil_r, firstn_all.
  cbn [length Tcp_Model.walk Tcp_Model.queue Tcp_Model.rpay]. rewrite Z.sub_diag. cbn. repeat split; reflexivity.
Qed.
Lemma tcp_can : forall ms s, Tcp_Model.closed s = false -> Tcp_Model.cork s = false -> Tcp_Model.queue s = [] ->
  exists ops s', Tcp_Model.run ops s = Ok s' /\ Tcp_Model.closed s' = false /\ Tcp_Model.queue s' = [] /\
    Tcp_Model.accepted s' = Tcp_Model.accepted s ++ map Tcp_Model.Fixed ms.
Proof.
  induction ms as [|m ms IH]; intros s C K Q.
  - exists [], s. rewrite app_nil_r. auto.
  - destruct (tcp_step m s C K Q) as (s1 & E & C1 & K1 & Q1 & A1). destruct (IH s1 C1 K1 Q1) as (ops & s2 & R & C2 & Q2 & A2).
    eexists (_ :: ops), s2. cbn [Tcp_Model.run]. rewrite E. cbn [bind]. split; [exact R|]. split; [exact C2|]. split; [exact Q2|].
    rewrite A2, A1, <- app_assoc. reflexivity.
Qed.
Lemma tcp_carry : forall ms, over_tcp ms (concat ms).
Proof.
  intros ms. destruct (tcp_can ms Tcp_Model.tcp0 eq_refl eq_refl eq_refl) as (ops & s & R & C & Q & A).
  exists ops, s. repeat (split; [assumption|]). symmetry. exact (Tcp_Props.C12_drained ops s ms R C Q A).
Qed.

Lemma tls_step : forall m s, Gnutls_Model.freed s = false -> Gnutls_Model.closed (Gnutls_Model.snd_half s) = false ->
  Gnutls_Model.queue (Gnutls_Model.snd_half s) = [] ->
  exists s', Gnutls_Model.step (Gnutls_Model.OSend m [] [Gnutls_Model.Sent (length m)]) s = Ok s' /\
    Gnutls_Model.freed s' = false /\ Gnutls_Model.closed (Gnutls_Model.snd_half s') = false /\ Gnutls_Model.queue (Gnutls_Model.snd_half s') = [] /\
    Gnutls_Model.accepted (Gnutls_Model.snd_half s') = Gnutls_Model.accepted (Gnutls_Model.snd_half s) ++ [m].
Proof.
  intros m [[cl q sc r w wa wi ac fi] ph i p g t fr] F C Q. cbn in F, C, Q. subst. eexists.
  cbn -[Nat.ltb]. rewrite Nat.ltb_irrefl. cbn. repeat split; reflexivity.
Qed.
Lemma tls_can : forall ms s, Gnutls_Model.freed s = false -> Gnutls_Model.closed (Gnutls_Model.snd_half s) = false ->
  Gnutls_Model.queue (Gnutls_Model.snd_half s) = [] ->
  exists ops s', Gnutls_Model.run ops s = Ok s' /\ Gnutls_Model.closed (Gnutls_Model.snd_half s') = false /\
    Gnutls_Model.queue (Gnutls_Model.snd_half s') = [] /\
    Gnutls_Model.accepted (Gnutls_Model.snd_half s') = Gnutls_Model.accepted (Gnutls_Model.snd_half s) ++ ms.
Proof.
  induction ms as [|m ms IH]; intros s F C Q.
  - exists [], s. rewrite app_nil_r. auto.
  - destruct (tls_step m s F C Q) as (s1 & E & F1 & C1 & Q1 & A1). destruct (IH s1 F1 C1 Q1) as (ops & s2 & R & C2 & Q2 & A2).
    eexists (_ :: ops), s2. cbn [Gnutls_Model.run]. rewrite E. cbn [bind]. split; [exact R|]. split; [exact C2|]. split; [exact Q2|].
    rewrite A2, A1, <- app_assoc. reflexivity.
Qed.
Lemma tls_carry : forall ms, over_tls ms (concat ms).
Proof.
  intros ms. destruct (tls_can ms (Gnutls_Model.upgrade [] Gnutls_Model.HOk) eq_refl eq_refl eq_refl) as (ops & s & R & C & Q & A).
  assert (T : over_tls ms (Gnutls_Model.wire (Gnutls_Model.snd_half s))).
  { exists Gnutls_Model.HOk, ops, s. repeat (split; [assumption|]). reflexivity. }
  pose proof (tls_carries _ _ T) as W. rewrite W in T. exact T.
Qed.

Lemma ws_can : forall ms st, WsStream_Model.closed st = false -> Forall (fun m => zlen m < 2 ^ 64) ms -> exists st', ws_sends st ms = Ok st'.
Proof.
  induction ms as [|m ms IH]; intros st C L; [exists st; reflexivity|]. cbn [ws_sends].
  rewrite (WsStream_Proofs.ws_send_frames st m C (Forall_inv L)). cbn [bind]. apply IH; [exact C|exact (Forall_inv_tail L)].
Qed.
Lemma ws_carry : forall ms st, Forall (fun m => zlen m < 2 ^ 64) ms -> WsStream_Model.closed st = false -> WsStream_Model.sent st = [] ->
  exists st' w fs, ws_sends st ms = Ok st' /\ over_tcp (WsStream_Model.sent st') w /\ unframes w fs.
Proof.
  intros ms st L C S0. destruct (ws_can ms st C L) as (st' & E). exists st', (concat (WsStream_Model.sent st')), (map framed ms).
  split; [exact E|]. split; [apply tcp_carry|]. apply ws_sends_frames in E; [|exact C|exact L]. rewrite S0 in E. cbn in E. rewrite E.
  split; [|split; [|reflexivity]].
  - apply Forall_forall. intros f I. apply in_map_iff in I as (m & <- & I). apply framed_valid. rewrite Forall_forall in L. apply L, I.
  - apply Forall_forall. intros f I. apply in_map_iff in I as (m & <- & I). reflexivity.
Qed.

Lemma rsa_carry : forall seal unseal mac, RsaAes_Spec.cipher_ok seal unseal mac -> forall ms k, exists c bytes texts,
  RsaAes_Model.send_all seal mac ms (Nat.iter k (fun c => snd (RsaAes_Model.update_nonce c)) RsaAes_Model.counter0) = Ok (c, bytes) /\
  over_tcp [bytes] bytes /\ RsaAes_Spec.decodes unseal mac (Z.of_nat k) bytes texts [].
Proof.
  intros seal unseal mac H ms k. rewrite nth_counter_of.
  destruct (RsaAes_Proofs.send_all_wire seal unseal mac ms (Z.of_nat k)) as (chunks & E' & C & F); [lia|].
  eexists _, _, chunks. split; [exact E'|]. split.
  - pose proof (tcp_carry [RsaAes_Spec.wire seal mac (Z.of_nat k) chunks]) as T. cbn [concat] in T. rewrite app_nil_r in T. exact T.
  - assert (B : Forall (fun m => zlen m < 2 ^ 16) chunks).
    { eapply Forall_impl; [|exact F]. cbn beta. intros a L. change RsaAes_Model.BUFSIZE with 8192 in L. lia. }
    pose proof (RsaAes_Proofs.decodes_wire seal unseal mac H chunks (Z.of_nat k) B []) as W. rewrite app_nil_r in W. exact W.
Qed.
