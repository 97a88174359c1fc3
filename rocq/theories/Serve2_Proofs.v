(** Proofs about whole connections. *)
From Verif Require Import Common CommonProofs Pixels_Model Init_Model Auth_Model Msg_Model Msg_Spec Msg_Proofs Msg3_Proofs Msg4_Proofs
  Talk_Model Talk_Spec Talk_Proofs Serve_Model Serve_Spec.
From Verif Require Auth_Spec Auth_Proofs Auth2_Proofs Hand2_Proofs Serve_Proofs Talk2_Proofs Talk3_Proofs Talk4_Proofs.

Section Connection.
Variables (cfg : config) (e : Auth_Model.env) (E : Msg_Model.env) (shown : fb) (seq : Z) (fuel : nat) (n : Z).
Variables (c0 h : conn) (H : list Z) (f : bool).
Variables (l : list Auth_Model.event) (m : list Z) (pf : pixfmt).
Variables (ms : list (list Z)) (rest : list Z) (c' : client).
Notation loop := (Hand2_Proofs.loop cfg e).
Notation tagged := (map (pair f)).
Notation start := (ready pf shown seq).
Notation total := (H ++ concat ms ++ rest).

Hypothesis H_loop : loop c0 (tagged H) = Ok (h, []).
Hypothesis h_ready : st h = SReady.
Hypothesis c0_enc : encrypted (ch c0) = f.
Hypothesis h_enc : encrypted (ch h) = f.
Hypothesis h_log : Auth_Model.log h = l ++ [Auth_Model.Sent (ch h) m; NewClient].
Hypothesis h_init : send_server_init_message (server_name e) (displayed e l) = Some (m, pf).
Hypothesis H_fits : zlen H <= n.
Hypothesis n_fits : 1 <= n <= 4096.
Hypothesis all : all_bytes total.
Hypothesis SH : Forall (short n) ms.
Hypothesis BE : begins n rest.
Hypothesis HA : handled E start ms c'.

Lemma start_listens : listening start.
Proof. repeat split. Qed.

Definition reached (out : list Z) (g : stage) : Prop :=
  (exists c b q, g = Shaking c b /\ H = out ++ q /\ q <> [] /\ loop c0 (tagged out) = Ok (c, b) /\
     st c <> SReady /\ st c <> SError /\ loop c (b ++ tagged q) = Ok (h, [])) \/
  (exists ds c, g = Serving h c /\ out = H ++ concat ds /\ hears E fuel start ds c).

Lemma bytes_in p q : p ++ q = total -> all_bytes p /\ all_bytes q.
Proof. intros X. rewrite <- X in all. apply Forall_app in all. exact all. Qed.

Lemma H_bytes : all_bytes H.
Proof. apply Forall_app in all. apply all. Qed.

Lemma reached_room out g q : reached out g -> out ++ q = total -> 4097 - n <= room_for g.
Proof.
  intros [(c & b & r & -> & X & N & L & _)|(ds & c & -> & O & HE)] T.
  - cbn [room_for]. pose proof H_bytes as HB. rewrite X in HB. apply Forall_app in HB as [OB _].
    pose proof (Hand2_Proofs.loop_shorter cfg e _ c0 (tagged out) c b (le_n _) (Serve_Proofs.rx_tag f out OB) L) as SL.
    rewrite map_length in SL. unfold zlen in H_fits. rewrite X, app_length in H_fits.
    destruct r; [congruence|]. cbn [length] in H_fits. unfold MSG_BUFFER_SIZE, avail. lia.
  - cbn [room_for]. apply (hears_room E fuel n start ms rest c' start_listens SH BE HA ds c q HE).
    rewrite O, <- app_assoc in T. apply app_inv_head in T. exact T.
Qed.

Lemma newcomer_told : newcomer e shown seq (before_init (Auth_Model.log h)) = Ok start.
Proof.
  unfold newcomer, before_init. rewrite h_log, app_length. cbn [length].
  replace (length l + 2 - 2)%nat with (length l) by lia. rewrite firstn_app_exact, h_init. reflexivity.
Qed.

Lemma reached_next out g d q : reached out g -> (out ++ d) ++ q = total -> zlen d <= room_for g ->
  exists g', hear cfg e E shown seq fuel g d = Ok g' /\ reached (out ++ d) g'.
Proof.
  intros [(c & b & r & -> & X & N & L & NR & NE & LQ)|(ds & c & -> & O & HE)] T RM.
  - destruct (list_eq_dec Z.eq_dec d []) as [->|D].
    { exists (Shaking c b). split; [cbn [hear Auth_Model.on_client_event bind]; destruct (st c); congruence|].
      rewrite app_nil_r. left. exists c, b, r. repeat (split; [first [assumption|reflexivity]|]). exact LQ. }
    destruct (bytes_in _ _ T) as [OD _]. apply Forall_app in OD as [OB DB].
    pose proof H_bytes as HB. rewrite X in HB. apply Forall_app in HB as [_ RB].
    assert (RO := Serve_Proofs.rx_tag f out OB). assert (RD := Serve_Proofs.rx_tag f d DB). assert (RR := Serve_Proofs.rx_tag f r RB).
    assert (BO := Hand2_Proofs.loop_ok _ _ _ _ _ _ RO L).
    assert (K : encrypted (ch c) = f).
    { refine (Hand2_Proofs.between (ch c0) (ch c) (ch h) f _ _ c0_enc h_enc).
      - apply (Hand2_Proofs.loop_clear_before cfg e c0 _ c b RO L).
      - apply (Hand2_Proofs.loop_clear_before cfg e c _ h [] (Serve_Proofs.rx_both _ _ BO RR) LQ). }
    cbn [room_for] in RM. unfold avail, MSG_BUFFER_SIZE, zlen in RM.
    cbn [hear]. rewrite Serve_Proofs.event_loop by (auto; lia). unfold Auth_Spec.tag. rewrite K.
    rewrite <- (Serve_Proofs.loop_both cfg e _ c0 (tagged out) (tagged d) c b (le_n _) RO RD L NE).
    rewrite <- map_app.
    destruct (Nat.lt_ge_cases (length (out ++ d)) (length H)) as [LT|GE].
    + assert (exists q', H = (out ++ d) ++ q' /\ q' <> []) as (q' & HQ & NQ).
      { exists (skipn (length (out ++ d)) H).
        assert (F : firstn (length (out ++ d)) H = out ++ d).
        { apply (f_equal (firstn (length (out ++ d)))) in T. rewrite firstn_app_exact, firstn_app in T.
          replace (length (out ++ d) - length H)%nat with 0%nat in T by lia. cbn [firstn] in T. rewrite app_nil_r in T. congruence. }
        split; [rewrite <- F at 1; symmetry; apply firstn_skipn|].
        intros Y. apply (f_equal (@length Z)) in Y. rewrite skipn_length in Y. cbn [length] in Y. lia. }
      pose proof H_bytes as HB. rewrite HQ in HB. apply Forall_app in HB as [B1 B2].
      pose proof H_loop as HL. rewrite HQ, map_app in HL.
      destruct (Serve_Proofs.loop_beginning cfg e c0 h _ _ (Serve_Proofs.rx_tag f _ B1) (Serve_Proofs.rx_tag f _ B2)
        ltac:(intros Y; apply map_eq_nil in Y; congruence) HL h_ready) as (c1 & b1 & L1 & R1 & E1 & Q1).
      rewrite L1. cbn [bind]. exists (Shaking c1 b1). split; [destruct (st c1); congruence|].
      left. exists c1, b1, q'. repeat (split; [first [assumption|reflexivity]|]). exact Q1.
    + assert (exists o, out ++ d = H ++ o) as (o & HO).
      { exists (skipn (length H) (out ++ d)).
        assert (F : firstn (length H) (out ++ d) = H).
        { apply (f_equal (firstn (length H))) in T. rewrite firstn_app_exact, firstn_app in T.
          replace (length H - length (out ++ d))%nat with 0%nat in T by lia. cbn [firstn] in T. rewrite app_nil_r in T. exact T. }
        rewrite <- F at 1. symmetry. apply firstn_skipn. }
      rewrite HO in *. destruct (bytes_in _ _ T) as [HOB _]. apply Forall_app in HOB as [HB OOB].
      rewrite map_app. rewrite (Serve_Proofs.loop_beyond cfg e c0 h _ _ (Serve_Proofs.rx_tag f _ HB) (Serve_Proofs.rx_tag f _ OOB) H_loop h_ready).
      cbn [bind]. rewrite h_ready, newcomer_told. cbn [bind]. rewrite Auth_Proofs.bytes_tag.
      rewrite <- app_assoc in T. apply app_inv_head in T.
      assert (LO : zlen o <= asked start).
      { change (asked start) with 4096. assert (LE := f_equal (@length Z) HO). rewrite X, !app_length in LE.
        destruct r; [congruence|]. cbn [length] in LE. unfold zlen. lia. }
      destruct (hears_next E fuel n start ms rest c' start_listens SH BE HA [] start o q (hears_nil _ _ _) T LO) as (c2 & RC & H2).
      rewrite RC. cbn [bind]. exists (Serving h c2). split; [reflexivity|]. right. exists [o], c2.
      split; [reflexivity|]. split; [cbn [concat]; rewrite app_nil_r; reflexivity|exact H2].
  - rewrite O in T. rewrite <- !app_assoc in T. apply app_inv_head in T. rewrite app_assoc in T.
    destruct (hears_next E fuel n start ms rest c' start_listens SH BE HA ds c d q HE T RM) as (c2 & RC & H2).
    exists (Serving h c2). cbn [hear]. rewrite RC. split; [reflexivity|]. right. exists (ds ++ [d]), c2.
    split; [reflexivity|]. split; [|exact H2]. rewrite O, concat_app. cbn [concat]. rewrite app_nil_r, <- app_assoc. reflexivity.
Qed.

Lemma reached_end g : reached total g -> g = Serving h (set_buf rest c').
Proof.
  intros [(c & b & q & -> & X & N & _)|(ds & c & -> & O & HE)].
  - exfalso. apply (f_equal (@length Z)) in X. rewrite !app_length in X. destruct q; [congruence|]. cbn [length] in X. lia.
  - f_equal. apply app_inv_head in O.
    exact (hears_state E fuel n start ms rest c' start_listens SH BE HA ds c HE (eq_sym O)).
Qed.

Section Any.
Context {St : Type}.
Variable read : St -> Z -> list Z -> res (St * list Z * bool).
Variable at_point : St -> list Z -> list (list Z) -> Prop.
Hypothesis next : forall s out x segs size, at_point s out (x :: segs) -> 4097 - n <= size ->
  exists s' d, read s size x = Ok (s', d, false) /\ zlen d <= size /\ at_point s' (out ++ d) segs.
Hypothesis inside : forall s out segs, at_point s out segs -> exists q, out ++ q = total.
Hypothesis done : forall s out, at_point s out [] -> out = total.

Lemma attend_on segs : forall s out g, at_point s out segs -> reached out g ->
  exists s', attend cfg e E shown seq read fuel s g segs = Ok (s', Serving h (set_buf rest c')).
Proof.
  induction segs as [|x segs IH]; intros s out g P R.
  - exists s. cbn [attend]. do 2 f_equal. apply reached_end. rewrite <- (done _ _ P). exact R.
  - destruct (inside _ _ _ P) as [q Q].
    destruct (next _ _ _ _ _ P (reached_room out g q R Q)) as (s1 & d & RD & LD & P1).
    destruct (inside _ _ _ P1) as [q1 Q1].
    destruct (reached_next out g d q1 R Q1 LD) as (g1 & HG & R1).
    cbn [attend]. rewrite RD. cbn [bind]. rewrite HG. cbn [bind]. exact (IH s1 (out ++ d) g1 P1 R1).
Qed.
End Any.
End Connection.
