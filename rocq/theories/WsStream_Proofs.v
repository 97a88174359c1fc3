From Verif Require Import Common CommonProofs Ws_Model Ws_Spec Ws_Proofs
  WsStream_Model WsStream_Spec.

(** ** Masking with a phase *)
Lemma xor_loop_app : forall key a b i,
  xor_loop key i (a ++ b) = xor_loop key i a ++ xor_loop key (i + length a) b.
Proof.
  intros key a. induction a as [|x a IH]; intros b i; cbn [app xor_loop length].
  - rewrite Nat.add_0_r. reflexivity.
  - rewrite IH. rewrite Nat.add_succ_r. reflexivity.
Qed.

Lemma xor_loop_phase : forall key b i j, (i mod 4 = j mod 4)%nat ->
  xor_loop key i b = xor_loop key j b.
Proof.
  intros key b. induction b as [|x b IH]; intros i j H; cbn [xor_loop]; [reflexivity|].
  rewrite H. f_equal. apply IH.
  replace (S i) with (i + 1)%nat by lia. replace (S j) with (j + 1)%nat by lia.
  rewrite (Nat.add_mod i 1 4), (Nat.add_mod j 1 4) by lia. rewrite H. reflexivity.
Qed.

Definition enc (key : option (list Z)) (d : list Z) : list Z :=
  match key with None => d | Some k => masked k d end.

Lemma enc_length : forall key d, length (enc key d) = length d.
Proof. intros [k|] d; cbn; [rewrite masked_xor_loop, xor_loop_length|]; reflexivity. Qed.

Lemma enc_app : forall key d1 d2,
  (key = None \/ (length d1 mod 4 = 0)%nat \/ d2 = []) ->
  enc key (d1 ++ d2) = enc key d1 ++ enc key d2.
Proof.
  intros [k|] d1 d2 H; cbn [enc]; [|reflexivity].
  rewrite !masked_xor_loop, xor_loop_app. f_equal.
  destruct H as [H|[H| ->]]; [discriminate| |reflexivity].
  apply xor_loop_phase. cbn [Nat.add]. rewrite H. reflexivity.
Qed.

(** ** Buffer states *)
Definition holds (st : ws_stream) (seg : list Z) : Prop :=
  ri st = zlen seg /\ (exists junk, rb st = seg ++ junk) /\ length (rb st) = 4096%nat /\
  closed st = false /\ ready st = true.

Definition pending (st : ws_stream) (key : option (list Z)) (d : list Z) : Prop :=
  payload_length (hdr st) = zlen d /\
  (d <> [] -> mask (hdr st) = match key with None => false | Some _ => true end /\
              match key with None => True | Some k => masking_key (hdr st) = k end).

Lemma zlen_nonneg : forall l, 0 <= zlen l.
Proof. intros l. unfold zlen. lia. Qed.

Lemma zlen_app : forall a b, zlen (a ++ b) = zlen a + zlen b.
Proof. intros a b. unfold zlen. rewrite app_length. lia. Qed.

Lemma get_mid : forall a b c, get (a ++ b ++ c) (zlen a) (zlen b) = Ok b.
Proof.
  intros a b c. unfold get, zlen. rewrite !app_length.
  replace (_ && _ && _) with true by lia.
  rewrite !Nat2Z.id, skipn_app_exact, firstn_app_exact. reflexivity.
Qed.

Lemma copy_enc : forall h key d rest,
  mask h = match key with None => false | Some _ => true end ->
  match key with None => True | Some k => masking_key h = k end ->
  ws_copy_payload h (enc key d ++ rest) (zlen d) = Ok d.
Proof.
  intros h [k|] d rest Hm Hk; cbn [enc].
  - rewrite <- Hk. apply copy_payload_unmask. exact Hm.
  - apply copy_payload_plain. exact Hm.
Qed.

(** One payload step on [pre ++ seg] where [pre] is the already parsed header
    (or nothing). *)
Lemma payload_step : forall st size pre seg junk key d1 d2 s2,
  rb st = pre ++ seg ++ junk -> ri st = zlen pre + zlen seg ->
  length (rb st) = 4096%nat -> closed st = false -> ready st = true ->
  current_opcode st = 2 ->
  payload_length (hdr st) = zlen (d1 ++ d2) ->
  mask (hdr st) = match key with None => false | Some _ => true end ->
  match key with None => True | Some k => masking_key (hdr st) = k end ->
  seg = enc key d1 ++ s2 -> (s2 = [] \/ d2 = []) -> zlen seg <= size ->
  exists st', process_payload st size (zlen pre) = Ok (st', Got d1) /\
    holds st' s2 /\ pending st' key d2 /\ current_opcode st' = 2.
Proof.
  intros st size pre seg junk key d1 d2 s2 Hrb Hri Hl Hc Hr Hop Hpl Hm Hk Hseg Hs Hsz.
  assert (Htot : zlen pre + zlen seg + zlen junk = 4096).
  { unfold zlen. rewrite Hrb, !app_length in Hl. lia. }
  pose proof (zlen_nonneg pre). pose proof (zlen_nonneg seg). pose proof (zlen_nonneg junk).
  pose proof (zlen_nonneg s2). pose proof (zlen_nonneg d1). pose proof (zlen_nonneg d2).
  assert (Hed : zlen (enc key d1) = zlen d1) by (unfold zlen; rewrite enc_length; reflexivity).
  assert (Hsl : zlen seg = zlen d1 + zlen s2) by (rewrite Hseg, zlen_app, Hed; reflexivity).
  assert (Hmod : (ri st - zlen pre) mod 2 ^ 64 = zlen seg).
  { rewrite Hri. replace (zlen pre + zlen seg - zlen pre) with (zlen seg) by lia.
    apply Z.mod_small. lia. }
  assert (Hpl' : Z.min (Z.min size (zlen seg)) (zlen (d1 ++ d2)) = zlen d1).
  { rewrite zlen_app. destruct Hs as [-> | ->]; cbn in *; unfold zlen in *; cbn [length] in *; lia. }
  assert (Hri' : (ri st - (zlen pre + zlen d1)) mod 2 ^ 64 = zlen s2).
  { rewrite Hri. replace (zlen pre + zlen seg - (zlen pre + zlen d1)) with (zlen s2) by lia.
    apply Z.mod_small. lia. }
  unfold process_payload. rewrite Hop. cbn [Z.eqb WS_OPCODE_CONT WS_OPCODE_TEXT WS_OPCODE_BIN Pos.eqb].
  unfold copy_payload, advance_read_buffer. rewrite Hmod, Hpl, Hpl', Hri'.
  assert (Hsk : skipn (Z.to_nat (zlen pre)) (rb st) = enc key d1 ++ s2 ++ junk).
  { rewrite Hrb. unfold zlen. rewrite Nat2Z.id, skipn_app_exact, Hseg, <- app_assoc. reflexivity. }
  rewrite Hsk, copy_enc by assumption. cbn [bind].
  assert (Hmv : move_down (rb st) (zlen pre + zlen d1) (zlen s2)
     = Ok (s2 ++ skipn (length s2) (rb st))).
  { unfold move_down.
    replace (rb st) with ((pre ++ enc key d1) ++ s2 ++ junk) at 1
      by (rewrite Hrb, Hseg, <- !app_assoc; reflexivity).
    rewrite <- Hed, <- zlen_app, get_mid. cbn [bind].
    rewrite put_ok; [reflexivity|lia|]. unfold zlen in *. lia. }
  rewrite Hmv. cbn [bind]. eexists. split; [reflexivity|].
  split; [|split].
  - split; [reflexivity|]. split; [eexists; reflexivity|]. cbn [rb closed ready].
    split; [|split; assumption]. rewrite app_length, skipn_length. unfold zlen in *. lia.
  - split.
    + cbn [hdr set_plen payload_length]. rewrite zlen_app. lia.
    + intros _. cbn [hdr set_plen mask masking_key]. split; assumption.
  - exact Hop.
Qed.

(** The loop body after [read_frame] decided where the payload starts. *)
Definition continue (fuel : nat) (eagain : bool) (size : Z) (total : list Z)
  (x : ws_stream * nread) : res (ws_stream * nread) :=
  let (st, r) := x in
  match r with
  | Neg => if eagain then Ok (st, Got total) else Ok (st, Neg)
  | Got [] => Ok (st, Got total)
  | Got l => read_ready_loop fuel eagain st (size - zlen l) (total ++ l)
  end.

Lemma loop_pending : forall fuel eagain st size total,
  0 < payload_length (hdr st) ->
  read_ready_loop (S fuel) eagain st size total =
  bind (process_payload st size 0) (continue fuel eagain size total).
Proof.
  intros fuel eagain st size total H. cbn [read_ready_loop]. unfold read_frame.
  replace (0 <? payload_length (hdr st)) with true by lia.
  destruct (process_payload st size 0) as [[st' r]|]; reflexivity.
Qed.

Lemma loop_empty : forall fuel eagain st size total key d,
  holds st [] -> pending st key d -> (current_opcode st = 2 \/ d = []) -> 0 <= size ->
  exists st', read_ready_loop (S fuel) eagain st size total = Ok (st', Got total) /\
    holds st' [] /\ pending st' key d /\ current_opcode st' = current_opcode st.
Proof.
  intros fuel eagain st size total key d Hh Hp Ho Hs.
  destruct Hh as (Hri & (junk & Hrb) & Hl & Hc & Hr). destruct Hp as [Hpl Hk].
  destruct d as [|x d].
  - exists st. cbn [read_ready_loop]. unfold read_frame. rewrite Hpl. cbn [zlen length Z.of_nat Z.ltb Z.compare].
    rewrite Hri. cbn [zlen length Z.of_nat Z.to_nat firstn ws_parse_frame_header].
    unfold bind. split; [|split; [|split; [|reflexivity]]].
    + destruct st; reflexivity.
    + split; [exact Hri|]. split; [exists junk; exact Hrb|]. repeat split; assumption.
    + split; [exact Hpl|intros C; contradiction].
  - destruct Ho as [Ho|Ho]; [|discriminate].
    destruct (Hk ltac:(discriminate)) as [Hm Hkey].
    destruct (payload_step st size [] [] junk key [] (x :: d) []) as (st' & E & Hh' & Hp' & Ho');
      try assumption; try reflexivity.
    + cbn. destruct key; reflexivity.
    + left; reflexivity.
    + exists st'. rewrite loop_pending.
      * change (zlen []) with 0 in E. rewrite E. cbn [bind continue]. split; [reflexivity|].
        split; [exact Hh'|]. split; [exact Hp'|]. congruence.
      * rewrite Hpl. unfold zlen. cbn [length]. lia.
Qed.

(** ** Suffixes of the incoming stream, in terms of the current frame *)
Inductive sfx : option (list Z) -> list Z -> list frame ->
                option (list Z) -> list Z -> list frame -> list Z -> Prop :=
| sfx_here : forall key d1 d2 fs,
    (key = None \/ (length d1 mod 4 = 0)%nat \/ d2 = []) ->
    sfx key (d1 ++ d2) fs key d2 fs d1
| sfx_next : forall key d f fs key' d' fs' out,
    sfx (h_key (f_head f)) (f_data f) fs key' d' fs' out ->
    sfx key d (f :: fs) key' d' fs' (d ++ out).

(** the bytes of the stream up to the suffix *)
Lemma sfx_seg : forall key d fs key' d' fs' out, sfx key d fs key' d' fs' out ->
  exists seg, enc key d ++ wire fs = seg ++ enc key' d' ++ wire fs'.
Proof.
  intros key d fs key' d' fs' out H. induction H as [key d1 d2 fs H|key d f fs key' d' fs' out H [seg IH]].
  - exists (enc key d1). rewrite enc_app by exact H. rewrite <- app_assoc. reflexivity.
  - exists (enc key d ++ header_bytes (f_head f) ++ seg).
    unfold wire in *. cbn [map concat]. unfold frame_bytes at 1. fold (enc (h_key (f_head f)) (f_data f)) in *.
    rewrite <- !app_assoc. f_equal. f_equal. exact IH.
Qed.

Definition good (f : frame) : Prop :=
  valid_frame f /\ (h_opcode (f_head f) = 2 \/ h_opcode (f_head f) = 0) /\ f_data f <> [].

Lemma valid_header_pos : forall f, valid_frame f -> f_data f <> [] -> 0 < h_len (f_head f).
Proof.
  intros f [_ H] Hd. rewrite H. unfold zlen. destruct (f_data f); [contradiction|cbn [length]; lia].
Qed.

(** reading a frame header at the front of the buffer *)
Lemma loop_header : forall fuel eagain st size total f seg,
  holds st (header_bytes (f_head f) ++ seg) -> payload_length (hdr st) = 0 -> good f ->
  (current_opcode st = 2 \/ h_opcode (f_head f) = 2) ->
  exists st1,
    read_ready_loop (S fuel) eagain st size total =
      bind (process_payload st1 size (zlen (header_bytes (f_head f)))) (continue fuel eagain size total) /\
    (exists junk, rb st1 = header_bytes (f_head f) ++ seg ++ junk) /\
    ri st1 = zlen (header_bytes (f_head f)) + zlen seg /\ length (rb st1) = 4096%nat /\
    closed st1 = false /\ ready st1 = true /\ current_opcode st1 = 2 /\
    pending st1 (h_key (f_head f)) (f_data f).
Proof.
  intros fuel eagain st size total f seg (Hri & (junk & Hrb) & Hl & Hc & Hr) Hpl (Hv & Hop & Hd) Ho.
  destruct Hv as [Hvh Hlen].
  exists (set_hdr st (parsed (hdr st) (f_head f)) 2).
  split.
  - cbn [read_ready_loop]. unfold read_frame. rewrite Hpl. cbn [Z.ltb Z.compare].
    rewrite Hri, Hrb. unfold zlen. rewrite Nat2Z.id, firstn_app_exact.
    rewrite parse_complete by exact Hvh.
    replace (if opcode (parsed (hdr st) (f_head f)) =? WS_OPCODE_CONT
             then current_opcode st else opcode (parsed (hdr st) (f_head f))) with 2.
    2:{ cbn [parsed opcode]. unfold WS_OPCODE_CONT. destruct (h_opcode (f_head f) =? 0) eqn:E; lia. }
    cbn [parsed header_length]. unfold zlen.
    destruct (process_payload _ size _) as [[st' r]|]; reflexivity.
  - cbn [set_hdr rb ri closed ready current_opcode].
    split; [exists junk; rewrite Hrb, <- app_assoc; reflexivity|].
    split; [rewrite Hri, zlen_app; reflexivity|].
    split; [assumption|]. split; [assumption|]. split; [assumption|]. split; [reflexivity|].
    split; [exact Hlen|]. intros _. split; [reflexivity|].
    cbn [hdr set_hdr parsed masking_key]. destruct (h_key (f_head f)); [reflexivity|exact I].
Qed.

(** Main simulation: from any point at which the current payload is pending. *)
Lemma run_sfx : forall key d fs key' d' fs' out,
  sfx key d fs key' d' fs' out ->
  forall fuel eagain st size total pre seg junk,
  d <> [] -> Forall good fs ->
  rb st = pre ++ seg ++ junk -> ri st = zlen pre + zlen seg -> length (rb st) = 4096%nat ->
  closed st = false -> ready st = true -> current_opcode st = 2 -> pending st key d ->
  enc key d ++ wire fs = seg ++ enc key' d' ++ wire fs' ->
  (length seg <= fuel)%nat -> zlen seg <= size ->
  exists st', bind (process_payload st size (zlen pre)) (continue fuel eagain size total)
      = Ok (st', Got (total ++ out)) /\
    holds st' [] /\ pending st' key' d' /\ current_opcode st' = 2.
Proof.
  intros key d fs key' d' fs' out H.
  induction H as [key d1 d2 fs H|key d f fs key' d' fs' out H IH];
    intros fuel eagain st size total pre seg junk Hd Hg Hrb Hri Hl Hc Hr Hop [Hpl Hk] Hw Hfuel Hsz;
    destruct (Hk Hd) as [Hm Hkey].
  - assert (Hseg : seg = enc key d1).
    { rewrite enc_app in Hw by exact H. rewrite <- app_assoc in Hw. apply app_inv_tail in Hw. auto. }
    destruct (payload_step st size pre seg junk key d1 d2 []) as (st' & E & Hh & Hp & Ho);
      try assumption.
    + rewrite Hseg, app_nil_r. reflexivity.
    + left; reflexivity.
    + rewrite E. cbn [bind continue]. destruct d1 as [|x d1].
      * exists st'. rewrite app_nil_r. repeat split; try apply Hh; try apply Hp; try assumption.
      * destruct fuel as [|fuel]; [rewrite Hseg, enc_length in Hfuel; cbn in Hfuel; lia|].
        destruct (loop_empty fuel eagain st' (size - zlen (x :: d1)) (total ++ x :: d1) key d2)
          as (st2 & E2 & Hh2 & Hp2 & Ho2); try assumption.
        -- left; exact Ho.
        -- unfold zlen in *. rewrite Hseg, enc_length in Hsz. lia.
        -- exists st2. split; [exact E2|]. split; [exact Hh2|]. split; [exact Hp2|]. congruence.
  - destruct (sfx_seg _ _ _ _ _ _ _ H) as [seg' Hw'].
    inversion Hg as [|? ? Hgf Hg']; subst.
    assert (Hseg : seg = enc key d ++ header_bytes (f_head f) ++ seg').
    { unfold wire in Hw at 1. cbn [map concat] in Hw. unfold frame_bytes in Hw at 1.
      fold (wire fs) in Hw. change (body f) with (enc (h_key (f_head f)) (f_data f)) in Hw.
      rewrite <- !app_assoc in Hw. rewrite Hw' in Hw.
      rewrite (app_assoc (enc key d)), (app_assoc _ seg') in Hw. 
      apply app_inv_tail in Hw. rewrite <- Hw, <- app_assoc. reflexivity. }
    destruct (payload_step st size pre seg junk key d [] (header_bytes (f_head f) ++ seg'))
      as (st' & E & Hh & Hp & Ho); try assumption.
    + rewrite app_nil_r. exact Hpl.
    + right; reflexivity.
    + rewrite E. cbn [bind continue].
      destruct d as [|x d]; [contradiction|]. set (D := x :: d) in *.
      assert (Hlen : length seg = (length D + (length (header_bytes (f_head f)) + length seg'))%nat)
        by (rewrite Hseg, !app_length, enc_length; reflexivity).
      assert (Hhl : (2 <= length (header_bytes (f_head f)))%nat)
        by (unfold header_bytes; cbn [length]; lia).
      destruct fuel as [|fuel]; [lia|].
      destruct (loop_header fuel eagain st' (size - zlen D) (total ++ D) f seg')
        as (st1 & E1 & (junk1 & Hrb1) & Hri1 & Hl1 & Hc1 & Hr1 & Ho1 & Hp1); try assumption.
      * destruct Hp as [Hp _]. exact Hp.
      * left; exact Ho.
      * rewrite E1.
        destruct (IH fuel eagain st1 (size - zlen D) (total ++ D) (header_bytes (f_head f)) seg' junk1)
          as (st2 & E2 & Hh2 & Hp2 & Ho2); try assumption.
        -- apply Hgf.
        -- lia.
        -- unfold zlen in *. lia.
        -- exists st2. rewrite E2, <- app_assoc. repeat split; try apply Hh2; try apply Hp2; try assumption.
Qed.

(** ** One read *)
Definition opc (st : ws_stream) (d : list Z) (fs : list frame) : Prop :=
  current_opcode st = 2 \/
  (d = [] /\ match fs with [] => True | f :: _ => h_opcode (f_head f) = 2 end).

Lemma put_segment : forall st seg, holds st [] -> zlen seg <= 4096 -> seg <> [] ->
  exists st', read_into_buffer st (Bytes seg) = Ok st' /\ holds st' seg /\
    hdr st' = hdr st /\ current_opcode st' = current_opcode st.
Proof.
  intros st seg (Hri & (junk & Hrb) & Hl & Hc & Hr) Hs Hn.
  unfold read_into_buffer. rewrite Hc. rewrite Hri. change (zlen []) with 0.
  change (WS_BUF - 0 =? 0) with false. cbn iota.
  destruct seg as [|x seg]; [contradiction|]. set (S := x :: seg) in *.
  rewrite put_ok by (unfold zlen in *; lia). cbn [bind Z.to_nat firstn app Nat.add].
  eexists. split; [reflexivity|].
  split; [|split; reflexivity].
  split; [reflexivity|]. split; [eexists; reflexivity|]. cbn [rb closed ready].
  repeat split; try assumption. rewrite app_length, skipn_length. unfold zlen in *. lia.
Qed.

Lemma read_segment : forall hs eagain st key d fs key' d' fs' out seg size,
  sfx key d fs key' d' fs' out -> Forall good fs ->
  holds st [] -> pending st key d -> opc st d fs ->
  enc key d ++ wire fs = seg ++ enc key' d' ++ wire fs' ->
  seg <> [] -> zlen seg <= 4096 -> zlen seg <= size ->
  exists st', ws_read hs eagain st size (Bytes seg) = Ok (st', Got out) /\
    holds st' [] /\ pending st' key' d' /\ current_opcode st' = 2.
Proof.
  intros hs eagain st key d fs key' d' fs' out seg size Hs Hg Hh Hp Ho Hw Hn H4 Hsz.
  destruct (put_segment st seg Hh H4 Hn) as (st1 & E1 & Hh1 & Eh & Eo).
  unfold ws_read. rewrite E1. cbn [bind].
  destruct Hh1 as (Hri & (junk & Hrb) & Hl & Hc & Hr). rewrite Hc, Hr.
  unfold read_ready.
  assert (Hp1 : pending st1 key d) by (unfold pending in *; rewrite Eh; exact Hp).
  destruct d as [|x d].
  - (* at a frame boundary *)
    inversion Hs as [k0 d1 d2 fs0 Hc0|k0 d0 f fs0 k1 d1 fs1 out1 Hs']; subst.
    + destruct out; [|discriminate]. destruct d'; [|discriminate].
      exfalso. apply Hn. apply (app_inv_tail (enc key' [] ++ wire fs')). rewrite <- Hw. reflexivity.
    + inversion Hg as [|? ? Hgf Hg']; subst.
      destruct (sfx_seg _ _ _ _ _ _ _ Hs') as [seg' Hw'].
      assert (Hseg : seg = header_bytes (f_head f) ++ seg').
      { apply (app_inv_tail (enc key' d' ++ wire fs')). rewrite <- Hw, <- app_assoc, <- Hw'.
        unfold wire at 1. cbn [map concat]. unfold frame_bytes at 1. 
        change (body f) with (enc (h_key (f_head f)) (f_data f)).
        replace (enc key []) with (@nil Z) by (destruct key; reflexivity).
        cbn [app]. rewrite <- app_assoc. reflexivity. }
      destruct (loop_header (Z.to_nat (ri st1)) eagain st1 size [] f seg')
        as (st2 & E2 & (junk1 & Hrb1) & Hri1 & Hl1 & Hc1 & Hr1 & Ho1 & Hp2).
      * rewrite <- Hseg. split; [exact Hri|]. split; [exists junk; exact Hrb|]. repeat split; assumption.
      * apply Hp1.
      * exact Hgf.
      * destruct Ho as [Ho|[_ Ho]]; [left; congruence|right; exact Ho].
      * rewrite E2.
        destruct (run_sfx _ _ _ _ _ _ _ Hs' (Z.to_nat (ri st1)) eagain st2 size []
                    (header_bytes (f_head f)) seg' junk1)
          as (st3 & E3 & R); try assumption.
        -- apply Hgf.
        -- rewrite Hri, Hseg. unfold zlen. rewrite Nat2Z.id, app_length.
           unfold header_bytes. cbn [length]. lia.
        -- rewrite Hseg, zlen_app in Hsz. pose proof (zlen_nonneg (header_bytes (f_head f))). lia.
        -- exists st3. split; [exact E3|exact R].
  - rewrite loop_pending by (destruct Hp1 as [Hp1 _]; rewrite Hp1; unfold zlen; cbn [length]; lia).
    assert (Ho1 : current_opcode st1 = 2) by (destruct Ho as [Ho|[Ho _]]; [congruence|discriminate]).
    assert (Hnb : (0 < length seg)%nat) by (destruct seg; [contradiction|cbn; lia]).
    apply (run_sfx _ _ _ _ _ _ _ Hs (Z.to_nat (ri st1)) eagain st1 size [] [] seg junk); try assumption.
    + discriminate.
    + rewrite Hri. unfold zlen. lia.
Qed.

(** ** From cut points to suffixes *)
Lemma wire_cons : forall f fs, wire (f :: fs) = header_bytes (f_head f) ++ enc (h_key (f_head f)) (f_data f) ++ wire fs.
Proof.
  intros f fs. unfold wire. cbn [map concat]. unfold frame_bytes at 1. rewrite <- app_assoc. reflexivity.
Qed.

Lemma wire_app : forall a b, wire (a ++ b) = wire a ++ wire b.
Proof. intros a b. unfold wire. rewrite map_app, concat_app. reflexivity. Qed.

Lemma sfx_frames : forall a key d b, sfx key d (a ++ b) (match rev a with [] => key | f :: _ => h_key (f_head f) end)
   [] b (d ++ data a).
Proof.
  intros a. induction a as [|f a IH] using rev_ind; intros key d b.
  - cbn. unfold data. cbn [map concat]. rewrite app_nil_r.
    rewrite <- (app_nil_r d) at 1. apply sfx_here. right; right; reflexivity.
  - clear IH. rewrite rev_app_distr. cbn [rev app].
    revert key d. induction a as [|g a IH]; intros key d; cbn [app].
    + unfold data. cbn [map concat]. rewrite app_nil_r. apply sfx_next.
      rewrite <- (app_nil_r (f_data f)) at 1. apply sfx_here. right; right; reflexivity.
    + unfold data in *. cbn [map concat]. apply sfx_next. apply IH.
Qed.

Lemma sfx_trans : forall k d fs k1 d1 fs1 o1, sfx k d fs k1 d1 fs1 o1 -> forall k2 d2 fs2 o2,
  d1 = [] -> fs1 <> [] -> sfx k1 d1 fs1 k2 d2 fs2 o2 -> o2 <> [] \/ (length fs2 < length fs1)%nat ->
  sfx k d fs k2 d2 fs2 (o1 ++ o2).
Proof.
  intros k d fs k1 d1 fs1 o1 H. induction H as [key d1 d2 fs H|key d f fs key' d' fs' out H IH];
    intros k2 d3 fs2 o2 E Hn H2 Hx.
  - subst d2. rewrite app_nil_r.
    inversion H2 as [? e1 e2|? ? f fs0 ? ? ? out H3]; subst.
    + destruct o2; [|discriminate]. destruct Hx as [Hx|Hx]; [contradiction|lia].
    + cbn [app]. apply sfx_next. exact H3.
  - rewrite <- app_assoc. apply sfx_next. apply IH; assumption.
Qed.

Lemma cut_sfx : forall fs pos before, cut_point fs pos before ->
  exists k d fs', sfx None [] fs k d fs' before /\ zlen (enc k d ++ wire fs') = zlen (wire fs) - pos.
Proof.
  intros fs pos before [a b ->|a f b k -> Hk Hm].
  - do 3 eexists. split; [apply (sfx_frames a None [] b)|].
    rewrite wire_app, !zlen_app. unfold zlen. rewrite enc_length. cbn [length]. lia.
  - exists (h_key (f_head f)), (skipn k (f_data f)), b. split.
    + pose proof (sfx_frames a None [] (f :: b)) as H1. cbn [app] in H1.
      eapply sfx_trans with (o2 := [] ++ firstn k (f_data f)) in H1.
      * exact H1.
      * reflexivity.
      * discriminate.
      * apply sfx_next. rewrite <- (firstn_skipn k (f_data f)) at 1. apply sfx_here.
        destruct Hm as [Hm|Hm]; [left; exact Hm|right; left].
        rewrite firstn_length, Nat.min_l by exact Hk. exact Hm.
      * right. cbn [length]. lia.
    + rewrite wire_app, wire_cons, !zlen_app. unfold zlen. rewrite !enc_length, skipn_length. lia.
Qed.

Lemma sfx_rest_le : forall key d fs key' d' fs' out, sfx key d fs key' d' fs' out ->
  (length (enc key' d' ++ wire fs') <= length (enc key d ++ wire fs))%nat.
Proof.
  intros key d fs key' d' fs' out H. destruct (sfx_seg _ _ _ _ _ _ _ H) as [seg ->].
  rewrite (app_length seg). lia.
Qed.

Lemma sfx_split : forall k d fs k1 d1 fs1 o1, sfx k d fs k1 d1 fs1 o1 -> forall k2 d2 fs2 o2,
  sfx k d fs k2 d2 fs2 o2 ->
  (length (enc k2 d2 ++ wire fs2) <= length (enc k1 d1 ++ wire fs1))%nat ->
  exists o, o2 = o1 ++ o /\ sfx k1 d1 fs1 k2 d2 fs2 o.
Proof.
  intros k d fs k1 d1 fs1 o1 H. induction H as [key d1 d2 fs H|key d f fs key' d' fs' out H IH];
    intros k2 e2 fs2 o2 H2 Hle.
  - remember (d1 ++ d2) as D eqn:HD. destruct H2 as [key a2 r2 fs H2|key d f fs k2 e2 fs2 o2 H2].
    + rewrite !app_length, !enc_length in Hle.
      assert (Hl : (length d1 <= length a2)%nat).
      { assert (L : length (a2 ++ r2) = length (d1 ++ d2)) by (rewrite HD; reflexivity).
        rewrite !app_length in L. lia. }
      assert (Hx : exists x, a2 = d1 ++ x /\ d2 = x ++ r2).
      { clear -HD Hl. revert a2 HD Hl. induction d1 as [|y d1 IH]; intros a2 HD Hl.
        - exists a2. split; [reflexivity|symmetry; exact HD].
        - destruct a2 as [|z a2]; [cbn in Hl; lia|]. inversion HD; subst.
          destruct (IH a2 H1) as (x & -> & ->); [cbn in Hl; lia|]. exists x. split; reflexivity. }
      destruct Hx as (x & -> & ->). exists x. split; [reflexivity|]. apply sfx_here.
      destruct H2 as [H2|[H2|H2]]; [left; exact H2| |right; right; exact H2].
      destruct H as [H|[H|H]]; [left; exact H| |].
      * right; left. rewrite app_length in H2.
        rewrite Nat.add_mod in H2 by lia. rewrite H in H2. cbn [Nat.add] in H2.
        rewrite Nat.mod_mod in H2 by lia. exact H2.
      * right; right. apply app_eq_nil in H. apply H.
    + exists (d2 ++ o2). split; [rewrite HD, <- app_assoc; reflexivity|]. apply sfx_next. exact H2.
  - inversion H2 as [? a2 r2 ? Hc|? ? ? ? ? ? ? o3 H3]; subst.
    + exfalso. pose proof (sfx_rest_le _ _ _ _ _ _ _ H) as L. rewrite wire_cons in Hle.
      rewrite !app_length in *. unfold header_bytes in Hle. cbn [length] in Hle. lia.
    + destruct (IH _ _ _ _ H3 Hle) as (o & -> & Ho). exists o. split; [apply app_assoc|exact Ho].
Qed.

Lemma sfx_good : forall key d fs key' d' fs' out, sfx key d fs key' d' fs' out -> Forall good fs -> Forall good fs'.
Proof.
  intros key d fs key' d' fs' out H. induction H; intros Hg; [exact Hg|].
  inversion Hg; subst. auto.
Qed.

Definition got_all (outs : list (list Z)) : list nread := map Got outs.

Lemma feed_sfx : forall hs eagain size fs, 4096 <= size -> Forall good fs ->
  forall segs rest key d fs1 st o1,
  Forall (fun s => s <> [] /\ zlen s <= 4096) segs ->
  sfx None [] fs key d fs1 o1 -> holds st [] -> pending st key d -> opc st d fs1 ->
  concat segs ++ rest = enc key d ++ wire fs1 ->
  (forall x y, segs = x ++ y -> exists k2 d2 fs2 o2, sfx None [] fs k2 d2 fs2 o2 /\
      zlen (enc k2 d2 ++ wire fs2) = zlen (enc key d ++ wire fs1) - zlen (concat x)) ->
  exists st' outs, feed hs eagain st size segs = Ok (st', got_all outs) /\
    closed st' = false /\
    exists k2 d2 fs2 o2, sfx None [] fs k2 d2 fs2 o2 /\
      zlen (enc k2 d2 ++ wire fs2) = zlen (enc key d ++ wire fs1) - zlen (concat segs) /\
      o2 = o1 ++ concat outs.
Proof.
  intros hs eagain size fs Hsz Hg segs. induction segs as [|s segs IH];
    intros rest key d fs1 st o1 Hs H1 Hh Hp Ho Hw Hcut.
  - exists st, []. split; [reflexivity|]. split; [apply Hh|].
    exists key, d, fs1, o1. split; [exact H1|]. split; [unfold zlen; cbn [concat length]; lia|].
    cbn. rewrite app_nil_r. reflexivity.
  - inversion Hs as [|? ? [Hn H4] Hs']; subst.
    destruct (Hcut [s] segs eq_refl) as (k2 & d2 & fs2 & o2 & H2 & Hz2).
    cbn [concat] in Hz2. rewrite app_nil_r in Hz2.
    destruct (sfx_split _ _ _ _ _ _ _ H1 _ _ _ _ H2) as (o & -> & Hstep).
    { unfold zlen in Hz2. lia. }
    destruct (sfx_seg _ _ _ _ _ _ _ Hstep) as [seg Eseg].
    assert (seg = s).
    { cbn [concat] in Hw. rewrite Eseg, <- app_assoc in Hw.
      assert (L : length seg = length s).
      { assert (zlen (enc key d ++ wire fs1) = zlen seg + zlen (enc k2 d2 ++ wire fs2))
          by (rewrite Eseg, zlen_app; reflexivity). unfold zlen in *. lia. }
      rewrite <- (firstn_app_eq _ _ seg (enc k2 d2 ++ wire fs2) L), <- Hw.
      apply firstn_app_exact. }
    subst seg.
    destruct (read_segment hs eagain st key d fs1 k2 d2 fs2 o s size) as (st1 & E & Hh1 & Hp1 & Ho1); try assumption.
    { eapply sfx_good; eassumption. }
    { lia. }
    cbn [feed]. rewrite E. cbn [bind].
    assert (Hw2 : concat segs ++ rest = enc k2 d2 ++ wire fs2).
    { cbn [concat] in Hw. rewrite Eseg, <- app_assoc in Hw. apply app_inv_head in Hw. exact Hw. }
    destruct (IH rest k2 d2 fs2 st1 (o1 ++ o)) as (st' & outs & E' & Hc & k3 & d3 & fs3 & o3 & H3 & Hz3 & ->);
      try assumption.
    { left; exact Ho1. }
    { intros x y ->. destruct (Hcut (s :: x) y eq_refl) as (k3 & d3 & fs3 & o3 & H3 & Hz3).
      exists k3, d3, fs3, o3. split; [exact H3|]. rewrite Hz3, Hz2. cbn [concat]. rewrite (zlen_app s). lia. }
    rewrite E'. cbn [bind]. exists st', (o :: outs). split; [reflexivity|]. split; [exact Hc|].
    exists k3, d3, fs3, ((o1 ++ o) ++ concat outs). split; [exact H3|].
    split; [|cbn [concat]; rewrite app_assoc; reflexivity].
    rewrite Hz3, Hz2. cbn [concat]. rewrite (zlen_app s). lia.
Qed.

Lemma sfx_unique_out : forall k d fs k1 d1 fs1 o1 k2 d2 fs2 o2,
  sfx k d fs k1 d1 fs1 o1 -> sfx k d fs k2 d2 fs2 o2 ->
  zlen (enc k1 d1 ++ wire fs1) = zlen (enc k2 d2 ++ wire fs2) -> 
  o1 = o2.
Proof.
  intros k d fs k1 d1 fs1 o1 k2 d2 fs2 o2 H1 H2 Hz.
  destruct (sfx_split _ _ _ _ _ _ _ H1 _ _ _ _ H2) as (o & -> & Ho); [unfold zlen in *; lia|].
  destruct (sfx_split _ _ _ _ _ _ _ H2 _ _ _ _ H1) as (o' & E & _); [unfold zlen in *; lia|].
  rewrite <- app_assoc in E. rewrite <- (app_nil_r o1) in E at 1. apply app_inv_head in E.
  symmetry in E. apply app_eq_nil in E. destruct E as [-> _]. rewrite app_nil_r. reflexivity.
Qed.

Lemma ready0_holds : holds ws_ready0 [] /\ pending ws_ready0 None [].
Proof.
  split.
  - split; [reflexivity|]. split; [exists (repeat 0 4096); reflexivity|].
    split; [apply repeat_length|split; reflexivity].
  - split; [reflexivity|intros C; contradiction].
Qed.

Lemma feed_cut : forall hs eagain size fs segs rest before,
  4096 <= size -> binary_stream fs ->
  Forall (fun s => s <> [] /\ zlen s <= 4096) segs ->
  concat segs ++ rest = wire fs ->
  (forall x y, segs = x ++ y -> exists b, cut_point fs (zlen (concat x)) b) ->
  cut_point fs (zlen (concat segs)) before ->
  exists st' outs, feed hs eagain ws_ready0 size segs = Ok (st', map Got outs) /\
    closed st' = false /\ concat outs = before.
Proof.
  intros hs eagain size fs segs rest before Hsz (Hv & Hop & Hf) Hs Hw Hcut Hbefore.
  destruct ready0_holds as [Hh Hp].
  assert (Hg : Forall good fs).
  { rewrite Forall_forall in *. intros f Hin. split; [auto|]. apply Hop. exact Hin. }
  destruct (feed_sfx hs eagain size fs Hsz Hg segs rest None [] fs ws_ready0 [])
    as (st' & outs & E & Hc & k2 & d2 & fs2 & o2 & H2 & Hz & ->); try assumption.
  - rewrite <- (app_nil_r []) at 1. apply sfx_here. left; reflexivity.
  - right. split; [reflexivity|exact Hf].
  - intros x y Exy. destruct (Hcut x y Exy) as [b Hb]. apply cut_sfx in Hb.
    destruct Hb as (k & d & fs' & Hb & Hz). exists k, d, fs', b. split; [exact Hb|exact Hz].
  - exists st', outs. split; [exact E|]. split; [exact Hc|].
    destruct (cut_sfx _ _ _ Hbefore) as (k & d & fs' & Hb & Hzb).
    cbn [app] in H2. apply (sfx_unique_out _ _ _ _ _ _ _ _ _ _ _ H2 Hb). rewrite Hz, Hzb. reflexivity.
Qed.

(** ** Safety on arbitrary input *)
Definition inv (st : ws_stream) : Prop :=
  length (rb st) = 4096%nat /\ 0 <= ri st <= 4096 /\ all_bytes (rb st) /\
  0 <= payload_length (hdr st).

Definition safe_from (st : ws_stream) (size : Z) (r : res (ws_stream * nread)) : Prop :=
  match r with
  | Fault e => e = OobRead
  | Ok (st', Neg) => inv st'
  | Ok (st', Got l) => inv st' /\ zlen l <= size
  end.

Lemma get_bytes : forall b o n l, all_bytes b -> get b o n = Ok l -> all_bytes l /\ zlen l = n.
Proof.
  intros b o n l Hb H. unfold get in H.
  destruct ((0 <=? o) && (0 <=? n) && (o + n <=? Z.of_nat (length b))) eqn:E; [|discriminate].
  inversion H; subst. split.
  - apply Forall_firstn, Forall_skipn. exact Hb.
  - unfold zlen. rewrite firstn_length, skipn_length. lia.
Qed.

Lemma get_ok : forall b o n, 0 <= o -> 0 <= n -> o + n <= zlen b ->
  exists l, get b o n = Ok l.
Proof.
  intros b o n H1 H2 H3. unfold get, zlen in *.
  replace (_ && _ && _) with true by lia. eexists. reflexivity.
Qed.

Lemma advance_safe : forall st size offset, inv st -> 0 <= size -> 0 <= offset <= ri st ->
  exists st', advance_read_buffer st size offset = Ok st' /\ inv st' /\
    ri st' = ri st - offset - Z.min (Z.min size (ri st - offset)) (payload_length (hdr st)) /\
    closed st' = closed st /\ ready st' = ready st /\ current_opcode st' = current_opcode st.
Proof.
  intros st size offset (Hl & Hri & Hb & Hp) Hs Ho. unfold advance_read_buffer.
  rewrite (Z.mod_small (ri st - offset)) by lia.
  set (pl := Z.min (Z.min size (ri st - offset)) (payload_length (hdr st))).
  assert (Hpl : 0 <= pl <= ri st - offset /\ pl <= payload_length (hdr st)) by lia.
  rewrite Z.mod_small by lia. unfold move_down.
  destruct (get_ok (rb st) (offset + pl) (ri st - (offset + pl))) as [l El]; [lia|lia|unfold zlen; lia|].
  rewrite El. cbn [bind]. destruct (get_bytes _ _ _ _ Hb El) as [Hlb Hll].
  rewrite put_ok by (unfold zlen in *; lia). cbn [bind Z.to_nat firstn app Nat.add].
  eexists. split; [reflexivity|].
  cbn [ri closed ready current_opcode]. split; [|repeat split; lia].
  split; cbn [rb]; [rewrite app_length, skipn_length; unfold zlen in *; lia|].
  split; [cbn [ri]; lia|]. split.
  - apply Forall_app. split; [exact Hlb|apply Forall_skipn; exact Hb].
  - cbn [hdr set_plen payload_length]. lia.
Qed.

Lemma payload_safe : forall st size offset, inv st -> 0 <= size -> 0 <= offset <= ri st ->
  safe_from st size (process_payload st size offset) /\
  (forall st' l, process_payload st size offset = Ok (st', Got l) -> l <> [] -> ri st' < ri st).
Proof.
  intros st size offset Hi Hs Ho. pose proof Hi as (Hl & Hri & Hb & Hp).
  assert (Hskip : forall r, r = (let* st' := advance_read_buffer st SIZE_MAX offset in Ok (st', Got [])) ->
    safe_from st size r /\ (forall st' l, r = Ok (st', Got l) -> l <> [] -> ri st' < ri st)).
  { intros r ->. destruct (advance_safe st SIZE_MAX offset Hi ltac:(unfold SIZE_MAX; lia) Ho)
      as (st' & E & Hi' & _). rewrite E. cbn. split; [split; [exact Hi'|unfold zlen; cbn; lia]|].
    intros ? ? H Hn. inversion H; subst. contradiction. }
  unfold process_payload.
  destruct (current_opcode st =? WS_OPCODE_CONT).
  { split; [split; [exact Hi|unfold zlen; cbn; lia]|]. intros ? ? H Hn. inversion H; subst. contradiction. }
  destruct (current_opcode st =? WS_OPCODE_TEXT); [apply Hskip; reflexivity|].
  destruct (current_opcode st =? WS_OPCODE_BIN).
  { unfold copy_payload. rewrite (Z.mod_small (ri st - offset)) by lia.
    set (pl := Z.min (Z.min size (ri st - offset)) (payload_length (hdr st))).
    destruct (get_ok (skipn (Z.to_nat offset) (rb st)) 0 pl) as [p Ep]; [lia|lia|unfold zlen; rewrite skipn_length; lia|].
    destruct (get_bytes _ _ _ _ (Forall_skipn _ _ _ _ Hb) Ep) as [_ Hpl].
    unfold ws_copy_payload. rewrite Ep. cbn [bind].
    destruct (advance_safe st size offset Hi Hs Ho) as (st' & E & Hi' & Er & _). fold pl in Er.
    rewrite E. 
    assert (Hcase : forall out, length out = length p ->
       let r := Ok (st', Got out) in
       safe_from st size r /\ (forall st'' l, r = Ok (st'', Got l) -> l <> [] -> ri st'' < ri st)).
    { intros out Hout r. unfold r. split; [split; [exact Hi'|unfold zlen in *; lia]|].
      intros st'' l H Hn. inversion H; subst.
      assert (0 < length l)%nat by (destruct l; [contradiction|cbn; lia]). unfold zlen in *. lia. }
    destruct (mask (hdr st)); cbn [bind]; apply Hcase; [apply xor_loop_length|reflexivity]. }
  destruct (current_opcode st =? WS_OPCODE_CLOSE).
  { split; [split; [exact Hi|unfold zlen; cbn; lia]|]. intros ? ? H Hn. inversion H; subst. contradiction. }
  destruct (current_opcode st =? WS_OPCODE_PING).
  { unfold process_ping. 
    assert (Hst1 : exists st1, ping_head st offset = Ok st1 /\
        ri st1 = ri st /\ rb st1 = rb st /\ hdr st1 = hdr st).
    { unfold ping_head. destruct (0 <? offset); [|exists st; repeat split; reflexivity].
      unfold ws_write_frame_header. cbn [fin opcode mask payload_length].
      destruct (payload_length (hdr st) <=? 125); [|destruct (payload_length (hdr st) <=? 65535)];
        cbn; eexists; (split; [reflexivity|]); repeat split; reflexivity. }
    destruct Hst1 as (st1 & E1 & Er1 & Erb1 & Eh1). rewrite E1. cbn [bind].
    rewrite Er1, Erb1, Eh1.
    set (pl := Z.min (ri st) (payload_length (hdr st))).
    destruct (get (rb st) offset pl) as [b|e] eqn:Eg.
    2:{ cbn [bind]. unfold get in Eg. destruct (_ && _ && _); [discriminate|]. inversion Eg; subst.
        split; [reflexivity|]. discriminate. }
    cbn [bind].
    assert (Hi1 : inv (tcp_send st1 b)).
    { unfold inv, tcp_send. cbn [rb ri hdr]. rewrite Er1, Erb1, Eh1. exact Hi. }
    destruct (advance_safe (tcp_send st1 b) pl offset Hi1) as (st' & E & Hi' & _); [lia|cbn [tcp_send ri]; lia|].
    rewrite E. cbn [bind]. split; [split; [exact Hi'|unfold zlen; cbn; lia]|].
    intros ? ? H Hn. inversion H; subst. contradiction. }
  destruct (current_opcode st =? WS_OPCODE_PONG); [apply Hskip; reflexivity|].
  split; [exact Hi|]. discriminate.
Qed.

Lemma parse_false_plen : forall h buf h', all_bytes buf -> 0 <= payload_length h ->
  ws_parse_frame_header h buf = (false, h') -> 0 <= payload_length h'.
Proof.
  intros h buf h' Hb Hp H. destruct buf as [|b0 [|b1 rest]]; try (inversion H; subst; exact Hp).
  unfold ws_parse_frame_header in H.
  inversion Hb as [|? ? _ Hb']; subst. inversion Hb' as [|? ? Hb1 Hrest]; subst.
  assert (Hland : 0 <= Z.land b1 127) by (apply Z.land_nonneg; lia).
  pose proof (unbe_bound (firstn 2 rest) (Forall_firstn _ _ _ _ Hrest)).
  pose proof (unbe_bound (firstn 8 rest) (Forall_firstn _ _ _ _ Hrest)).
  set (u2 := unbe (firstn 2 rest)) in *. set (u8 := unbe (firstn 8 rest)) in *.
  set (l7 := Z.land b1 127) in *. clearbody u2 u8 l7. cbv zeta in H.
  repeat match type of H with (if ?c then _ else _) = _ => destruct c end;
    inversion H; subst; cbn [payload_length]; lia.
Qed.

Lemma parse_true_facts : forall h buf h', all_bytes buf ->
  ws_parse_frame_header h buf = (true, h') ->
  0 <= payload_length h' /\ 0 < header_length h' <= zlen buf.
Proof.
  intros h buf h' Hb H. destruct (parse_sound _ _ _ Hb H) as (f & rest & Hv & E & ->).
  destruct Hv as (_ & _ & Hf & _). cbn [parsed payload_length header_length].
  split; [destruct (h_form f); cbn in Hf; lia|]. rewrite E, zlen_app.
  pose proof (zlen_nonneg rest). unfold zlen, header_bytes. cbn [length]. lia.
Qed.

Lemma frame_safe : forall st size, inv st -> 0 <= size ->
  safe_from st size (read_frame st size) /\
  (forall st' l, read_frame st size = Ok (st', Got l) -> l <> [] -> ri st' < ri st).
Proof.
  intros st size Hi Hs. pose proof Hi as (Hl & Hri & Hb & Hp). unfold read_frame.
  destruct (0 <? payload_length (hdr st)).
  - apply payload_safe; [exact Hi|exact Hs|lia].
  - destruct (ws_parse_frame_header (hdr st) (firstn (Z.to_nat (ri st)) (rb st))) as [ok h] eqn:E.
    destruct ok.
    + apply parse_true_facts in E; [|apply Forall_firstn; exact Hb].
      unfold zlen in E. rewrite firstn_length in E.
      match goal with |- context [process_payload ?s _ _] => set (st1 := s) end.
      assert (Hi1 : inv st1) by (split; [exact Hl|split; [exact Hri|split; [exact Hb|apply E]]]).
      apply (payload_safe st1 size (header_length h) Hi1 Hs). cbn [st1 set_hdr ri]. lia.
    + apply parse_false_plen in E; [|apply Forall_firstn; exact Hb|exact Hp].
      split; [split; [|unfold zlen; cbn; lia]|].
      * split; [exact Hl|split; [exact Hri|split; [exact Hb|exact E]]].
      * intros ? ? H Hn. inversion H; subst. contradiction.
Qed.

Lemma loop_safe : forall fuel eagain st size total limit,
  inv st -> 0 <= size -> (Z.to_nat (ri st) < fuel)%nat -> zlen total + size <= limit ->
  safe_from st limit (read_ready_loop fuel eagain st size total).
Proof.
  intros fuel. induction fuel as [|fuel IH]; intros eagain st size total limit Hi Hs Hf Hlim; [lia|].
  cbn [read_ready_loop]. destruct (frame_safe st size Hi Hs) as [H1 H2].
  destruct (read_frame st size) as [[st' r]|e] eqn:E; cbn [bind].
  2:{ exact H1. }
  destruct r as [l|].
  - destruct H1 as [Hi' Hl']. destruct l as [|x l].
    + cbn. split; [exact Hi'|lia].
    + specialize (H2 st' (x :: l) eq_refl ltac:(discriminate)).
      apply IH.
      * exact Hi'.
      * lia.
      * destruct Hi' as (_ & ? & _). lia.
      * rewrite zlen_app. lia.
  - destruct eagain; cbn; [split; [exact H1|lia]|exact H1].
Qed.

Lemma ready_safe : forall eagain st size, inv st -> 0 <= size ->
  safe_from st size (read_ready eagain st size).
Proof.
  intros eagain st size Hi Hs. apply loop_safe; [exact Hi|exact Hs|lia|unfold zlen; cbn; lia].
Qed.

(** A ping frame that is completely in the buffer. *)
Lemma ping_complete : forall st size f key d junk,
  f = FH true 0 9 key (minimal_form (zlen d)) (zlen d) -> valid_header f ->
  hdr st = hdr0 -> ready st = true -> closed st = false ->
  rb st = header_bytes f ++ enc key d ++ junk -> length (rb st) = 4096%nat ->
  ri st = zlen (header_bytes f) + zlen d ->
  exists st', read_ready false st size = Ok (st', Got []) /\
    sent st' = sent st ++ [header_bytes (FH true 0 10 None (minimal_form (zlen d)) (zlen d)); enc key d] /\
    holds st' [] /\ payload_length (hdr st') = 0.
Proof.
  intros st size f key d junk Hf Hv Hh Hr Hc Hrb Hl Hri.
  assert (Hed : zlen (enc key d) = zlen d) by (unfold zlen; rewrite enc_length; reflexivity).
  assert (Htot : zlen (header_bytes f) + zlen d + zlen junk = 4096).
  { rewrite Hrb, !app_length in Hl. unfold zlen in *. lia. }
  pose proof (zlen_nonneg (header_bytes f)). pose proof (zlen_nonneg d). pose proof (zlen_nonneg junk).
  assert (Hhl : 2 <= zlen (header_bytes f)) by (unfold zlen, header_bytes; cbn [length]; lia).
  unfold read_ready. cbn [read_ready_loop]. unfold read_frame. rewrite Hh. cbn [payload_length hdr0 Z.ltb Z.compare].
  assert (Hfirst : firstn (Z.to_nat (ri st)) (rb st) = header_bytes f ++ enc key d).
  { rewrite Hrb, Hri, app_assoc. apply firstn_app_eq. rewrite app_length, enc_length. unfold zlen. lia. }
  rewrite Hfirst. rewrite parse_complete by exact Hv.
  replace (opcode (parsed hdr0 f)) with 9 by (subst f; reflexivity).
  change (9 =? WS_OPCODE_CONT) with false. cbn iota.
  set (st1 := set_hdr st (parsed hdr0 f) 9).
  change (header_length (parsed hdr0 f)) with (zlen (header_bytes f)).
  unfold process_payload. change (current_opcode st1) with 9. cbn [Z.eqb WS_OPCODE_CONT WS_OPCODE_TEXT WS_OPCODE_BIN WS_OPCODE_CLOSE WS_OPCODE_PING Pos.eqb].
  unfold process_ping, ping_head.
  replace (0 <? zlen (header_bytes f)) with true by lia.
  assert (Hpl1 : payload_length (hdr st1) = zlen d) by (subst f; reflexivity).
  rewrite Hpl1.
  set (reply := mk_hdr true WS_OPCODE_PONG false (zlen d) [0;0;0;0] 0).
  destruct (write_unmasked (repeat 0 14) reply eq_refl) as (tl & Ew & _).
  { cbn. unfold WS_OPCODE_PONG. lia. }
  { cbn. lia. }
  { unfold zlen. rewrite repeat_length. lia. }
  rewrite Ew. cbn [bind]. rewrite get_prefix. cbn [bind].
  change (server_header reply) with (FH true 0 10 None (minimal_form (zlen d)) (zlen d)).
  set (ph := header_bytes _).
  cbn [tcp_send ri hdr rb]. rewrite Hpl1.
  change (ri st1) with (ri st). change (rb st1) with (rb st).
  replace (Z.min (ri st) (zlen d)) with (zlen d) by lia.
  assert (Hg : get (rb st) (zlen (header_bytes f)) (zlen d) = Ok (enc key d)).
  { rewrite Hrb, <- Hed. apply get_mid. }
  rewrite Hg. cbn [bind]. unfold advance_read_buffer. cbn [tcp_send ri hdr rb current_opcode sent ready corked closed].
  change (ri st1) with (ri st). change (rb st1) with (rb st). change (closed st1) with (closed st).
  rewrite Hpl1.
  rewrite (Z.mod_small (ri st - zlen (header_bytes f))) by lia.
  replace (Z.min (Z.min (zlen d) (ri st - zlen (header_bytes f))) (zlen d)) with (zlen d) by lia.
  rewrite Z.mod_small by lia.
  replace (ri st - (zlen (header_bytes f) + zlen d)) with 0 by lia.
  unfold move_down.
  destruct (get_ok (rb st) (zlen (header_bytes f) + zlen d) 0) as [l El]; [lia|lia|unfold zlen in *; lia|].
  rewrite El. cbn [bind].
  assert (l = []).
  { unfold get in El. destruct (_ && _ && _); [|discriminate]. inversion El; reflexivity. }
  subst l. rewrite put_ok by (unfold zlen; cbn [length]; lia). cbn [bind Z.to_nat firstn app Nat.add].
  eexists. split; [reflexivity|]. cbn [sent]. rewrite Hc. split.
  - rewrite <- app_assoc. reflexivity.
  - split.
    + split; [reflexivity|]. split; [eexists; reflexivity|]. cbn [rb closed ready length skipn].
      repeat split; assumption.
    + cbn [hdr set_plen payload_length]. lia.
Qed.

Lemma get_zeros_prefix : forall n l r, n = zlen l -> get (l ++ r) 0 n = Ok l.
Proof. intros n l r ->. apply get_prefix. Qed.

(** Sent data. *)
Lemma ws_send_frames : forall st payload, closed st = false -> zlen payload < 2 ^ 64 ->
  ws_send st payload = Ok (tcp_send (tcp_send st
    (header_bytes (FH true 0 2 None (minimal_form (zlen payload)) (zlen payload)))) payload).
Proof.
  intros st payload Hc Hp. unfold ws_send.
  set (h := mk_hdr true WS_OPCODE_BIN false (zlen payload) [0;0;0;0] 0).
  destruct (write_unmasked (repeat 0 14) h eq_refl) as (tl & Ew & _).
  { cbn. unfold WS_OPCODE_BIN. lia. }
  { cbn. pose proof (zlen_nonneg payload). lia. }
  { unfold zlen. rewrite repeat_length. lia. }
  rewrite Ew. cbn [bind]. rewrite get_prefix. cbn [bind]. reflexivity.
Qed.

Lemma ws_chained_frames : forall buf, zlen buf < 2 ^ 64 ->
  ws_chained_exec buf = Ok (header_bytes (FH true 0 2 None (minimal_form (zlen buf)) (zlen buf)) ++ buf).
Proof.
  intros buf Hp. unfold ws_chained_exec.
  set (h := mk_hdr true WS_OPCODE_BIN false (zlen buf) [0;0;0;0] 0).
  destruct (write_unmasked (repeat 0 (14 + length buf + 1)) h eq_refl) as (tl & Ew & _).
  { cbn. unfold WS_OPCODE_BIN. lia. }
  { cbn. pose proof (zlen_nonneg buf). lia. }
  { unfold zlen. rewrite repeat_length. lia. }
  rewrite Ew. cbn [bind]. rewrite get_prefix. cbn [bind]. reflexivity.
Qed.
