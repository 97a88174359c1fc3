(** Theorems about the application's clipboard text. *)
From Verif Require Import Common CommonProofs Msg_Model Upd_Props Clip_Model Clip_Spec Clip_Proofs.

(** A client that asked for [e] and can receive and be notified of text. *)
Definition with_clipboard : client :=
  set_max_text 100 (set_caps (CB_NOTIFY + CB_PROVIDE + CB_TEXT) (set_encs [ENC_EXT_CLIPBOARD] fresh)).
Definition tagged (l : list Z) : option (list Z) := Some (120 :: l).

(** * C89: the text goes only to clients that have finished the handshake. *)

(** Whatever the state of the connection, authenticated or not, the text is written to it. *)
Theorem C89_every_connection_gets_the_text :
  forall (compress : list Z -> option (list Z)) (l l' : list peer) (text : list Z) (k : nat) (p : peer),
    zlen text + 5 < 2 ^ 32 -> nvnc_send_cut_text compress l text = Ok l' -> nth_error l k = Some p ->
    closed (p_client p) = false -> has_encoding (p_client p) ENC_EXT_CLIPBOARD = false ->
    exists p', nth_error l' k = Some p' /\ p_ready p' = p_ready p /\
      read_server_cut_text (written (log (p_client p)) (log (p_client p'))) = Some text.
Proof.
  intros compress l l' text k p L R N C H. destruct (cut_text_nth compress l text L) as (l2 & R2 & _ & A).
  rewrite R in R2. apply Ok_inj in R2. subst l2. destruct (A k p N) as (p' & N' & Q & O).
  exists p'. split; [exact N'|]. split; [exact Q|].
  apply (offer_plain text (set_provide (message compress l text) (p_client p)) (p_client p')); [lia|exact C|exact H|exact O].
Qed.
Print Assumptions C89_every_connection_gets_the_text.

(** Two clients, the second of which has not said a word yet. *)
Example C89_case : exists l',
  nvnc_send_cut_text tagged [mk_peer true fresh; mk_peer false fresh] [104; 105] = Ok l' /\
  map (fun p => written (log fresh) (log (p_client p))) l' =
  [[3; 0; 0; 0; 0; 0; 0; 2; 104; 105]; [3; 0; 0; 0; 0; 0; 0; 2; 104; 105]].
Proof. eexists. split; reflexivity. Qed.

Theorem C89_only_after_the_handshake_refuted :
  exists (l l' : list peer) (text : list Z) (p p' : peer),
    nvnc_send_cut_text tagged l text = Ok l' /\ nth_error l 1 = Some p /\ nth_error l' 1 = Some p' /\
    p_ready p = false /\ text <> [] /\
    read_server_cut_text (written (log (p_client p)) (log (p_client p'))) = Some text.
Proof.
  exists [mk_peer true fresh; mk_peer false fresh]. eexists. exists [104; 105]. eexists. eexists.
  split; [reflexivity|]. split; [reflexivity|]. split; [reflexivity|].
  split; [reflexivity|]. split; [discriminate|]. vm_compute. reflexivity.
Qed.
Print Assumptions C89_only_after_the_handshake_refuted.

(** * C90: every client gets the text in a form it can read. *)

(** Nothing is sent on a closed connection.  A client without the extended clipboard gets
    one ServerCutText with the text.  One with it gets, for a text that is not empty and
    that zlib can compress, the text if it takes provided texts of this size, a
    notification if it takes those, and nothing otherwise.  (Partial: a client that
    insists on the zero byte does not accept the text; an empty text is not announced.) *)
Theorem C90_readable_text_partial :
  forall (compress : list Z -> option (list Z)) (l : list peer) (text : list Z),
    zlen text + 5 < 2 ^ 32 ->
    (forall z, compress (be 4 (zlen text) ++ text ++ [0]) = Some z -> zlen z < 2 ^ 31 - 4) ->
    exists l', nvnc_send_cut_text compress l text = Ok l' /\ length l' = length l /\
    forall k p, nth_error l k = Some p -> exists p', nth_error l' k = Some p' /\ p_ready p' = p_ready p /\
      let c := p_client p in
      let sent := written (log c) (log (p_client p')) in
      (closed c = true -> sent = []) /\
      (closed c = false -> has_encoding c ENC_EXT_CLIPBOARD = false -> read_server_cut_text sent = Some text) /\
      (closed c = false -> has_encoding c ENC_EXT_CLIPBOARD = true -> text <> [] ->
       forall z, compress (be 4 (zlen text) ++ text ++ [0]) = Some z ->
         read_text_leniently (be 4 (zlen text) ++ text ++ [0]) = Some text /\
         if flag (caps c) CB_PROVIDE && (zlen text <=? max_text c)
         then read_ext_clipboard sent = Some (text_provide, z)
         else if flag (caps c) CB_NOTIFY then read_ext_clipboard sent = Some (text_notify, [])
         else sent = []) /\
      (has_encoding c ENC_EXT_CLIPBOARD = true ->
       text = [] \/ compress (be 4 (zlen text) ++ text ++ [0]) = None -> sent = []).
Proof.
  intros compress l text L B. destruct (cut_text_nth compress l text L) as (l' & R & LL & A).
  exists l'. split; [exact R|]. split; [exact LL|]. intros k p N.
  destruct (A k p N) as (p' & N' & Q & O). exists p'. split; [exact N'|]. split; [exact Q|].
  cbn zeta. set (c := p_client p) in *. set (c1 := set_provide (message compress l text) c) in *.
  split; [|split; [|split]].
  - intros C. rewrite (offer_none text c1 _ (or_introl C) O). apply written_same.
  - intros C H. apply (offer_plain text c1 (p_client p')); [lia|exact C|exact H|exact O].
  - intros C H NE z Z. split; [apply lenient_reads; lia|].
    assert (M : provide c1 = Some z).
    { change (provide c1) with (message compress l text). unfold message.
      rewrite (some_ext l k p N H). destruct (zlen text =? 0) eqn:E; [|exact Z].
      destruct text; [contradiction|]. unfold zlen in E. cbn [length] in E. lia. }
    destruct (offer_ext text c1 (p_client p') z C H M (B z Z) O) as (_ & _ & _ & _ & _ & K). exact K.
  - intros H D. assert (M : provide c1 = None).
    { change (provide c1) with (message compress l text). unfold message.
      rewrite (some_ext l k p N H). destruct D as [->|D]; [reflexivity|].
      rewrite D. destruct (zlen text =? 0); reflexivity. }
    rewrite (offer_none text c1 _ (or_intror (conj H M)) O). apply written_same.
Qed.
Print Assumptions C90_readable_text_partial.

Example C90_case : exists l',
  nvnc_send_cut_text tagged
    [mk_peer true fresh; mk_peer true with_clipboard; mk_peer true (set_max_text 1 with_clipboard);
     mk_peer true (set_closed true fresh)] [104; 105] = Ok l' /\
  map (fun p => written (log fresh) (log (p_client p))) l' =
  [[3; 0; 0; 0; 0; 0; 0; 2; 104; 105];
   [3; 0; 0; 0; 255; 255; 255; 244; 16; 0; 0; 1; 120; 0; 0; 0; 2; 104; 105; 0];
   [3; 0; 0; 0; 255; 255; 255; 252; 8; 0; 0; 1]; []].
Proof. eexists. split; reflexivity. Qed.

(** A client that has only named its encodings, and not yet its clipboard's capabilities,
    is taken to want texts of up to 20 MiB. *)
Theorem C90_before_capabilities_are_known :
  forall (compress : list Z -> option (list Z)) E f d seq m (text z : list Z),
    let c := fst (on_set_encodings E (ready f d seq) m) in
    has_encoding c ENC_EXT_CLIPBOARD = true -> text <> [] -> zlen text <= 20 * 2 ^ 20 ->
    compress (be 4 (zlen text) ++ text ++ [0]) = Some z -> zlen z < 2 ^ 31 - 4 ->
    exists p', nvnc_send_cut_text compress [mk_peer true c] text = Ok [p'] /\
      read_ext_clipboard (written (log c) (log (p_client p'))) = Some (text_provide, z).
Proof.
  intros compress E f d seq m text z c H NE L Z B.
  assert (K : closed c = false /\ caps c = caps (ready f d seq) /\ max_text c = 20971520).
  { subst c. clear. unfold on_set_encodings, send_ping, send_clipboard_caps, send_fence.
    repeat match goal with |- context [if ?b then _ else _] => destruct b | |- context [let '(_, _) := ?x in _] => destruct x end;
    repeat split; reflexivity. }
  destruct K as (K1 & K2 & K3). clearbody c.
  destruct (C90_readable_text_partial compress [mk_peer true c] text) as (l' & R & LL & A); [lia| |].
  { intros z' Z'. rewrite Z in Z'. injection Z' as <-. exact B. }
  destruct (A 0%nat (mk_peer true c) eq_refl) as (p' & N & _ & _ & _ & T & _).
  destruct l' as [|q [|]]; try discriminate. cbn in N. injection N as ->. exists p'. split; [exact R|].
  destruct (T K1 H NE z Z) as [_ T']. cbn [p_client] in T'. rewrite K2, K3 in T'. change (flag (caps (ready f d seq)) CB_PROVIDE) with true in T'.
  replace (zlen text <=? 20971520) with true in T' by lia. exact T'.
Qed.
Print Assumptions C90_before_capabilities_are_known.
Example C90_before_ex : has_encoding (fst (on_set_encodings (calm false (fun _ => None)) (ready rgb small 0) [2; 0; 0; 1; 192; 161; 229; 206])) ENC_EXT_CLIPBOARD = true.
Proof. reflexivity. Qed.

(** A client that was only notified, or that asks again, gets the text on request. *)
Theorem C90_text_on_request :
  forall (compress : list Z -> option (list Z)) (l l' : list peer) (text z : list Z) (k : nat) (p' : peer)
    (E : env) (rest : list Z),
    zlen text + 5 < 2 ^ 32 -> text <> [] ->
    compress (be 4 (zlen text) ++ text ++ [0]) = Some z -> zlen z < 2 ^ 31 - 4 ->
    nvnc_send_cut_text compress l text = Ok l' -> nth_error l' k = Some p' ->
    closed (p_client p') = false -> has_encoding (p_client p') ENC_EXT_CLIPBOARD = true ->
    flag (caps (p_client p')) CB_PROVIDE = true ->
    exists c', on_ext_clipboard E (p_client p')
        ([6; 0; 0; 0] ++ be 4 (2 ^ 32 - 4) ++ be 4 (2 ^ 25 + 1) ++ rest) = Ok (c', 12) /\
      read_ext_clipboard (written (log (p_client p')) (log c')) = Some (text_provide, z).
Proof.
  intros compress l l' text z k p' E rest L NE Z ZL R N' C H F.
  destruct (cut_text_nth compress l text L) as (l2 & R2 & LL & A).
  rewrite R in R2. apply Ok_inj in R2. subst l2.
  destruct (nth_error l k) as [p|] eqn:N.
  2:{ apply nth_error_None in N. assert (nth_error l' k <> None) as W by congruence.
      apply nth_error_Some in W. lia. }
  destruct (A k p N) as (p2 & N2 & Q & O). rewrite N' in N2. injection N2 as <-.
  destruct (offer_keeps _ _ _ O) as (E1 & E2 & E3).
  apply request_answered; [|exact ZL|exact F]. rewrite E1.
  change (provide (set_provide (message compress l text) (p_client p))) with (message compress l text). unfold message.
  rewrite (some_ext l k p N).
  - destruct (zlen text =? 0) eqn:W; [|exact Z].
    destruct text; [contradiction|]. unfold zlen in W. cbn [length] in W. lia.
  - rewrite <- (has_set_provide (message compress l text)). unfold has_encoding in H |- *. rewrite <- E2. exact H.
Qed.
Print Assumptions C90_text_on_request.

Example C90_request_case : exists c',
  on_ext_clipboard (calm false none) (set_provide (Some [120]) with_clipboard)
    ([6; 0; 0; 0] ++ be 4 (2 ^ 32 - 4) ++ be 4 (2 ^ 25 + 1)) = Ok (c', 12) /\
  written [] (log c') = [3; 0; 0; 0; 255; 255; 255; 251; 16; 0; 0; 1; 120].
Proof. eexists. split; reflexivity. Qed.

(** The size in front of the text does not count the zero byte behind it.  A client that
    checks for that byte refuses the text, and so does this library's own receiving side. *)
Theorem C90_strict_readers_refuse_it :
  forall (text : list Z), text <> [] -> zlen text < 2 ^ 32 -> last text 0 <> 0 ->
    read_text (be 4 (zlen text) ++ text ++ [0]) = None /\
    forall (E : env) (z : list Z) (st : option bool) (c : client),
      e_inflate E z = (be 4 (zlen text) ++ text ++ [0], st) -> clipboard_provide E z c = Ok c.
Proof.
  intros text NE L LA. split; [apply strict_refuses; assumption|].
  intros E z st c. apply own_receiver_drops; assumption.
Qed.
Print Assumptions C90_strict_readers_refuse_it.

Theorem C90_readable_text_refuted :
  (exists (l l' : list peer) (text z : list Z) (p p' : peer),
     nvnc_send_cut_text tagged l text = Ok l' /\ nth_error l 0 = Some p /\ nth_error l' 0 = Some p' /\
     read_ext_clipboard (written (log (p_client p)) (log (p_client p'))) = Some (text_provide, 120 :: z) /\
     read_text z = None) /\
  (exists (l l' : list peer) (p p' : peer),
     nvnc_send_cut_text tagged l [] = Ok l' /\ nth_error l 0 = Some p /\ nth_error l' 0 = Some p' /\
     closed (p_client p) = false /\ has_encoding (p_client p) ENC_EXT_CLIPBOARD = true /\
     flag (caps (p_client p)) CB_NOTIFY = true /\ written (log (p_client p)) (log (p_client p')) = []).
Proof.
  split.
  - exists [mk_peer true with_clipboard]. eexists. exists [104; 105]. exists [0; 0; 0; 2; 104; 105; 0]. eexists. eexists.
    split; [reflexivity|]. split; [reflexivity|]. split; [reflexivity|].
    split; vm_compute; reflexivity.
  - exists [mk_peer true with_clipboard]. eexists. eexists. eexists.
    split; [reflexivity|]. split; [reflexivity|]. split; [reflexivity|].
    split; [reflexivity|]. split; [reflexivity|]. split; reflexivity.
Qed.
Print Assumptions C90_readable_text_refuted.
