(** The messages of a connected client. *)
From Verif Require Import Common CommonProofs Pixels_Model Msg_Model Msg_Proofs Msg_Spec
  Msg2_Spec Msg3_Proofs Msg4_Proofs Upd_Spec Upd_Proofs Msg5_Proofs Msg6_Proofs Msg7_Proofs Upd_Props.

(** * C36: segmentation does not matter. *)

(** Let [ms] be any messages that are accepted one by one, leading from [c] to [c'],
    and [rest] the beginning of another one.  However the bytes arrive ([ks]), the
    server reads without fault, and once it has read all of them the client is in
    the state [c'] -- the same callbacks, the same bytes sent, in the same order --
    with [rest] in its buffer. *)
Theorem C36_segmentation_does_not_matter :
  forall (E : env) (fuel : nat) (c : client) (ms : list (list Z)) (c' : client)
         (rest : list Z) (ks : list nat),
    quiet c -> buf c = [] -> idx c = 0 ->
    Forall whole ms -> handled E c ms c' -> unfinished rest ->
    exists c2 s, feed E fuel c ks (concat ms ++ rest) = Ok (c2, s) /\
      (s = [] -> c2 = set_buf rest c').
Proof. exact feed_all. Qed.

Example C36_case : exists c', handled (calm false none) fresh
    [encodings [ENC_RAW]; ask_all; key_msg 1 0 0 97; cut_text_msg 0 0 0 (codes "hi")] c' /\
  exists c2, feed (calm false none) 3 fresh [3%nat; 9%nat; 20%nat; 1%nat; 5%nat; 100%nat]
    (concat [encodings [ENC_RAW]; ask_all; key_msg 1 0 0 97; cut_text_msg 0 0 0 (codes "hi")]
     ++ [5; 1]) = Ok (c2, []) /\ log c2 = log c' /\
  log c' = [FbReq 0 0 0 10 10; Encode [(0, 0, 10, 10)] 10 10 true; KeySym 97 true;
            CutText (codes "hi")].
Proof.
  eexists. split.
  - repeat (eapply h_cons; [vm_compute; reflexivity|]). apply h_nil.
  - eexists. split; [vm_compute; reflexivity|]. split; reflexivity.
Qed.

(** * C37: the parse position stays inside the received data. *)

(** What a handler consumes was received, for every message but a fence that is not
    complete yet.  (Partial: that fence.) *)
Theorem C37_consumes_what_was_received_partial :
  forall (E : env) (r : client -> res client) (c : client) (m : list Z) (c' : client) (n : Z),
    all_bytes m ->
    on_message E r c m = Ok (c', n) ->
    hd 0 m <> 248 \/ 9 + nth 8 m 0 <= zlen m ->
    0 <= n <= zlen m.
Proof. intros E r c m c' n B H K. eapply consumed; eauto. Qed.

Example C37_case : exists c', on_message (calm false none) (fun c => Ok c) fresh
    (ask_all ++ [1; 2; 3]) = Ok (c', 10).
Proof. eexists. vm_compute. reflexivity. Qed.

(** A valid fence message that arrives in two pieces.  If the first piece has eight
    of its nine header bytes, the ninth is read although it was not received; if all
    but the last byte of a fence response with a payload of 20 bytes is there, one
    byte more than received is consumed (src/server.c:1839-1862). *)
Theorem C37_parse_position_refuted :
  (exists whole_msg k, whole_msg = fence_msg 0 0 0 (2 ^ 31) [1; 2; 3] /\
     run (calm false none) 3 fresh [IRead (Some (firstn k whole_msg))] = Fault OobRead) /\
  (exists whole_msg k, whole_msg = fence_msg 0 0 0 1 (repeat 0 20) /\
     run (calm false none) 3 fresh [IRead (Some (firstn k whole_msg))] = Fault OobRead) /\
  (exists m c', on_message (calm false none) (fun c => Ok c) fresh m = Ok (c', zlen m + 1)).
Proof.
  split; [|split].
  - eexists. exists 8%nat. split; [reflexivity|]. vm_compute. reflexivity.
  - eexists. exists 28%nat. split; [reflexivity|]. vm_compute. reflexivity.
  - exists (firstn 28 (fence_msg 0 0 0 1 (repeat 0 20))), fresh. vm_compute. reflexivity.
Qed.

(** * C38: update requests are consumed. *)

(** Unless it is incremental and continuous updates are on, a request is consumed and
    the application is told.  (Partial: that case.) *)
Theorem C38_request_is_consumed_partial :
  forall (E : env) (fuel : nat) (c : client) (m : list Z) (c' : client) (n : Z),
    whole m -> hd 0 m = 3 ->
    cu_on c = false \/ nth 1 m 0 = 0 ->
    on_message E (fun c => receive E fuel c (e_more E (log c))) c m = Ok (c', n) ->
    n = 10 /\
    exists new, log c' = log c ++ new /\
      In (FbReq (nth 1 m 0) (u16 m 2) (u16 m 4) (u16 m 6) (u16 m 8)) new.
Proof.
  intros E fuel c m c' n W HD K H. eapply request_event; eauto.
  intros c1 c2. apply receive_mv.
Qed.

Example C38_case : exists c', on_message (calm false none) (fun c => receive (calm false none) 3 c None)
    fresh (update_request_msg 1 0 0 300 2) = Ok (c', 10) /\ log c' = [FbReq 1 0 0 300 2].
Proof. eexists. split; vm_compute; reflexivity. Qed.

(** With continuous updates on, an incremental request stays in the buffer for good:
    from then on no read has any effect the client or the application could see
    (src/server.c:975-978: 0 means "wait for more bytes"). *)
Theorem C38_incremental_request_wedges :
  forall (E : env) (fuel : nat) (c : client) (inc : Z) (l rest : list Z) (reads : list input)
         (c' : client),
    cu_on c = true -> cut c = None -> idx c = 0 ->
    inc <> 0 -> length l = 8%nat -> buf c = (3 :: inc :: l) ++ rest ->
    Forall (fun i => exists d, i = IRead d) reads ->
    run E fuel c reads = Ok c' ->
    log c' = log c.
Proof.
  intros E fuel c inc l rest reads c' C1 C2 C3 I L B F H. eapply wedged_run; eauto.
  repeat split; auto. exists inc, l, rest. auto.
Qed.

Theorem C38_request_is_consumed_refuted :
  exists (l : list input) (c c' : client),
    run (calm false none) 3 fresh [IRead (Some ([150; 1] ++ be 2 0 ++ be 2 0 ++ be 2 10 ++ be 2 10));
                                   IRead (Some ask_more)] = Ok c /\
    l = [IRead (Some (key_msg 1 0 0 97)); IRead (Some (pointer_msg 1 2 3))] /\
    run (calm false none) 3 c l = Ok c' /\ log c' = log c /\ zlen (buf c') = 24.
Proof.
  eexists. eexists. eexists. split; [vm_compute; reflexivity|]. split; [reflexivity|].
  split; [vm_compute; reflexivity|]. split; reflexivity.
Qed.

(** * C39: QEMU key codes. *)

(** Codes below 254 are looked up in the table; 0 in the table means the code itself.
    (Partial: the other codes.) *)
Theorem C39_key_code_in_table_partial :
  forall (E : env) (r : client -> res client) (c : client) (down sym code : Z),
    0 <= down < 2 ^ 16 -> 0 <= sym < 2 ^ 32 -> 0 <= code < 254 ->
    let k := nth (Z.to_nat code) qnum_to_linux 0 in
    on_message E r c (qemu_key_msg down sym code) =
    Ok (say (KeyCode (if k =? 0 then code else k) (negb (down =? 0))) c, 12).
Proof.
  intros E r c down sym code D S C k. unfold qemu_key_msg, on_message. cbn [app]. unfold on_qemu.
  assert (ZL : zlen (255 :: 0 :: be 2 down ++ be 4 sym ++ be 4 code) = 12).
  { unfold zlen. cbn [length]. rewrite !app_length, !be_length. reflexivity. }
  unfold on_qemu_key. rewrite ZL. cbn [Z.ltb Z.compare Pos.compare Pos.compare_cont].
  change (u8 _ 1) with 0. cbn [Z.eqb].
  change (255 :: 0 :: ?x) with ([255; 0] ++ x). rewrite u16_at by auto.
  replace ([255; 0] ++ be 2 down ++ be 4 sym ++ be 4 code)
    with (([255; 0] ++ be 2 down ++ be 4 sym) ++ be 4 code ++ []) by (rewrite app_nil_r, <- !app_assoc; reflexivity).
  rewrite u32_at by (try lia; rewrite !app_length, !be_length; reflexivity).
  assert (N : nth_error qnum_to_linux (Z.to_nat code) = Some k).
  { apply nth_error_nth'. change (length qnum_to_linux) with 254%nat. lia. }
  rewrite N. reflexivity.
Qed.

Example C39_case : exists c', on_message (calm false none) (fun c => Ok c) fresh
    (qemu_key_msg 1 97 200) = Ok (c', 12) /\ log c' = [KeyCode 103 true].
Proof. eexists. split; vm_compute; reflexivity. Qed.

(** Every other code reads past the end of the table (src/server.c:1047). *)
Theorem C39_key_code_out_of_table :
  forall (E : env) (r : client -> res client) (c : client) (down sym code : Z),
    0 <= down < 2 ^ 16 -> 0 <= sym < 2 ^ 32 -> 254 <= code < 2 ^ 32 ->
    on_message E r c (qemu_key_msg down sym code) = Fault OobRead.
Proof.
  intros E r c down sym code D S C. unfold qemu_key_msg, on_message. cbn [app]. unfold on_qemu.
  assert (ZL : zlen (255 :: 0 :: be 2 down ++ be 4 sym ++ be 4 code) = 12).
  { unfold zlen. cbn [length]. rewrite !app_length, !be_length. reflexivity. }
  unfold on_qemu_key. rewrite ZL. cbn [Z.ltb Z.compare Pos.compare Pos.compare_cont].
  change (u8 _ 1) with 0. cbn [Z.eqb].
  change (255 :: 0 :: ?x) with ([255; 0] ++ x).
  replace ([255; 0] ++ be 2 down ++ be 4 sym ++ be 4 code)
    with (([255; 0] ++ be 2 down ++ be 4 sym) ++ be 4 code ++ []) by (rewrite app_nil_r, <- !app_assoc; reflexivity).
  rewrite u32_at by (try lia; rewrite !app_length, !be_length; reflexivity).
  assert (N : nth_error qnum_to_linux (Z.to_nat code) = None).
  { apply nth_error_None. change (length qnum_to_linux) with 254%nat. lia. }
  rewrite N. reflexivity.
Qed.

Theorem C39_key_code_in_table_refuted :
  exists down sym code, 0 <= code < 2 ^ 32 /\
    run (calm false none) 3 fresh [IRead (Some (qemu_key_msg down sym code))] = Fault OobRead.
Proof. exists 1, 0, 300. split; [lia|]. vm_compute. reflexivity. Qed.

(** * C40: SetEncodings. *)
Theorem C40_supported_encodings_in_order :
  forall (E : env) (r : client -> res client) (c : client) (p : Z) (l : list Z) (c' : client) (n : Z),
    Forall (fun e => - 2 ^ 31 <= e < 2 ^ 31) l -> zlen l < 2 ^ 16 ->
    on_message E r c (set_encodings_msg p l) = Ok (c', n) ->
    encs c' = firstn 32 (filter (is_known (e_experimental E)) l) /\
    n = zlen (set_encodings_msg p l).
Proof.
  intros E r c p l c' n F N H. destruct (set_encodings_effect E r c p l c' n F N H) as (A & _ & C).
  split.
  - rewrite A. rewrite scan_kept by (cbn; lia). reflexivity.
  - rewrite C. unfold set_encodings_msg, zlen. rewrite !app_length, be_length. cbn [length].
    clear. enough (X : length (flat_map (fun e => be 4 (e mod 2 ^ 32)) l) = (4 * length l)%nat) by lia.
    induction l as [|e l IH]; [reflexivity|]. cbn [flat_map length]. rewrite app_length, be_length, IH. lia.
Qed.

(** The quality asked for is used if fewer than 32 of the encodings are supported.
    (Partial: longer lists.) *)
Theorem C40_last_quality_partial :
  forall (E : env) (r : client -> res client) (c : client) (p : Z) (l : list Z) (c' : client) (n : Z),
    Forall (fun e => - 2 ^ 31 <= e < 2 ^ 31) l -> zlen l < 2 ^ 16 ->
    (length (filter (is_known (e_experimental E)) l) < 32)%nat ->
    on_message E r c (set_encodings_msg p l) = Ok (c', n) ->
    quality c' = last_quality l 10.
Proof.
  intros E r c p l c' n F N K H. destruct (set_encodings_effect E r c p l c' n F N H) as (_ & B & _).
  rewrite B. apply scan_quality. cbn. exact K.
Qed.

Example C40_case : exists c', on_message (calm false none) (fun c => Ok c) fresh
    (set_encodings_msg 0 [7; -30; 99; 16; 0; -25; -239]) = Ok (c', 32) /\
  encs c' = [7; 16; 0; -239] /\ quality c' = 7.
Proof. eexists. split; [vm_compute; reflexivity|]. split; reflexivity. Qed.

(** A quality after the 32nd supported encoding is ignored. *)
Theorem C40_last_quality_refuted :
  exists l c' n, on_message (calm false none) (fun c => Ok c) fresh (set_encodings_msg 0 l) = Ok (c', n) /\
    quality c' <> last_quality l 10.
Proof.
  exists (repeat 0 32 ++ [-30]). eexists. eexists. split; [vm_compute; reflexivity|].
  vm_compute. discriminate.
Qed.

(** * C41: the choice of the frame's encoding. *)

(** When a frame is given to the encoder, this is the encoder of the first encoding
    in the client's list that can be produced, or of raw (0) if there is none. *)
Theorem C41_first_usable_encoding :
  forall (E : env) (f : fb) (c c' : client),
    start_encoding E f c = Ok c' -> log c' <> log c ->
    exists e, encoder c' = Some e /\
      ((exists before after, encs c = before ++ e :: after /\ usable E f e /\
          Forall (fun x => ~ usable E f x) before) \/
       (e = 0 /\ Forall (fun x => ~ usable E f x) (encs c))).
Proof.
  intros E f c c' H L. apply start_encoder in H; [|exact L].
  exists (choose_encoding E (fb_gbm f) (encs c)). split; [exact H|].
  destruct (choose_first E f (encs c)) as [(l1 & e & l2 & A & B & C & D)|[A B]].
  - left. exists l1, l2. rewrite D. auto.
  - right. auto.
Qed.

Example C41_case : exists c', start_encoding (calm false none) small
    (set_encs [-239; 50; 16; 7] (set_damage [(0, 0, 1, 1)] fresh)) = Ok c' /\
  log c' <> [] /\ encoder c' = Some 16.
Proof. eexists. split; [vm_compute; reflexivity|]. split; [discriminate|reflexivity]. Qed.

(** * C42: legacy cut text. *)
Theorem C42_cut_text_is_delivered_once :
  forall (E : env) (fuel : nat) (c : client) (ks : list nat) (p1 p2 p3 : Z) (text : list Z),
    zlen text <= 10000000 -> quiet c -> buf c = [] -> idx c = 0 ->
    exists c2 s, feed E fuel c ks (cut_text_msg p1 p2 p3 text) = Ok (c2, s) /\
      (s = [] -> log c2 = log c ++ [CutText text]).
Proof. intros. apply cut_text_any_split; assumption. Qed.

Example C42_case : exists c2, feed (calm false none) 3 fresh [9%nat; 1%nat; 2%nat; 50%nat]
    (cut_text_msg 0 0 0 (codes "hello, world")) = Ok (c2, []) /\
  log c2 = [CutText (codes "hello, world")].
Proof. eexists. split; [vm_compute; reflexivity|]. reflexivity. Qed.

(** Longer ones are not refused in good order: the client is freed while the receive
    loop still uses it (src/server.c:1362-1369 and 1976-1986). *)
Theorem C42_longer_cut_text_is_refused_refuted :
  exists n, 10000000 < n < 2 ^ 31 /\
    run (calm false none) 3 fresh [IRead (Some ([6; 0; 0; 0] ++ be 4 n))] = Fault UseAfterFree.
Proof. exists 10000001. split; [lia|]. vm_compute. reflexivity. Qed.

(** * C43: line ends. *)

(** Text in an extended clipboard message, terminated by 0 as the protocol requires and
    without a CR on its own, is delivered up to its first 0 with CR LF as LF.
    (Partial: texts with a CR on its own.) *)
Theorem C43_crlf_to_lf_partial :
  forall (E : env) (z : list Z) (c : client) (text text' extra : list Z) (st : option bool),
    e_inflate E z = (be 4 (zlen text + 1) ++ text ++ [0] ++ extra, st) ->
    text <> [] -> zlen text + 1 < 2 ^ 32 ->
    normalised text text' -> ~ lone_cr text ->
    clipboard_provide E z c = Ok (say (CutText (cstr text')) c).
Proof.
  intros E z c text text' extra st I NE N NO LC.
  rewrite (provide_delivers E z c text extra st N NE I).
  destruct (crlf_exact text) as (l & A & B). rewrite B.
  rewrite (normalised_fun _ _ NO _ A), map_lf_id; [reflexivity|].
  eapply normalised_no_cr; eauto.
Qed.

(** What happens in all cases: a CR on its own becomes LF too. *)
Theorem C43_every_cr_becomes_lf :
  forall (E : env) (z : list Z) (c : client) (text extra : list Z) (st : option bool),
    e_inflate E z = (be 4 (zlen text + 1) ++ text ++ [0] ++ extra, st) ->
    text <> [] -> zlen text + 1 < 2 ^ 32 ->
    exists text', normalised text text' /\
      clipboard_provide E z c =
      Ok (say (CutText (cstr (map (fun a => if a =? 13 then 10 else a) text'))) c).
Proof.
  intros E z c text extra st I NE N.
  rewrite (provide_delivers E z c text extra st N NE I).
  destruct (crlf_exact text) as (l & A & B). exists l. split; [exact A|]. rewrite B. reflexivity.
Qed.

Definition inflates (o : list Z) : env :=
  mk_env false false None (fun _ => 0) (fun _ _ _ => false) (fun _ _ => None)
    (fun _ _ => true) (fun _ => true) (fun _ => false) (fun _ => (o, Some true)) none.

Example C43_case :
  normalised [97; 13; 10; 98] [97; 10; 98] /\ ~ lone_cr [97; 13; 10; 98] /\
  clipboard_provide (inflates [0; 0; 0; 5; 97; 13; 10; 98; 0]) [1] fresh =
  Ok (say (CutText [97; 10; 98]) fresh).
Proof.
  split; [|split].
  - repeat constructor; intros [H _]; discriminate H.
  - intros (a & b & H & K). destruct a as [|? [|? a]]; cbn in H; [discriminate| |].
    + injection H as <- <-. apply K. reflexivity.
    + injection H as _ _ H. destruct a as [|? [|? [|? a]]]; discriminate H.
  - vm_compute. reflexivity.
Qed.

Theorem C43_crlf_to_lf_refuted :
  exists (E : env) (z text text' : list Z) (c' : client),
    e_inflate E z = (be 4 (zlen text + 1) ++ text ++ [0], Some true) /\
    normalised text text' /\
    clipboard_provide E z fresh = Ok c' /\ log c' <> [CutText text'].
Proof.
  exists (inflates (be 4 4 ++ [97; 13; 98] ++ [0])), [1], [97; 13; 98], [97; 13; 98].
  eexists. split; [reflexivity|]. split.
  - repeat (apply n_other; [intros [_ [t H]]; discriminate H|]). constructor.
  - split; [vm_compute; reflexivity|]. discriminate.
Qed.

(** * C44: extended clipboard messages. *)

(** The message is announced with a negative length of at least four bytes: nothing
    outside it is read, and what follows it makes no difference.  (Partial: announced
    lengths of less than four bytes and of 2^31.) *)
Theorem C44_within_the_message_partial :
  forall (E : env) (c : client) (m t : list Z),
    4 <= 2 ^ 32 - u32 m 4 < 2 ^ 31 ->
    on_ext_clipboard E c m <> Fault OobRead /\
    (zlen m = 8 + (2 ^ 32 - u32 m 4) -> on_ext_clipboard E c (m ++ t) = on_ext_clipboard E c m).
Proof.
  intros E c m t H. split.
  - apply ext_no_oob. lia.
  - intros L. apply ext_app; [lia|exact L].
Qed.

Example C44_case : on_ext_clipboard (inflates [0; 0; 0; 3; 97; 98; 0]) fresh
    ([6; 0; 0; 0] ++ be 4 (2 ^ 32 - 5) ++ be 4 (CB_PROVIDE + CB_TEXT) ++ [77] ++ [1; 2]) =
  Ok (say (CutText [97; 98]) fresh, 13).
Proof. vm_compute. reflexivity. Qed.

(** An announced length of one byte, and one of 2^31. *)
Theorem C44_within_the_message_refuted :
  (exists m, run (inflates []) 3 fresh
      [IRead (Some (encodings [ENC_EXT_CLIPBOARD])); IRead (Some m)] = Fault OobRead) /\
  (exists m, run (inflates []) 3 fresh
      [IRead (Some (encodings [ENC_EXT_CLIPBOARD])); IRead (Some m)] = Fault SignedOverflow).
Proof.
  split.
  - exists ([6; 0; 0; 0] ++ be 4 (2 ^ 32 - 1) ++ be 4 (CB_PROVIDE + CB_TEXT)). vm_compute. reflexivity.
  - exists ([6; 0; 0; 0] ++ be 4 (2 ^ 31) ++ be 4 (CB_PROVIDE + CB_TEXT)). vm_compute. reflexivity.
Qed.

(** * C45: the number of rectangles. *)

(** A frame of [f_rects f] rectangles goes out in one update that announces these and
    the pseudo-rectangles in front of them.  (Partial: at most 65533 rectangles.) *)
Theorem C45_count_of_rectangles_partial :
  forall (E : env) (fuel : nat) (f : frame) (c c' : client),
    let r := fun c => receive E fuel c (e_more E (log c)) in
    closed c = false -> fmt_changed c && negb (has_encoding c (-312)) = false ->
    0 <= f_rects f <= 65533 ->
    finish_update E r f c = Ok c' ->
    exists pseudo k new, pseudo_rects pseudo k /\
      log c' = log c ++
        Update KFrame ([0; 0] ++ be 2 (f_rects f + k) ++ pseudo ++ f_data f) :: new.
Proof.
  intros E fuel f c c' r CL DR N H.
  destruct (frame_update E r f c c') as (p & k & new & A & K & L); try assumption.
  - intros c1 c2. apply receive_mv.
  - exists p, k, new. split; [exact A|]. rewrite L. rewrite Z.mod_small by lia. reflexivity.
Qed.

Example C45_case : exists c', finish_update (calm false none)
    (fun c => receive (calm false none) 3 c (none (log c)))
    (mk_frame 2 20 10 None [1; 2; 3]) (set_encs [ENC_DESKTOPSIZE] fresh) = Ok c' /\
  log c' = [Update KFrame ([0; 0; 0; 3] ++
     [0; 0; 0; 0; 0; 20; 0; 10; 255; 255; 255; 33] ++ [1; 2; 3])].
Proof. eexists. split; [vm_compute; reflexivity|]. reflexivity. Qed.

(** The update that announces the supported extensions. *)
Theorem C45_count_in_extension_update :
  forall c c', send_ext_support c = (c', true) ->
    exists k body, pseudo_rects body k /\ 1 <= k <= 2 /\
      log c' = log c ++ [Update KExt ([0; 0] ++ be 2 k ++ body)].
Proof. exact ext_support_update. Qed.

Theorem C45_count_of_rectangles_refuted :
  exists (f : frame) (c c' : client), f_rects f = 65535 /\
    finish_update (calm false none) (fun c => Ok c) f c = Ok c' /\
    exists l, log c' = [Update KFrame ([0; 0; 0; 0] ++ l)].
Proof.
  exists (mk_frame 65535 20 10 None []), (set_encs [ENC_DESKTOPSIZE] fresh). eexists.
  split; [reflexivity|]. split; [vm_compute; reflexivity|]. eexists. reflexivity.
Qed.

(** * C48: fences. *)

(** No update is asked for or in flight and no fence waits: the answer is sent at once,
    with the same payload and only the flags 1, 2 and 4.  (Partial: this and the next.) *)
Theorem C48_fence_is_answered_at_once_partial :
  forall (E : env) (r : client -> res client) (c : client) (p1 p2 p3 flags : Z) (payload : list Z),
    2 ^ 31 <= flags < 2 ^ 32 -> zlen payload <= 64 ->
    pending c = 0 -> updating c = false -> pf_n c = 0 ->
    let m := fence_msg p1 p2 p3 flags payload in
    on_message E r c m =
    Ok (say (Sent (fence_msg 0 0 0 (Z.land flags 7) payload))
          (say (FenceReq (Z.land flags 7) payload) c), zlen m).
Proof. exact fence_now. Qed.

(** A frame is in flight, nothing else is asked for, and the fence has the flag
    BLOCK_BEFORE: no answer yet; it comes in full right after the frame. *)
Theorem C48_block_before_waits_for_the_frame_partial :
  forall (E : env) (fuel : nat) (c : client) (p1 p2 p3 flags : Z) (payload : list Z) (f : frame)
         (c2 : client),
    let r := fun c => receive E fuel c (e_more E (log c)) in
    2 ^ 31 <= flags < 2 ^ 32 -> zlen payload <= 64 -> Z.land flags 1 <> 0 ->
    pending c = 0 -> updating c = true -> closed c = false ->
    fmt_changed c && negb (has_encoding c (-312)) = false ->
    (forall l, e_sync E l = false) ->
    exists c1, on_message E r c (fence_msg p1 p2 p3 flags payload) =
               Ok (c1, zlen (fence_msg p1 p2 p3 flags payload)) /\
      log c1 = log c ++ [FenceReq (Z.land flags 7) payload] /\
      (finish_update E r f c1 = Ok c2 ->
       exists u ping rest, log c2 = log c1 ++ [Update KFrame u] ++ ping ++
         [Sent (fence_msg 0 0 0 (Z.land flags 7) payload)] ++ rest /\ (length ping <= 1)%nat).
Proof.
  intros E fuel c p1 p2 p3 flags payload f c2 r F P B A U CL DR SY.
  destruct (fence_wait E r c p1 p2 p3 flags payload F P A U B)
    as (c1 & H & L & N & FL & PL & _ & CC & FC & EC).
  exists c1. split; [exact H|]. split; [exact L|]. intros H2. rewrite <- FL, <- PL.
  apply (fence_done E r f c1 c2); auto.
  - intros a b. apply receive_mv.
  - congruence.
  - unfold has_encoding. rewrite FC, EC. exact DR.
Qed.

Example C48_case : exists c', run (calm false none) 3 fresh
    [IRead (Some (fence_msg 0 0 0 (2 ^ 31 + 2 ^ 20 + 1) [9; 9])); IRead (Some ask_all);
     IRead (Some (fence_msg 0 0 0 (2 ^ 31 + 1) [8])); IEncoded some_frame] = Ok c' /\
  log c' = [FenceReq 1 [9; 9]; Sent [248; 0; 0; 0; 0; 0; 0; 1; 2; 9; 9]; FbReq 0 0 0 10 10;
    Encode [(0, 0, 10, 10)] 10 10 true; FenceReq 1 [8];
    Update KFrame [0; 0; 0; 1; 1; 2; 3]; Sent [248; 0; 0; 0; 0; 0; 0; 1; 1; 8]].
Proof. eexists. split; [vm_compute; reflexivity|]. reflexivity. Qed.

(** First: a client that has an update request outstanding sends a fence; when the next
    frame has been sent the process aborts (src/server.c:1757-1760, 2421-2424).
    Second: two fences during one frame; only the second is answered
    (src/server.c:1779-1783). *)
Theorem C48_fences_are_answered_once_refuted :
  (exists fence, fence = fence_msg 0 0 0 (2 ^ 31) [1] /\
     run (calm false none) 3 fresh
       [IRead (Some ask_more); IRead (Some fence); IDamage small [(0, 0, 1, 1)];
        IEncoded some_frame] = Fault AssertFail) /\
  (exists c', run (calm false none) 3 fresh
       [IRead (Some ask_all); IRead (Some (fence_msg 0 0 0 (2 ^ 31 + 1) [1]));
        IRead (Some (fence_msg 0 0 0 (2 ^ 31 + 1) [2])); IEncoded some_frame; IWritten] = Ok c' /\
     In (Sent (fence_msg 0 0 0 1 [2])) (log c') /\
     ~ In (Sent (fence_msg 0 0 0 1 [1])) (log c') /\ pf_n c' = 0).
Proof.
  split.
  - eexists. split; [reflexivity|]. vm_compute. reflexivity.
  - eexists. split; [vm_compute; reflexivity|]. split; [vm_compute; tauto|]. split; [|reflexivity].
    vm_compute. intros H. repeat destruct H as [H|H]; try discriminate H. exact H.
Qed.

(** * C49: SetDesktopSize. *)

(** Screens that stick out of the desktop: status 3, and the application is not
    asked.  No callback: status 1.  Otherwise the application gets exactly the layout in
    the message, and the status is 4 if it agrees and 1 if not.  Always one answer. *)
Theorem C49_layout_checked_and_answered :
  forall (E : env) (r : client -> res client) (c : client) (p w h q : Z) (ls : list screen),
    Forall good_screen ls -> (length ls < 256)%nat -> 0 <= w < 2 ^ 16 -> 0 <= h < 2 ^ 16 ->
    exists new, on_message E r c (set_size_msg p w h q ls) =
                Ok (set_log (log c ++ new) c, zlen (set_size_msg p w h q ls)) /\
      (Exists (sticks_out w h) ls -> new = [Update KLayout (size_answer w h 3)]) /\
      (Forall (fun s => ~ sticks_out w h s) ls ->
       match e_layout E with
       | None => new = [Update KLayout (size_answer w h 1)]
       | Some ask => new = [AskLayout w h (map told ls);
           Update KLayout (size_answer w h (if ask (log c) w h (map told ls) then 4 else 1))]
       end).
Proof.
  intros E r c p w h q ls G N W H. rewrite size_effect by assumption.
  destruct (existsb (outside w h) (map told ls)) eqn:X.
  - eexists. split; [reflexivity|]. split; [reflexivity|]. intros F. exfalso.
    apply existsb_exists in X as (y & I & O). apply in_map_iff in I as (s & <- & I).
    rewrite Forall_forall in F. apply (F s I). apply outside_sticks. exact O.
  - assert (NS : ~ Exists (sticks_out w h) ls).
    { intros EX. apply Exists_exists in EX as (s & I & O). apply outside_sticks in O.
      enough (existsb (outside w h) (map told ls) = true) by congruence.
      apply existsb_exists. exists (told s). split; [apply in_map; exact I|exact O]. }
    destruct (e_layout E) as [ask|]; eexists.
    + split; [unfold say; cbn; rewrite <- app_assoc; reflexivity|]. split; [contradiction|]. reflexivity.
    + split; [reflexivity|]. split; [contradiction|]. reflexivity.
Qed.

Example C49_case :
  exists c', on_message (mk_env false false (Some (fun _ w _ _ => w <? 1000)) (fun _ => 0)
      (fun _ _ _ => false) (fun _ _ => None) (fun _ _ => true) (fun _ => true) (fun _ => false)
      (fun _ => ([], None)) none) (fun c => Ok c) fresh
    (set_size_msg 0 800 600 0 [mk_screen 0 0 0 400 600 0; mk_screen 1 400 0 400 600 0]) = Ok (c', 40) /\
  log c' = [AskLayout 800 600 [mk_layout 0 0 0 400 600 true; mk_layout 1 400 0 400 600 false];
            Update KLayout (size_answer 800 600 4)].
Proof. eexists. split; vm_compute; reflexivity. Qed.

(** * C52: LED state. *)

(** For a client with the QEMU encoding the state goes out as one rectangle of that
    encoding with one byte.  (Partial: clients with the VMware encoding only.) *)
Theorem C52_led_state_partial :
  forall c, has_encoding c (-261) = true -> led_want c <> led c ->
    exists body c', send_led_state c = (c', true) /\
      log c' = log c ++ [Update KLed ([0; 0] ++ be 2 1 ++ body)] /\
      body = be 2 0 ++ be 2 0 ++ be 2 0 ++ be 2 0 ++ be 4 (-261 mod 2 ^ 32) ++ [led_want c mod 256] /\
      pseudo_rects body 1 /\ led c' = led_want c /\ send_led_state c' = (c', false).
Proof.
  intros c Q N. rewrite led_effect by assumption. eexists. eexists.
  split; [reflexivity|]. split; [reflexivity|]. split; [reflexivity|]. split; [|split; [reflexivity|]].
  - apply (p_cons (be 2 0 ++ be 2 0 ++ be 2 0 ++ be 2 0) (-261) [led_want c mod 256] [] 0);
      [reflexivity|lia|reflexivity|constructor].
  - unfold send_led_state. change (led_want (set_led _ (say _ c))) with (led_want c).
    change (led (set_led ?x _)) with x. rewrite Z.eqb_refl. reflexivity.
Qed.

Example C52_case : exists c', run (calm false none) 3 fresh
    [IRead (Some (encodings [ENC_QEMU_LED])); ILed 5; IRead (Some ask_more)] = Ok c' /\
  In (Update KLed ([0; 0; 0; 1; 0; 0; 0; 0; 0; 0; 0; 0; 255; 255; 254; 251; 5])) (log c').
Proof. eexists. split; [vm_compute; reflexivity|]. vm_compute. tauto. Qed.

Lemma one_pseudo : forall b, pseudo_rects b 1 ->
  exists head e body, b = head ++ be 4 (e mod 2 ^ 32) ++ body /\ length head = 8%nat /\
    - 2 ^ 31 <= e < 2 ^ 31 /\ payload_size e body = Some (zlen body).
Proof.
  assert (POS : forall l k, pseudo_rects l k -> 0 <= k) by (intros l k PR; induction PR; lia).
  assert (NIL : forall l k, pseudo_rects l k -> k = 0 -> l = []).
  { intros l k PR K. destruct PR as [|? ? ? ? ? ? ? ? PR]; [reflexivity|]. apply POS in PR. lia. }
  intros b P. remember 1 as one eqn:O. destruct P as [|head e body l n L R PS PL]; [discriminate|].
  exists head, e, body. rewrite (NIL l n PL) by lia. rewrite app_nil_r. auto.
Qed.

(** A client that knows only the VMware encoding gets the QEMU encoding's number and the
    VMware encoding's four bytes: three bytes too many (src/server.c:2788-2809). *)
Theorem C52_led_state_refuted :
  exists c' body, run (calm false none) 3 fresh
      [IRead (Some (encodings [ENC_VMWARE_LED])); ILed 5; IRead (Some ask_more)] = Ok c' /\
    In (Update KLed ([0; 0; 0; 1] ++ body)) (log c') /\ ~ pseudo_rects body 1.
Proof.
  eexists. exists [0; 0; 0; 0; 0; 0; 0; 0; 255; 255; 254; 251; 0; 0; 0; 5].
  split; [vm_compute; reflexivity|]. split; [vm_compute; tauto|].
  intros P. apply one_pseudo in P as (head & e & body & EQ & L & R & PS).
  assert (E4 : [255; 255; 254; 251] = be 4 (e mod 2 ^ 32)).
  { rewrite <- (firstn_app_eq _ 4 (be 4 (e mod 2 ^ 32)) body) by apply be_length.
    rewrite <- (skipn_app_eq _ 8 head (be 4 (e mod 2 ^ 32) ++ body)) by exact L.
    rewrite <- EQ. reflexivity. }
  assert (EE : e = -261).
  { rewrite <- (signed32 e R). apply (f_equal unbe) in E4.
    rewrite unbe_be in E4 by (apply Z.mod_pos_bound; reflexivity).
    rewrite <- E4. vm_compute. reflexivity. }
  subst e. injection PS as PS.
  apply (f_equal (@length Z)) in EQ. rewrite !app_length, be_length, L in EQ. cbn [length] in EQ.
  unfold zlen in PS. lia.
Qed.

Print Assumptions C36_segmentation_does_not_matter.
Print Assumptions C37_consumes_what_was_received_partial.
Print Assumptions C37_parse_position_refuted.
Print Assumptions C38_request_is_consumed_partial.
Print Assumptions C38_incremental_request_wedges.
Print Assumptions C38_request_is_consumed_refuted.
Print Assumptions C39_key_code_in_table_partial.
Print Assumptions C39_key_code_out_of_table.
Print Assumptions C39_key_code_in_table_refuted.
Print Assumptions C40_supported_encodings_in_order.
Print Assumptions C40_last_quality_partial.
Print Assumptions C40_last_quality_refuted.
Print Assumptions C41_first_usable_encoding.
Print Assumptions C42_cut_text_is_delivered_once.
Print Assumptions C42_longer_cut_text_is_refused_refuted.
Print Assumptions C43_crlf_to_lf_partial.
Print Assumptions C43_every_cr_becomes_lf.
Print Assumptions C43_crlf_to_lf_refuted.
Print Assumptions C44_within_the_message_partial.
Print Assumptions C44_within_the_message_refuted.
Print Assumptions C45_count_of_rectangles_partial.
Print Assumptions C45_count_in_extension_update.
Print Assumptions C45_count_of_rectangles_refuted.
Print Assumptions C48_fence_is_answered_at_once_partial.
Print Assumptions C48_block_before_waits_for_the_frame_partial.
Print Assumptions C48_fences_are_answered_once_refuted.
Print Assumptions C49_layout_checked_and_answered.
Print Assumptions C52_led_state_partial.
Print Assumptions C52_led_state_refuted.
