(** Input events, pixel formats, continuous updates, sizes and time: C112 to C117. *)
From Verif Require Import Common Pixels_Model Msg_Model Msg_Spec Msg2_Spec Upd_Spec Upd_Props Ev_Spec
  Ev_Proofs Ev2_Proofs Ev3_Proofs Ev4_Proofs.

(** * C112: input events reach the application. *)

(** Key, pointer and update request messages cause exactly the callbacks they
    describe, in their order, whatever pieces they arrive in ([ks]); [rest] is the
    beginning of a further message. *)
Theorem C112_events_reach_the_application :
  forall (E : env) (fuel : nat) (c : client) (evs : list event) (rest : list Z) (ks : list nat),
    quiet c -> buf c = [] -> idx c = 0 -> cu_on c = false -> Forall good_event evs -> unfinished rest ->
    exists c2 s, feed E fuel c ks (concat (map wire evs) ++ rest) = Ok (c2, s) /\
      (s = [] -> callbacks (log c2) = callbacks (log c) ++ map callback evs).
Proof. exact events_delivered. Qed.
Print Assumptions C112_events_reach_the_application.

Example C112_ex :
  let evs := [Key 97 1 0 0; Mouse 1 300 5; Ask 1 0 0 10 10; Key 97 0 0 0] in
  Forall good_event evs /\ quiet fresh /\
  match feed (calm false none) 3 fresh [3%nat; 20%nat; 4%nat; 7%nat] (concat (map wire evs) ++ [5; 1]) with
  | Ok (c, s) => s = [] /\ callbacks (log c) = [KeySym 97 true; Pointer 300 5 1; FbReq 1 0 0 10 10; KeySym 97 false]
  | Fault _ => False
  end.
Proof. split; [repeat constructor; cbn; lia|]. split; [repeat split|]. vm_compute. split; reflexivity. Qed.

(** * C113: pixels are sent in the format the client asked for. *)

(** A true colour format is taken over exactly. *)
Theorem C113_true_colour_format :
  forall (E : env) (r : client -> res client) (c : client) (p1 p2 p3 : Z) (f : pixfmt) (q1 q2 q3 : Z),
    good_format f -> true_colour_flag f <> 0 ->
    exists c', on_message E r c (pixel_format_msg p1 p2 p3 f q1 q2 q3) = Ok (c', 20) /\ fmt c' = f /\ log c' = log c.
Proof. exact true_colour. Qed.
Print Assumptions C113_true_colour_format.

(** A client that wants a colour map gets pixels of three bits red, three bits green
    and two bits blue, and one message that says so: each of the 256 entries is the
    nearest the protocol can express. *)
Theorem C113_colour_map :
  forall (E : env) (r : client -> res client) (c : client) (p1 p2 p3 : Z) (f : pixfmt) (q1 q2 q3 : Z),
    true_colour_flag f = 0 ->
    exists c' m, on_message E r c (pixel_format_msg p1 p2 p3 f q1 q2 q3) = Ok (c', 20) /\ log c' = log c ++ [Sent m] /\
      fmt c' = mk_fmt 8 8 0 1 7 7 3 5 2 0 /\ zlen m = 6 + 6 * 256 /\ firstn 6 m = [1; 0] ++ be 2 0 ++ be 2 256 /\
      forall i, 0 <= i < 256 -> exists r g b, map_entry m i r g b /\
        nearest r 7 (i / 32) /\ nearest g 7 (i / 4 mod 8) /\ nearest b 3 (i mod 4).
Proof. exact map_colour. Qed.
Print Assumptions C113_colour_map.

Definition rgb565 : pixfmt := mk_fmt 16 16 1 1 31 63 31 11 5 0.
Definition mapped16 : pixfmt := mk_fmt 16 8 0 0 0 0 0 0 0 0.

Example C113_ex :
  good_format rgb565 /\
  (exists c', on_message (calm false none) (fun c => Ok c) fresh (pixel_format_msg 1 2 3 rgb565 4 5 6) = Ok (c', 20) /\ fmt c' = rgb565).
Proof. split; [repeat split; cbn; lia|]. eexists. split; vm_compute; reflexivity. Qed.
Example C113_map_ex : exists m, map_entry m 255 65535 65535 65535 /\ map_entry m 36 9362 9362 0 /\
  match on_message (calm false none) (fun c => Ok c) fresh (pixel_format_msg 0 0 0 mapped16 0 0 0) with
  | Ok (c', 20) => log c' = [Sent m]
  | _ => False
  end.
Proof. exists colour_map. split; [vm_compute; reflexivity|]. split; vm_compute; reflexivity. Qed.

(** The size of the pixels is the one the client asked for.  False with a colour
    map: the indexes always have eight bits. *)
Theorem C113_pixel_size_refuted :
  exists (f : pixfmt) (c c' : client), good_format f /\ bits_per_pixel f = 16 /\
    on_message (calm false none) (fun c => Ok c) c (pixel_format_msg 0 0 0 f 0 0 0) = Ok (c', 20) /\
    bits_per_pixel (fmt c') <> bits_per_pixel f.
Proof. exists mapped16, fresh. eexists. split; [repeat split; cbn; lia|]. split; [reflexivity|]. split; [reflexivity|]. discriminate. Qed.
Print Assumptions C113_pixel_size_refuted.

(** A frame begun before the client changed its pixel format (message 0) or its
    encodings (message 2) is not sent to it: whatever happens in between, as long
    as no other frame is begun or completed.  Clients that support fences (-312)
    are excepted. *)
Theorem C113_stale_frame_not_sent :
  forall (E : env) (r : client -> res client) (fuel : nat) (c : client) (m : list Z) (c1 : client) (n : Z)
         (l : list input) (c2 : client) (new : list out) (fr : frame) (c3 : client),
    (exists t, m = 0 :: t) \/ (exists t, m = 2 :: t) ->
    on_message E r c m = Ok (c1, n) -> n <> 0 ->
    run E fuel c1 l = Ok c2 -> log c2 = log c1 ++ new -> still new ->
    closed c2 = false -> ~ In (-312) (encs c2) ->
    step E fuel c2 (IEncoded fr) = Ok c3 ->
    exists rest, log c3 = log c2 ++ Dropped :: rest /\ ~ sent_frame rest.
Proof. exact stale. Qed.
Print Assumptions C113_stale_frame_not_sent.

Example C113_stale_ex :
  match run (calm true none) 3 fresh [IRead (Some ask_all)] with
  | Ok c => match on_message (calm true none) (fun c => Ok c) c (pixel_format_msg 0 0 0 rgb565 0 0 0) with
            | Ok (c1, n) => n = 20 /\ updating c1 = true /\
                match run (calm true none) 3 c1 [IDamage small [(0, 0, 2, 2)]; ICursor] with
                | Ok c2 => log c2 = log c1 /\ closed c2 = false /\ encs c2 = [] /\
                    match step (calm true none) 3 c2 (IEncoded some_frame) with
                    | Ok c3 => log c3 = log c2 ++ [Dropped; Completed; Encode [(0, 0, 2, 2)] 10 10 true]
                    | Fault _ => False
                    end
                | Fault _ => False
                end
            | Fault _ => False
            end
  | Fault _ => False
  end.
Proof. vm_compute. repeat split. Qed.

(** * C114: continuous updates. *)

(** The message EndOfContinuousUpdates is sent at most once to announce the
    extension, and exactly once if the client lists it (-313), however often it
    does; apart from that, once each time the client switches the updates off. *)
Theorem C114_announced_once :
  forall (E : env) (fuel : nat) (f : pixfmt) (d : fb) (seq : Z) (l : list input) (c : client),
    run E fuel (ready f d seq) l = Ok c ->
    let n := count is_cu_end (log c) - count is_cu_off (log c) in
    (n = 0 \/ n = 1) /\ (In (-313) (encs c) -> n = 1).
Proof.
  intros E fuel f d seq l c H. destruct (run_balance _ _ _ _ _ H) as (B & N & _). unfold balance in B. cbn in B.
  assert (N0 : noted (ready f d seq)) by discriminate. specialize (N N0). cbv zeta. split.
  - destruct (cu_notified c); cbn in B; [right|left]; change (count is_cu_end [] - count is_cu_off [] - 0) with 0 in B; lia.
  - intros I. apply (with_encoding c ENC_CU) in I. rewrite (N I) in B.
    change (count is_cu_end [] - count is_cu_off [] - 0) with 0 in B. cbn in B. lia.
Qed.
Print Assumptions C114_announced_once.

Example C114_announced_ex :
  match run (calm true none) 3 fresh
    [IRead (Some (encodings [-313; 0])); IRead (Some (enable_cu_msg 1 0 0 5 5)); IRead (Some (encodings [0; -313]));
     IRead (Some (enable_cu_msg 0 0 0 0 0))] with
  | Ok c => log c = [Sent [150]; CuMode true; CuMode false; Sent [150]] /\ count is_cu_end (log c) = 2 /\ count is_cu_off (log c) = 1
  | Fault _ => False
  end.
Proof. vm_compute. repeat split. Qed.

(** Damage that misses the area the client chose causes no frame. *)
Theorem C114_outside_damage_waits :
  forall (E : env) (fuel : nat) (c : client) (f : fb) (rg : region) (c' : client) (x y w h : Z),
    cu_on c = true -> cu_rect c = (x, y, w, h) ->
    0 <= x -> 0 <= y -> 0 <= w -> 0 <= h -> x + w <= 32767 -> y + h <= 32767 ->
    ~ touches (damage c) x y w h -> ~ touches rg x y w h ->
    step E fuel c (IDamage f rg) = Ok c' ->
    exists l, log c' = log c ++ l /\ nothing_encoded l.
Proof.
  intros E fuel c f rg c' x y w h CU CR X Y W H X2 Y2 N1 N2 S.
  destruct (area_respected E fuel c f rg c' x y w h CU CR X Y W H X2 Y2 N1 N2 S) as (l & L & F).
  exists l. split; [exact L|]. apply nothing. exact F.
Qed.
Print Assumptions C114_outside_damage_waits.

Definition watching : res client :=
  run (calm true none) 3 fresh [IRead (Some (encodings [-313; 0])); IRead (Some (enable_cu_msg 1 0 0 5 5))].

Example C114_outside_ex :
  match watching with
  | Ok c => cu_on c = true /\ cu_rect c = (0, 0, 5, 5) /\
      match step (calm true none) 3 c (IDamage small [(5, 0, 10, 10)]) with
      | Ok c1 => log c1 = log c /\
          match step (calm true none) 3 c1 (IDamage small [(4, 4, 5, 5)]) with
          | Ok c2 => log c2 = log c1 ++ [Encode [(5, 0, 10, 10); (4, 4, 5, 5)] 10 10 true]
          | Fault _ => False
          end
      | Fault _ => False
      end
  | Fault _ => False
  end.
Proof. vm_compute. repeat split. Qed.

(** Only the area is sent.  False: once something in it has changed, everything that
    has changed is. *)
Theorem C114_only_the_area_refuted :
  exists (c c' : client) (f : fb) (rg : region) (l : list out) (px py : Z),
    watching = Ok c /\ cu_rect c = (0, 0, 5, 5) /\ (forall inc x y w h, ~ In (FbReq inc x y w h) (log c)) /\
    step (calm true none) 3 c (IDamage f rg) = Ok c' /\ log c' = log c ++ l /\
    encoded l px py /\ ~ (0 <= px < 5 /\ 0 <= py < 5).
Proof.
  do 2 eexists. exists small, [(0, 0, 10, 10)]. eexists. exists 7, 7. split; [vm_compute; reflexivity|].
  split; [reflexivity|]. split; [intros inc x y w h; cbn; intuition discriminate|].
  split; [vm_compute; reflexivity|]. split; [cbn [log]; rewrite <- app_comm_cons; cbn [app]; reflexivity|].
  split; [|lia]. eexists _, _, _, _. split; [left; reflexivity|]. constructor. lia.
Qed.
Print Assumptions C114_only_the_area_refuted.

(** A full update that is asked for is sent while continuous updates are on, too.
    False outside the area: the request is taken, and nothing is encoded now or when
    anything else outside the area changes ([C114_outside_damage_waits]). *)
Theorem C114_full_request_refuted :
  exists (c c' : client) (l : list out),
    watching = Ok c /\
    step (calm true none) 3 c (IRead (Some (update_request_msg 0 6 6 2 2))) = Ok c' /\ log c' = log c ++ l /\
    In (FbReq 0 6 6 2 2) l /\ covers (damage c') 6 6 /\ updating c' = false /\ nothing_encoded l /\
    ~ touches (damage c') 0 0 5 5.
Proof.
  do 3 eexists. split; [vm_compute; reflexivity|]. split; [vm_compute; reflexivity|].
  split; [cbn [log]; rewrite <- app_comm_cons; cbn [app]; reflexivity|].
  split; [left; reflexivity|]. split; [constructor; lia|]. split; [reflexivity|]. split.
  - intros (r & w & h & ok & [I|[]]). discriminate I.
  - intros (px & py & C & A & B). inversion C as [? ? D|? ? D]; subst; [lia|inversion D].
Qed.
Print Assumptions C114_full_request_refuted.

(** * C115: a client learns of a new size. *)

(** When a frame's size is not the one the client knows, the update begins with the
    new size, in the form the client supports, and the whole new area is sent or
    stays marked.  (Partial: frames not larger than 32767 by 32767, and the client
    supports one of the two forms; otherwise see below.) *)
Theorem C115_new_size_is_told_partial :
  forall (E : env) (fuel : nat) (c : client) (f : frame) (c' : client),
    step E fuel c (IEncoded f) = Ok c' -> sendable c -> known c <> (f_w f, f_h f) ->
    f_w f <= 32767 -> f_h f <= 32767 ->
    exists l, log c' = log c ++ Update KFrame (update_head (f_rects f + stamps c f + 1) ++
        size_rect (existsb (Z.eqb (-308)) (encs c)) (f_w f) (f_h f) ++ stamp c f ++ f_data f) :: l /\
      forall px py, 0 <= px < f_w f -> 0 <= py < f_h f -> (forall d, disp c = Some d -> holds px py d) ->
        covers (damage c') px py \/ encoded l px py.
Proof. exact told_fully. Qed.
Print Assumptions C115_new_size_is_told_partial.

(** It is told once: later frames of that size do not repeat it, as long as the
    client makes no full request. *)
Theorem C115_told_once :
  forall (E : env) (fuel : nat) (c : client) (f : frame) (c1 : client) (l : list input) (c2 : client)
         (new : list out) (f' : frame) (c3 : client),
    step E fuel c (IEncoded f) = Ok c1 -> sendable c -> known c <> (f_w f, f_h f) ->
    Forall (same_size (f_w f) (f_h f)) l -> run E fuel c1 l = Ok c2 -> log c2 = log c ++ new ->
    (forall x y w h, ~ In (FbReq 0 x y w h) new) ->
    f_w f' = f_w f -> f_h f' = f_h f -> sendable c2 -> step E fuel c2 (IEncoded f') = Ok c3 ->
    exists rest, log c3 = log c2 ++
      Update KFrame (update_head (f_rects f' + stamps c2 f') ++ stamp c2 f' ++ f_data f') :: rest.
Proof. exact told_once. Qed.
Print Assumptions C115_told_once.

Definition large : fb := mk_fb 20 5 false.
Definition large_frame : frame := mk_frame 1 20 5 None [1; 2; 3].

Example C115_ex :
  match run (calm true none) 3 fresh [IRead (Some (encodings [-223; 0])); IRead (Some ask_all)] with
  | Ok c => sendable c /\ known c = (10, 10) /\
      match step (calm true none) 3 c (IEncoded large_frame) with
      | Ok c1 => log c1 = log c ++ [Update KFrame ([0; 0; 0; 2] ++ [0; 0; 0; 0; 0; 20; 0; 5; 255; 255; 255; 33] ++ [1; 2; 3]); Completed] /\
          match run (calm true none) 3 c1 [IDamage large [(0, 0, 1, 1)]; IRead (Some ask_more)] with
          | Ok c2 => sendable c2 /\
              match step (calm true none) 3 c2 (IEncoded large_frame) with
              | Ok c3 => log c3 = log c2 ++ [Update KFrame ([0; 0; 0; 1] ++ [1; 2; 3]); Completed]
              | Fault _ => False
              end
          | Fault _ => False
          end
      | Fault _ => False
      end
  | Fault _ => False
  end.
Proof. vm_compute. repeat split; left; reflexivity. Qed.

(** A client that supports neither form survives a new size.  False: it is closed
    and used afterwards, whoever it is. *)
Theorem C115_client_without_support :
  forall (E : env) (fuel : nat) (c : client) (f : frame),
    sendable c -> known c <> (f_w f, f_h f) -> ~ In (-223) (encs c) -> ~ In (-308) (encs c) ->
    step E fuel c (IEncoded f) = Fault UseAfterFree.
Proof. exact unsupported. Qed.
Print Assumptions C115_client_without_support.

Theorem C115_resizing_is_safe_refuted :
  exists (l : list input), run (calm true none) 3 fresh l = Fault UseAfterFree /\
    forall d, In (IRead (Some d)) l -> d = encodings [0] \/ d = ask_all.
Proof.
  exists [IRead (Some (encodings [0])); IRead (Some ask_all); IDamage large [(0, 0, 20, 5)]; IEncoded some_frame;
          IRead (Some ask_all); IEncoded large_frame].
  split; [vm_compute; reflexivity|]. intros d I. cbn [In] in I.
  repeat (destruct I as [I|I]; [try discriminate I; injection I as <-; auto|]). destruct I.
Qed.
Print Assumptions C115_resizing_is_safe_refuted.

(** * C116: only what was changed or asked for is encoded. *)

(** One step: a pixel that is marked or given to the encoder was marked before, was
    asked for in full, is in the damage the display just reported, or the frame
    that was just finished has a size the client does not know. *)
Theorem C116_nothing_unasked_step :
  forall (E : env) (fuel : nat) (c : client) (i : input) (c' : client),
    step E fuel c i = Ok c' ->
    exists l, log c' = log c ++ l /\
      forall px py, covers (damage c') px py \/ encoded l px py ->
        covers (damage c) px py \/ requested l px py \/
        (exists f r, i = IDamage f r /\ covers r px py) \/
        (exists f, i = IEncoded f /\ known c <> (f_w f, f_h f) /\ within 0 (f_w f) px /\ within 0 (f_h f) py).
Proof. exact step_asked. Qed.
Print Assumptions C116_nothing_unasked_step.

(** All of a client's life.  (Partial: pixels of a finished frame count as asked
    for, since its size may be new to the client.) *)
Theorem C116_nothing_unasked_partial :
  forall (E : env) (fuel : nat) (f : pixfmt) (d : fb) (seq : Z) (l : list input) (c : client),
    run E fuel (ready f d seq) l = Ok c ->
    forall px py, encoded (log c) px py ->
      requested (log c) px py \/
      (exists f r, In (IDamage f r) l /\ covers r px py) \/
      (exists f, In (IEncoded f) l /\ within 0 (f_w f) px /\ within 0 (f_h f) py).
Proof.
  intros E fuel f d seq l c H px py X. destruct (run_asked _ _ _ _ _ H) as (new & L & A). cbn in L. rewrite L in *.
  destruct (A px py (or_intror X)) as [Y|Y]; [inversion Y|exact Y].
Qed.
Print Assumptions C116_nothing_unasked_partial.

Example C116_ex :
  match run (calm true none) 3 fresh [IRead (Some (update_request_msg 0 2 3 4 5)); IEncoded some_frame;
    IDamage small [(8, 8, 9, 9)]; IRead (Some ask_more)] with
  | Ok c => log c = [FbReq 0 2 3 4 5; Encode [(2, 3, 6, 8)] 10 10 true; Update KFrame ([0; 0; 0; 1] ++ [1; 2; 3]); Completed;
                     FbReq 1 0 0 10 10; Encode [(8, 8, 9, 9)] 10 10 true]
  | Fault _ => False
  end.
Proof. vm_compute. reflexivity. Qed.

(** As long as the size stays the same, only what was changed or asked for is
    encoded.  False for clients with the extended desktop size (-308): after a full
    request for one pixel they are told the size again and the whole screen is
    marked, so the next incremental request gets all of it. *)
Theorem C116_same_size_refuted :
  exists (l : list input) (c : client) (px py : Z),
    run (calm true none) 3 fresh l = Ok c /\
    (forall f, In (IEncoded f) l -> (f_w f, f_h f) = known fresh) /\ (forall f r, ~ In (IDamage f r) l) /\
    encoded (log c) px py /\ ~ requested (log c) px py.
Proof.
  exists [IRead (Some (encodings [-308; 0])); IRead (Some (update_request_msg 0 0 0 1 1)); IEncoded some_frame; IRead (Some ask_more)].
  eexists. exists 5, 5. split; [vm_compute; reflexivity|]. split.
  { intros f I. cbn [In] in I. repeat (destruct I as [I|I]; [try discriminate I; injection I as <-; reflexivity|]). destruct I. }
  split; [intros f r I; cbn [In] in I; intuition discriminate|]. split.
  - eexists [(0, 0, 10, 10)], _, _, _. split; [cbn [log In]; do 5 right; left; reflexivity|]. constructor. lia.
  - intros (x & y & w & h & I & A & B). cbn [log In] in I.
    repeat (destruct I as [I|I]; [try discriminate I; injection I as <- <- <- <-; vm_compute in A; discriminate|]). destruct I.
Qed.
Print Assumptions C116_same_size_refuted.

(** * C117: time messages. *)

(** A time message without a fourth time is answered by one message that keeps the
    client's first time and has the time of its arrival as the second; the third is
    filled in when the message leaves. *)
Theorem C117_time_is_answered :
  forall (E : env) (r : client -> res client) (c : client) (p1 p2 p3 t0 t1 t2 : Z),
    0 <= t0 < 2 ^ 32 -> 0 <= t1 < 2 ^ 32 -> 0 <= t2 < 2 ^ 32 ->
    on_message E r c (ntp_msg p1 p2 p3 t0 t1 t2 0) =
    Ok (set_log (log c ++ [NtpReply (ntp_msg p1 p2 p3 t0 (e_now E (log c) mod 2 ^ 32) t2 0)]) c, 20).
Proof. exact ntp_answer. Qed.
Print Assumptions C117_time_is_answered.

(** One with all four times changes nothing, or overflows. *)
Theorem C117_times_are_only_logged_partial :
  forall (E : env) (r : client -> res client) (c : client) (p1 p2 p3 t0 t1 t2 t3 : Z),
    0 <= t0 < 2 ^ 32 -> 0 <= t1 < 2 ^ 32 -> 0 <= t2 < 2 ^ 32 -> 0 < t3 < 2 ^ 32 ->
    on_message E r c (ntp_msg p1 p2 p3 t0 t1 t2 t3) = Ok (c, 20) \/
    on_message E r c (ntp_msg p1 p2 p3 t0 t1 t2 t3) = Fault SignedOverflow.
Proof. exact ntp_times. Qed.
Print Assumptions C117_times_are_only_logged_partial.

Example C117_ex :
  on_message (calm false none) (fun c => Ok c) fresh (ntp_msg 0 0 0 7 1 2 0) =
    Ok (set_log [NtpReply (ntp_msg 0 0 0 7 0 2 0)] fresh, 20) /\
  on_message (calm false none) (fun c => Ok c) fresh (ntp_msg 0 0 0 7 8 9 10) = Ok (fresh, 20).
Proof. split; vm_compute; reflexivity. Qed.

(** No times make the server's arithmetic overflow.  False. *)
Theorem C117_times_refuted :
  exists t0 t1 t2 t3, 0 <= t0 < 2 ^ 32 /\ 0 <= t1 < 2 ^ 32 /\ 0 <= t2 < 2 ^ 32 /\ 0 < t3 < 2 ^ 32 /\
    on_message (calm false none) (fun c => Ok c) fresh (ntp_msg 0 0 0 t0 t1 t2 t3) = Fault SignedOverflow.
Proof. exists 0, 0, 1, (2 ^ 31). repeat split; try lia; vm_compute; reflexivity. Qed.
Print Assumptions C117_times_refuted.
