(** Only what a client has said it understands is sent to it: C165. *)
From Verif Require Import Common CommonProofs Msg_Model Msg_Spec Msg2_Spec Upd_Spec Upd_Props Ev_Spec Safe_Spec Offer_Spec Offer_Proofs.

(** Let a client, whose encodings come from the messages [before], send ordinary messages,
    arriving in any pieces, and let anything else happen in between.  Then all that is sent
    to it ([new]) had been listed or used by it in messages that had then been received: there are
    [d], among the bytes that have arrived, which account for each of [new].  (Partial:
    except for the lights of a client that has only listed VMware's.) *)
Theorem C165_only_what_was_listed_is_sent_partial :
  forall (E : env) (fuel : nat) (g : agreement) (c : client) (before ms : list (list Z)) (l : list happening) (c' : client) (s : list Z),
    starts g c -> (forall e, In e (encs c) -> listed before e) ->
    Forall (ordinary g (e_experimental E)) ms -> Forall (may_happen g) l ->
    live E fuel c (concat ms) l = Ok (c', s) ->
    exists d todo new, ms = d ++ todo /\ (length (concat d) + length s <= length (concat ms))%nat /\
      log c' = log c ++ new /\ Forall (sent_rightly true E (among l) (before ++ d)) new.
Proof. intros E fuel g. exact (live_offered E g fuel). Qed.
Print Assumptions C165_only_what_was_listed_is_sent_partial.

(** With no exception.  False: a client that has listed VMware's lights (1464686184) only
    is sent a rectangle of QEMU's type (-261). *)
Definition vmware : list (list Z) := [encodings [1464686184]; ask_all].
Definition vmware_day : list happening := [Meanwhile (ILed 4); Arrive 100].
Definition vmware_lights : list Z := [0; 0; 0; 1; 0; 0; 0; 0; 0; 0; 0; 0; 255; 255; 254; 251; 0; 0; 0; 4].

Lemma vmware_listed seen rest e : vmware = seen ++ rest -> listed seen e -> e mod 2 ^ 32 = 1464686184.
Proof.
  intros Q (a & p & l & b & -> & L & I & _ & X).
  assert (M : In (set_encodings_msg p l) vmware).
  { rewrite Q. apply in_or_app. left. apply in_or_app. right. left. reflexivity. }
  unfold vmware in M. cbn [app In] in M.
  destruct M as [M|[M|[]]]; [|discriminate M].
  assert (LE : length (encodings [1464686184]) = length (set_encodings_msg p l)) by (rewrite M; reflexivity).
  assert (FM : forall k, length (flat_map (fun e => be 4 (e mod 2 ^ 32)) k) = (4 * length k)%nat).
  { induction k as [|x k IH]; [reflexivity|]. cbn [flat_map length]. rewrite app_length, be_length, IH. lia. }
  unfold set_encodings_msg in LE. rewrite !app_length, be_length, FM in LE. cbn in LE.
  destruct l as [|x [|y l]]; [discriminate LE| |cbn in LE; lia].
  cbn [In] in X. destruct X as [->|[]].
  unfold set_encodings_msg in M. cbn [flat_map] in M. rewrite app_nil_r in M.
  apply (f_equal (skipn 4)) in M. change (skipn 4 (encodings [1464686184])) with (be 4 1464686184) in M.
  rewrite app_assoc, skipn_app_eq in M by (rewrite app_length, be_length; reflexivity). symmetry.
  apply (be_inj 4); [cbn; lia| |exact M]. apply Z.mod_pos_bound. lia.
Qed.

Theorem C165_only_what_was_listed_is_sent_refuted :
  exists (ms : list (list Z)) (l : list happening) (c' : client) (s : list Z) (o : out),
    starts (Fixed 10 10) fresh /\ encs fresh = [] /\ Forall (ordinary (Fixed 10 10) false) ms /\
    Forall (may_happen (Fixed 10 10)) l /\ live (calm false none) 3 fresh (concat ms) l = Ok (c', s) /\
    In o (log c') /\ ~ sent_rightly false (calm false none) (among l) ms o.
Proof.
  exists vmware, vmware_day.
  destruct (live (calm false none) 3 fresh (concat vmware) vmware_day) as [[c' s]|] eqn:R; [|exfalso; vm_compute in R; discriminate R].
  exists c', s, (Update KLed vmware_lights).
  split. { split; [repeat split|]. split; [reflexivity|]. split; [reflexivity|]. split; [reflexivity|]. intros []. }
  split; [reflexivity|]. split.
  { apply Forall_cons. { apply (o_encodings _ _ 0 [1464686184]); [cbn; lia|repeat (apply Forall_cons; [unfold int32; lia|]); constructor|cbn; lia]. }
    apply Forall_cons. { apply o_request. reflexivity. } constructor. }
  split. { repeat (apply Forall_cons; [first [exact I|split; reflexivity]|]). constructor. }
  split; [reflexivity|]. split.
  { vm_compute in R. injection R as <- _. cbn [log In]. auto 30. }
  intros (seen & rest & Q & n & items & pic & M & FI & P).
  assert (NP : pic = []).
  { destruct P as [P|[(f & P & PF)|(P & _)]]; [exact P|..].
    - exfalso. cbn [vmware_day In] in P. destruct P as [P|[P|[]]]; discriminate P.
    - exfalso. pose proof (vmware_listed _ _ _ Q P) as X. discriminate X. }
  subst pic. rewrite app_nil_r in M. clear P.
  apply (f_equal (skipn 4)) in M. rewrite app_assoc, skipn_app_eq in M by (rewrite app_length, be_length; reflexivity).
  destruct items as [|it items]; [discriminate M|]. apply Forall_cons_iff in FI as [(e & body & (x & y & w & h & ->) & D) _].
  assert (M2 : skipn 4 vmware_lights = (be 2 x ++ be 2 y ++ be 2 w ++ be 2 h) ++ be 4 (e mod 2 ^ 32) ++ body ++ concat items)
    by (rewrite M; cbn [concat]; rewrite <- !app_assoc; reflexivity).
  apply (f_equal (fun k => firstn 4 (skipn 8 k))) in M2. cbv beta in M2.
  rewrite skipn_app_eq in M2 by (rewrite !app_length, !be_length; reflexivity).
  rewrite firstn_app_eq in M2 by (rewrite be_length; reflexivity).
  assert (EV : be 4 (2 ^ 32 - 261) = be 4 (e mod 2 ^ 32)) by exact M2.
  apply be_inj in EV; [|cbn; lia|apply Z.mod_pos_bound; lia].
  destruct D as [(_ & [L|[-> _]])|(F & _)].
  - rewrite (vmware_listed _ _ _ Q L) in EV. discriminate EV.
  - discriminate EV.
  - discriminate F.
Qed.
Print Assumptions C165_only_what_was_listed_is_sent_refuted.

(** A client that lists lights, the cursor, fences and continuous updates gets them all. *)
Definition fond : list (list Z) := [encodings [0; -261; -239; -312; -313; -1063131698; -258]; ask_all; ask_all; ask_all; ntp_msg 0 0 0 5 0 0 0].

Example C165_ex :
  starts (Fixed 10 10) fresh /\ Forall (ordinary (Fixed 10 10) false) fond /\
  (forall l, l = [Arrive 10; Meanwhile (ILed 4); Meanwhile ICursor; Arrive 1000; Meanwhile (IEncoded some_frame)] ->
     Forall (may_happen (Fixed 10 10)) l /\
     match live (calm false none) 3 fresh (concat fond) l with
     | Ok (c, s) => s = [] /\ In (Sent [150]) (log c) /\ In (NtpReply ([160; 0; 0; 0; 0; 0; 0; 5] ++ be 4 0 ++ be 4 0 ++ be 4 0)) (log c) /\
         In (Update KCursor ([0; 0; 0; 1] ++ [7])) (log c) /\
         In (Update KLed ([0; 0; 0; 1] ++ be 8 0 ++ [255; 255; 254; 251; 4])) (log c)
     | Fault _ => False
     end) /\
  (forall ms, ms = [encodings [-258]; encodings [0]] -> listed ms 0 /\ listed [encodings [-258]] (-258) /\
   sent_rightly false (calm false none) (fun _ => False) ms (Update KExt ([0; 0; 0; 1] ++ be 8 0 ++ [255; 255; 254; 254]))).
Proof.
  split. { split; [repeat split|]. split; [reflexivity|]. split; [reflexivity|]. split; [reflexivity|]. intros []. }
  split.
  { unfold fond.
    apply Forall_cons. { apply (o_encodings _ _ 0 [0; -261; -239; -312; -313; -1063131698; -258]); [cbn; lia|repeat (apply Forall_cons; [unfold int32; lia|]); constructor|cbn; lia]. }
    apply Forall_cons. { apply o_request. reflexivity. }
    apply Forall_cons. { apply o_request. reflexivity. }
    apply Forall_cons. { apply o_request. reflexivity. }
    apply Forall_cons. { apply o_ntp; lia. }
    constructor. }
  split.
  { intros l ->. split.
    - repeat (apply Forall_cons; [first [exact I|split; reflexivity]|]). constructor.
    - vm_compute. repeat split; auto 30. }
  intros ms ->.
  assert (L2 : listed [encodings [-258]] (-258)).
  { exists [], 0, [-258], []. split; [reflexivity|]. split; [cbn; lia|]. split; [apply Forall_cons; [unfold int32; lia|constructor]|].
    split; [constructor|left; reflexivity]. }
  split.
  { exists [encodings [-258]], 0, [0], []. split; [reflexivity|]. split; [cbn; lia|]. split; [apply Forall_cons; [unfold int32; lia|constructor]|].
    split; [constructor|left; reflexivity]. }
  split; [exact L2|].
  exists [encodings [-258]], [encodings [0]]. split; [reflexivity|].
  exists 1, [be 8 0 ++ [255; 255; 254; 254]], []. split; [reflexivity|]. split; [|left; reflexivity].
  apply Forall_cons; [|constructor]. exists (-258), []. split; [exists 0, 0, 0, 0; reflexivity|]. left. split; [reflexivity|left; exact L2].
Qed.
