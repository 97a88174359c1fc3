(** An ordinary client never makes the server fail: C164. *)
From Verif Require Import Common Msg_Model Msg_Spec Msg2_Spec Upd_Spec Upd_Props Ev_Spec Safe_Spec Safe_Proofs Safe2_Proofs.

(** Whatever ordinary messages a client sends, in whatever pieces they arrive, and whatever
    else happens in between, the server goes on: no access outside of a buffer or to memory
    already freed, no assertion that fails, no overflow, no endless loop.  (Partial: only
    ordinary messages; and either all frames have the size the client knows, or the client
    always lists one of the encodings by which it can be told a new one.) *)
Theorem C164_ordinary_clients_do_no_harm_partial :
  forall (E : env) (fuel : nat) (g : agreement) (c : client) (ms : list (list Z)) (l : list happening),
    starts g c -> Forall (ordinary g (e_experimental E)) ms -> Forall (may_happen g) l ->
    exists c' s, live E fuel c (concat ms) l = Ok (c', s).
Proof.
  intros E fuel g c ms l S T M.
  destruct (live_sane E g fuel c ms l S T M) as (c' & s & R & _). exists c', s. exact R.
Qed.
Print Assumptions C164_ordinary_clients_do_no_harm_partial.

(** Nor does it make the server keep more than the 4096 bytes of its buffer and one cut
    text of at most ten million bytes. *)
Theorem C164_little_is_kept :
  forall (E : env) (fuel : nat) (g : agreement) (c : client) (ms : list (list Z)) (l : list happening) (c' : client) (s : list Z),
    starts g c -> Forall (ordinary g (e_experimental E)) ms -> Forall (may_happen g) l ->
    live E fuel c (concat ms) l = Ok (c', s) ->
    zlen (buf c') <= 4096 /\ forall t, cut c' = Some t -> zlen (ct_data t) < ct_length t <= 10000000.
Proof.
  intros E fuel g c ms l c' s S T M R.
  destruct (live_sane E g fuel c ms l S T M) as (c2 & s2 & R2 & D).
  rewrite R in R2. injection R2 as <- <-. exact D.
Qed.
Print Assumptions C164_little_is_kept.

(** Every client, as long as it keeps to RFC 6143 and the display keeps its size.  False:
    asking for the whole screen makes the server forget the size if the client lists the
    extended desktop size (src/server.c:1000-1004); if it then lists other encodings it cannot be
    told the size, is closed and used afterwards. *)
Theorem C164_ordinary_clients_do_no_harm_refuted :
  exists (ms : list (list Z)) (l : list happening),
    known fresh = (10, 10) /\
    (forall m, In m ms -> m = encodings [-308] \/ m = encodings [0] \/ m = ask_all) /\
    (forall f, In (Meanwhile (IEncoded f)) l -> f_w f = 10 /\ f_h f = 10) /\
    live (calm true none) 3 fresh (concat ms) l = Fault UseAfterFree.
Proof.
  exists [encodings [-308]; ask_all; encodings [0]],
    [Arrive 100; Meanwhile (IEncoded some_frame); Meanwhile (IDamage small [(0, 0, 5, 5)]); Meanwhile (IEncoded some_frame)].
  split; [reflexivity|]. split.
  { intros m I. cbn [In] in I. intuition congruence. }
  split.
  { intros f I. cbn [In] in I. destruct I as [I|[I|[I|[I|[]]]]]; try discriminate I; injection I as <-; split; reflexivity. }
  vm_compute. reflexivity.
Qed.
Print Assumptions C164_ordinary_clients_do_no_harm_refuted.

(** A client of each kind, with a cut text in pieces, keys and the time in between. *)
Definition some_messages : list (list Z) :=
  [encodings [0; 16]; ask_all; cut_text_msg 0 0 0 [104; 101; 108; 108; 111]; qemu_key_msg 1 97 30;
   ntp_msg 0 0 0 5 0 0 0; [4; 1; 0; 0; 0; 0; 0; 97]].

Example C164_ex :
  starts (Fixed 10 10) fresh /\ Forall (ordinary (Fixed 10 10) false) some_messages /\
  (forall l, l = [Arrive 30; Arrive 5; Meanwhile (IDamage small [(0, 0, 5, 5)]); Arrive 3; Meanwhile (IEncoded some_frame);
                  Meanwhile (ILed 3); Arrive 1000; Meanwhile IWritten; Meanwhile ICursor; Meanwhile IClosed; Arrive 3] ->
     Forall (may_happen (Fixed 10 10)) l /\
     match live (calm false none) 3 fresh (concat some_messages) l with
     | Ok (c, s) => closed c = true /\ s = [] /\ In (CutText [104; 101; 108; 108; 111]) (log c) /\ In (KeySym 97 true) (log c)
     | Fault _ => False
     end) /\
  starts Resizable (set_encs [-223] fresh) /\ ordinary Resizable false (encodings [0; -223; 16]).
Proof.
  split. { split; [repeat split|]. split; [reflexivity|]. split; [reflexivity|]. split; [reflexivity|]. intros []. }
  split.
  { unfold some_messages.
    apply Forall_cons. { apply (o_encodings _ _ 0 [0; 16]); [cbn; lia|repeat (apply Forall_cons; [unfold int32; lia|]); constructor|cbn; lia]. }
    apply Forall_cons. { apply o_request. reflexivity. }
    apply Forall_cons. { apply o_cut. cbn. lia. }
    apply Forall_cons. { apply o_qemu. lia. }
    apply Forall_cons. { apply o_ntp; lia. }
    apply Forall_cons. { apply o_key. reflexivity. }
    constructor. }
  split.
  { intros l ->. split.
    - repeat (apply Forall_cons; [first [exact I|split; reflexivity]|]). constructor.
    - vm_compute. repeat split; auto 20. }
  split. { split; [repeat split|]. split; [reflexivity|]. split; [reflexivity|]. left. left. reflexivity. }
  apply (o_encodings _ _ 0 [0; -223; 16]); [cbn; lia|repeat (apply Forall_cons; [unfold int32; lia|]); constructor|].
  left. cbn. auto.
Qed.
