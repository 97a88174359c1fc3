(** Any number of clients at once: C167. *)
From Verif Require Import Common Msg_Model Msg_Spec Msg2_Spec Upd_Spec Upd_Props Ev_Spec Safe_Spec Safe_Props Many_Model Many_Spec Many_Proofs Many2_Proofs.

(** The client at address [i].  *)
Notation client_at i v := (find (fun q => Nat.eqb (g_id q) i) (s_clients v)).

(** Clients do not disturb one another.  A client joins a server with any other clients.  For
    as long as it stays, whatever the others send, whenever they come and go, and in whatever
    order things happen, it is in the state, has been sent the messages and has told the
    application the events that it would have alone: with only the display's frames, the
    changes of the cursor and what happens to itself. *)
Theorem C167_clients_do_not_disturb_each_other :
  forall (E : nat -> env) (fuel : nat) (v v' : server) (i : nat) (c : client) (s : list Z) (shared : bool) (es : list event),
    turns E fuel v (Joins i c s shared :: es) = Ok v' -> Forall (spares i) es ->
    exists q, client_at i v' = Some q /\
      live (E i) fuel (see (s_common v) c) s (flat_map (concerns i) es) = Ok (see (s_common v') (g_client q), g_bytes q).
Proof. exact joined. Qed.
Print Assumptions C167_clients_do_not_disturb_each_other.

(** Nor is there a way to fail that takes several clients: if the server fails then one of
    its clients would have made it fail alone, in the same way. *)
Theorem C167_failures_have_one_cause :
  forall (E : nat -> env) (fuel : nat) (v : server) (es : list event) (f : fault),
    s_clients v = [] -> turns E fuel v es = Fault f ->
    exists pre i c s shared mid rest v1, es = pre ++ Joins i c s shared :: mid ++ rest /\
      turns E fuel v pre = Ok v1 /\ Forall (spares i) mid /\
      live (E i) fuel (see (s_common v1) c) s (flat_map (concerns i) mid) = Fault f.
Proof. exact blame. Qed.
Print Assumptions C167_failures_have_one_cause.

(** So any number of ordinary clients (see C164) does no harm. *)
Theorem C167_any_number_of_ordinary_clients :
  forall (E : nat -> env) (fuel : nat) (g : nat -> agreement) (v : server) (es : list event),
    s_clients v = [] -> Forall (ordinary_event E g) es -> exists v', turns E fuel v es = Ok v'.
Proof. exact many_fine. Qed.
Print Assumptions C167_any_number_of_ordinary_clients.

(** Three clients: one asks for everything while a second sends text and a third, which does
    not share, takes over in the end. *)
Definition empty_server : server := mk_server (mk_common (Some small) 0 None) [].
Definition some_events : list event :=
  [Joins 1 fresh (concat [encodings [0; 16]; ask_all]) true; At 1 (Bytes 7);
   Joins 2 fresh (concat [cut_text_msg 0 0 0 [104; 105]; [4; 1; 0; 0; 0; 0; 0; 97]]) true; At 2 (Bytes 9); At 1 (Bytes 100);
   Feed small [(0, 0, 5, 5)]; At 2 (Bytes 100); At 1 (Encoded some_frame); At 1 Written; Point; At 2 (Bytes 100); At 2 (Lights 3)].

Example C167_ex :
  Forall (spares 1) (skipn 1 some_events) /\ Forall (ordinary_event (fun _ => calm false none) (fun _ => Fixed 10 10)) some_events /\
  match turns (fun _ => calm false none) 3 empty_server some_events with
  | Ok v =>
      map g_id (s_clients v) = [2; 1]%nat /\
      match client_at 2%nat v with
      | Some q => log (g_client q) = [CutText [104; 105]; KeySym 97 true]
      | None => False
      end /\
      match client_at 1%nat v with
      | Some q => In (FbReq 0 0 0 10 10) (log (g_client q)) /\ In Completed (log (g_client q))
      | None => False
      end /\
      match turns (fun _ => calm false none) 3 v [Joins 3 fresh [] false] with
      | Ok v => map g_id (s_clients v) = [3]%nat
      | Fault _ => False
      end
  | Fault _ => False
  end.
Proof.
  assert (S : starts (Fixed 10 10) fresh) by (split; [repeat split|]; split; [reflexivity|]; split; [reflexivity|]; split; [reflexivity|intros []]).
  split. { cbn [skipn some_events]. repeat (apply Forall_cons; [first [exact I|split; [discriminate|reflexivity]]|]). constructor. }
  split.
  { unfold some_events. apply Forall_cons.
    { split; [exact S|]. exists [encodings [0; 16]; ask_all]. split; [reflexivity|].
      apply Forall_cons. { apply (o_encodings _ _ 0 [0; 16]); [cbn; lia|repeat (apply Forall_cons; [unfold int32; lia|]); constructor|cbn; lia]. }
      apply Forall_cons. { apply o_request. reflexivity. } constructor. }
    apply Forall_cons; [exact I|]. apply Forall_cons.
    { split; [exact S|]. eexists. split; [reflexivity|]. apply Forall_cons. { apply o_cut. cbn. lia. }
      apply Forall_cons. { apply o_key. reflexivity. } constructor. }
    repeat (apply Forall_cons; [first [exact I|split; reflexivity]|]). constructor. }
  vm_compute. repeat split; auto 20.
Qed.
