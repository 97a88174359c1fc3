(** Using the library from within callbacks: C166. *)
From Verif Require Import Common Msg_Model Msg_Spec Msg2_Spec Upd_Spec Upd_Props Ev_Spec Safe_Spec Safe_Proofs Safe_Props React_Model React_Spec React_Proofs.

(** Whatever an application calls in its callbacks about a client (showing new content,
    setting the lights of the keyboard, changing the cursor, any number of times and as it
    likes given all that has happened), an ordinary client does not make the server fail.
    (Partial: not if it closes the client.) *)
Theorem C166_callbacks_may_call_the_library_partial :
  forall (E : env) (app : list out -> list reaction) (fuel : nat) (g : agreement) (c : client)
         (ms : list (list Z)) (l : list happening),
    (forall h, ~ In Leave (app h)) ->
    starts g c -> Forall (ordinary g (e_experimental E)) ms -> Forall (may_happen g) l ->
    exists c' s, live_with E app fuel c (concat ms) l = Ok (c', s).
Proof.
  intros E app fuel g c ms l ST S T M.
  destruct (live_fine E app g ST fuel l c (concat ms) M (start_sane E g c ms S T)) as (c' & s & R & _).
  exists c', s. exact R.
Qed.
Print Assumptions C166_callbacks_may_call_the_library_partial.

(** Any of the library's functions.  False: closing the client, say because the user has
    pressed a key, frees it, and the code that has called the callback goes on using it. *)
Theorem C166_callbacks_may_call_the_library_refuted :
  exists (app : list out -> list reaction) (ms : list (list Z)) (l : list happening),
    starts (Fixed 10 10) fresh /\ Forall (ordinary (Fixed 10 10) false) ms /\ Forall (may_happen (Fixed 10 10)) l /\
    (forall h, (forall s d, ~ In (KeySym s d) h) -> app h = []) /\
    live_with (calm false none) app 3 fresh (concat ms) l = Fault UseAfterFree.
Proof.
  exists (fun h => if existsb (fun o => match o with KeySym _ _ => true | _ => false end) h then [Leave] else []),
    [[4; 1; 0; 0; 0; 0; 255; 27]], [Arrive 8].
  split. { split; [repeat split|]. split; [reflexivity|]. split; [reflexivity|]. split; [reflexivity|]. intros []. }
  split. { apply Forall_cons; [apply o_key; reflexivity|constructor]. }
  split. { apply Forall_cons; [exact I|constructor]. }
  split.
  { intros h H. destruct (existsb _ h) eqn:X; [|reflexivity]. apply existsb_exists in X as (o & IN & X).
    destruct o; try discriminate X. destruct (H _ _ IN). }
  vm_compute. reflexivity.
Qed.
Print Assumptions C166_callbacks_may_call_the_library_refuted.

(** An application whose callbacks call nothing leaves everything as it is in the model
    that the other theorems are about. *)
Theorem C166_silent_callbacks :
  forall (E : env) (resume : client -> res client) (c : client) (d : option (list Z)),
    on_client_event E (fun _ => []) resume c d = Msg_Model.on_client_event E resume c d.
Proof. exact event_silent. Qed.
Print Assumptions C166_silent_callbacks.

(** An application that at each callback shows something, lights a lamp and changes the
    cursor.  The client is sent the frame that the application shows when it is asked for
    one. *)
Definition busy (h : list out) : list reaction := [Show small [(0, 0, 5, 5)]; Light (zlen (map (fun _ => 0) h)); Cursor].

Example C166_ex :
  (forall h, ~ In Leave (busy h)) /\ starts (Fixed 10 10) fresh /\ Forall (ordinary (Fixed 10 10) false) some_messages /\
  (forall l, l = [Arrive 30; Arrive 5; Meanwhile (IDamage small [(0, 0, 5, 5)]); Arrive 3; Meanwhile (IEncoded some_frame);
                  Meanwhile (ILed 3); Arrive 1000; Meanwhile IWritten; Meanwhile ICursor; Meanwhile IClosed; Arrive 3] ->
     Forall (may_happen (Fixed 10 10)) l /\
     match live_with (calm false none) busy 3 fresh (concat some_messages) l,
           live (calm false none) 3 fresh (concat some_messages) l with
     | Ok (c, s), Ok (c0, s0) =>
         s = [] /\ In (CutText [104; 101; 108; 108; 111]) (log c) /\ srv_seq c = 5 /\ srv_seq c0 = 1
     | _, _ => False
     end).
Proof.
  destruct C164_ex as (A & B & C & _).
  split. { intros h X. cbn in X. intuition discriminate. }
  split; [exact A|]. split; [exact B|]. intros l L. split; [apply C; exact L|]. subst l.
  vm_compute. repeat split; auto 20.
Qed.
