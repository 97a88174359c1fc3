(** C135: listening sockets. *)
From Verif Require Import Common CommonProofs Listen_Model Listen_Spec Listen_Proofs.

(** A call of nvnc_listen_tcp that fails leaves everything as it was.  One that succeeds
    adds one descriptor, bound to one of the addresses of the name, to those that are open. *)
Theorem C135_listen_tcp :
  forall s l t w rc s' w', nvnc_listen_tcp s l t w = (rc, s', w') ->
    (rc = -1 /\ s' = s /\ untouched w w') \/
    (rc = 0 /\ exists k a addrs, l = Some addrs /\ In a addrs /\ s' = k :: s /\ k_type k = t /\
       ~ In (k_fd k) (map fst (w_fds w)) /\ w_fds w' = (k_fd k, Inet a) :: w_fds w /\ w_files w' = w_files w /\ w_bad w' = w_bad w).
Proof.
  intros s l t w rc s' w' H. apply tcp_inv in H as [H|(R & k & a & addrs & H1 & H2 & H3 & H4 & _ & H)]; [now left|].
  right. split; [exact R|]. exists k, a, addrs. tauto.
Qed.
Print Assumptions C135_listen_tcp.

(** If nothing fails it is the first address. *)
Theorem C135_first_address :
  forall s a l t w, w_ans w = [] -> exists k w', nvnc_listen_tcp s (Some (a :: l)) t w = (0, k :: s, w') /\
    lookup (k_fd k) w' = Some (Inet a) /\ k_watched k = true.
Proof.
  intros s a l t w A. unfold nvnc_listen_tcp, bind_address_tcp. cbn [try_addresses].
  unfold sys_socket, ask. rewrite A. set (fd := lowest _ 0 _).
  assert (P : 0 <= fd) by apply lowest_ge. replace (fd <? 0) with false by lia.
  unfold bind_inet, nvnc__listen, ask. cbn [w_ans set_addr negb]. rewrite ?A. cbn [w_ans set_addr negb]. replace (fd <? 0) with false by lia.
  rewrite ?A. cbn [w_ans negb]. eexists _, _. split; [reflexivity|]. cbn [k_fd k_watched]. split; [|reflexivity].
  unfold lookup, set_addr. cbn [w_fds map fst find]. rewrite Z.eqb_refl. cbn [find fst]. rewrite Z.eqb_refl. reflexivity.
Qed.
Print Assumptions C135_first_address.

(* a world with two descriptors; the first address is refused *)
Definition some_world (ans : list bool) : world := mk_world [(0, Unbound); (1, Unbound)] [(codes "/tmp/other", 3)] 4 0 ans.
Example C135_tcp_ex : kernel_ok (some_world [true; true; false]) /\ exists s w',
  nvnc_listen_tcp [] (Some [7; 8]) NORMAL (some_world [true; true; false]) = (0, s, w') /\ w_fds w' = [(2, Inet 8); (0, Unbound); (1, Unbound)] /\ w_ans w' = [].
Proof.
  split; [|eexists _, _; split; [vm_compute; reflexivity|split; reflexivity]].
  split; [|split]; cbn; [| |intros [H|[]]; discriminate]; repeat constructor; cbn; intuition discriminate.
Qed.

(** nvnc_listen_unix: a name is made if the call succeeds, and the descriptor is bound to
    it; a call that fails changes nothing.  (Partial: an empty name makes none, and a
    failure after bind leaves the name behind, see below.) *)
Theorem C135_listen_unix_partial :
  forall s name t w rc s' w', kernel_ok w -> nvnc_listen_unix s name t w = (rc, s', w') ->
    (rc = -1 /\ s' = s /\ w_fds w' = w_fds w /\ w_bad w' = w_bad w /\ (t = WEBSOCKET -> w_files w' = w_files w)) \/
    (rc = 0 /\ zlen name < 108 /\ exists k a, s' = k :: s /\ k_type k = t /\ ~ In (k_fd k) (map fst (w_fds w)) /\
       w_fds w' = (k_fd k, a) :: w_fds w /\ w_bad w' = w_bad w /\
       (name <> [] -> ~ In name (map fst (w_files w)) /\ exists f, a = Path name f /\ w_files w' = (name, f) :: w_files w)).
Proof.
  intros s name t w rc s' w' (_ & _ & K) H.
  apply unix_inv in H as [(R & S & F & B & Fi)|(R & k & a & S & T & _ & N & L & F & Fi & B & Nm)]; [left|right|exact K].
  - repeat split; try assumption. intros ->. destruct Fi as [Fi|[E _]]; [exact Fi|discriminate].
  - split; [exact R|]. split; [exact L|]. exists k, a. repeat split; try assumption.
    + destruct Nm as [[E _]|(_ & Nn & _)]; [contradiction|exact Nn].
    + destruct Nm as [[E _]|(_ & Nn & f & ->)]; [contradiction|]. exists f. split; [reflexivity|exact Fi].
Qed.
Print Assumptions C135_listen_unix_partial.

Theorem C135_listen_unix_refuted :
  (exists s name w s' w', kernel_ok w /\ nvnc_listen_unix s name NORMAL w = (-1, s', w') /\ w_files w' <> w_files w) /\
  (exists s w s' w', kernel_ok w /\ nvnc_listen_unix s [] NORMAL w = (0, s', w') /\ w_files w' = w_files w).
Proof.
  assert (K : forall a, kernel_ok (some_world a)).
  { intros a. split; [|split]; cbn; [| |intros [H|[]]; discriminate]; repeat constructor; cbn; intuition discriminate. }
  split.
  - exists [], (codes "/tmp/vnc"), (some_world [true; true; true; false]). eexists _, _. split; [apply K|]. split; [vm_compute; reflexivity|discriminate].
  - exists [], (some_world []). eexists _, _. split; [apply K|]. split; [vm_compute; reflexivity|reflexivity].
Qed.
Print Assumptions C135_listen_unix_refuted.

(** The name that stays makes the next attempt fail, whatever the kernel answers then. *)
Theorem C135_second_attempt_fails :
  forall s name t w f, name <> [] -> In (name, f) (w_files w) -> exists w', nvnc_listen_unix s name t w = (-1, s, w').
Proof.
  intros s name t w f NE I. unfold nvnc_listen_unix, bind_address_unix. destruct (108 <=? zlen name); [eexists; reflexivity|].
  destruct (sys_socket w) as [fd w1] eqn:Sk. apply socket_inv in Sk as [[-> U]|(P & N & F & Fi & Bd)]; [eexists; reflexivity|].
  replace (fd <? 0) with false by lia. unfold bind_unix. destruct (ask w1) as [ok w2] eqn:A. apply ask_same in A as [(A1 & A2 & A3) A4].
  destruct ok; cbn [negb]; [|eexists; reflexivity]. destruct name as [|x name]; [contradiction|].
  replace (existsb (fun p => same (fst p) (x :: name)) (w_files w2)) with true; [eexists; reflexivity|].
  symmetry. apply existsb_exists. exists (x :: name, f). rewrite A2, Fi. split; [exact I|]. now apply same_true.
Qed.
Print Assumptions C135_second_attempt_fails.

(** A server on which listening was begun any number of times, successfully or not, and
    that is then deleted leaves the descriptors and names as they were.  (Partial: without
    Unix sockets that are no WebSockets.) *)
Theorem C135_nothing_left_behind_partial :
  forall calls w s' w', kernel_ok w -> Forall cleans_up calls -> make_all calls [] w = (s', w') ->
    untouched w (close_sockets s' w').
Proof.
  intros calls w s' w' K CU H. destruct (inv_all w calls [] w s' w' (inv_start w K) CU H) as (own & -> & I). now apply inv_close.
Qed.
Print Assumptions C135_nothing_left_behind_partial.
Example C135_behind_ex : exists s' w',
  make_all [ListenTcp (Some [7]) NORMAL; ListenUnix (codes "/tmp/vnc") WEBSOCKET; ListenUnix (codes "/tmp/other") WEBSOCKET] [] (some_world []) = (s', w') /\
  length s' = 2%nat /\ w_fds w' <> w_fds (some_world []) /\ w_files w' <> w_files (some_world []).
Proof. eexists _, _. split; [vm_compute; reflexivity|]. split; [reflexivity|]. split; discriminate. Qed.

Theorem C135_nothing_left_behind_refuted :
  exists calls w s' w', kernel_ok w /\ make_all calls [] w = (s', w') /\ ~ untouched w (close_sockets s' w').
Proof.
  exists [ListenUnix (codes "/tmp/vnc") NORMAL], (some_world [true; true; true; false]). eexists _, _.
  split; [split; [|split]; cbn; [| |intros [H|[]]; discriminate]; repeat constructor; cbn; intuition discriminate|].
  split; [vm_compute; reflexivity|]. intros (_ & H & _). discriminate.
Qed.
Print Assumptions C135_nothing_left_behind_refuted.

(** nvnc_open and nvnc_open_from_fd: without a server the world is as before; in
    particular a descriptor that was handed over is still open. *)
Theorem C135_open :
  (forall l t w w', nvnc_open l t w = (None, w') -> untouched w w') /\
  (forall fd w w', nvnc_open_from_fd fd w = (None, w') -> untouched w w').
Proof.
  split.
  - intros l t w w' H. unfold nvnc_open in H. destruct (nvnc_listen_tcp [] l t w) as [[rc s] w1] eqn:T.
    apply tcp_inv in T as [(-> & -> & U)|(-> & k & a & addrs & _)]; [|discriminate]. injection H as <-. exact U.
  - intros fd w w' H. unfold nvnc_open_from_fd, nvnc_listen in H. destruct (nvnc__listen fd NORMAL w) as [[k|] w1] eqn:L; [discriminate|].
    injection H as <-. now apply listen_inv in L.
Qed.
Print Assumptions C135_open.

(** But one that was taken is closed with the server. *)
Theorem C135_given_descriptor_is_closed :
  forall fd w s w', nvnc_open_from_fd fd w = (Some s, w') -> In fd (map fst (w_fds w)) ->
    ~ In fd (map fst (w_fds (close_sockets s w'))) /\ w_files (close_sockets s w') = w_files w /\ w_bad (close_sockets s w') = w_bad w.
Proof.
  intros fd w s w' H I. unfold nvnc_open_from_fd, nvnc_listen in H. destruct (nvnc__listen fd NORMAL w) as [[k|] w1] eqn:L; [|discriminate].
  injection H as <- <-. apply listen_inv in L as [(U1 & U2 & U3) (K1 & _ & K3)]. cbn [close_sockets]. rewrite K1, K3.
  unfold sys_close, lookup. destruct (find (fun p => fst p =? fd) (w_fds w1)) eqn:F.
  - cbn [w_fds w_files w_bad]. split; [|split; congruence]. intros H. apply in_map_iff in H as (q & Q & H). apply filter_In in H as [_ H]. lia.
  - exfalso. apply in_map_iff in I as (q & Q & I). rewrite <- U1 in I. pose proof (find_none _ _ F _ I). cbn in *. lia.
Qed.
Print Assumptions C135_given_descriptor_is_closed.
Example C135_given_ex : exists s w', nvnc_open_from_fd 1 (some_world []) = (Some s, w') /\ In 1 (map fst (w_fds (some_world []))).
Proof. eexists _, _. split; [reflexivity|]. cbn. auto. Qed.

(** Deleting a server removes whatever has the name by then: here another socket, that was
    bound to it after the name had been removed. *)
Theorem C135_only_own_names_are_removed_refuted :
  exists k w name f g, lookup (k_fd k) w = Some (Path name f) /\ f <> g /\ In (name, g) (w_files w) /\
    kernel_ok w /\ ~ In (name, g) (w_files (close_sockets [k] w)).
Proof.
  exists (mk_lsock 4 NORMAL false true), (mk_world [(4, Path (codes "/tmp/vnc") 3)] [(codes "/tmp/vnc", 5)] 6 0 []), (codes "/tmp/vnc"), 3, 5.
  split; [reflexivity|]. split; [discriminate|]. split; [left; reflexivity|].
  split; [split; [|split]; cbn; [| |intros [H|[]]; discriminate]; repeat constructor; cbn; intuition discriminate|]. vm_compute. auto.
Qed.
Print Assumptions C135_only_own_names_are_removed_refuted.

(** A call can succeed although nobody watches the descriptor: connections stay
    unanswered. *)
Theorem C135_success_means_answering_refuted :
  exists s l t w k w', nvnc_listen_tcp s l t w = (0, k :: s, w') /\ k_watched k = false.
Proof.
  exists [], (Some [7]), NORMAL, (some_world [true; true; true; true; true; true; false]). eexists _, _. split; [vm_compute; reflexivity|reflexivity].
Qed.
Print Assumptions C135_success_means_answering_refuted.
