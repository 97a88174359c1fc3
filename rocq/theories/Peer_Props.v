(** C156: the line logged for a new connection. *)
From Verif Require Import Common CommonProofs Log_Model Peer_Model Peer_Spec Peer_Proofs.
Open Scope string_scope.
Open Scope list_scope.
Open Scope Z_scope.

(** Connections over IP from clients that are still there: one line, that names the address.
    Missing: clients of UNIX sockets, and clients that are gone already, see below. *)
Theorem C156_address_is_logged_partial :
  forall ntop6 show level pointer, LOG_INFO <= level -> (forall a, address_text (ntop6 a)) ->
  (forall port a, length port = 2%nat -> length a = 4%nat -> Forall is_byte a ->
     exists line s, announce ntop6 show level (Some (ip4 port a)) pointer = Ok [line] /\ names line s pointer /\ numbers 0 s = a) /\
  (forall port flow a scope, length port = 2%nat -> length flow = 4%nat -> length a = 16%nat -> length scope = 4%nat ->
     exists line, announce ntop6 show level (Some (ip6 port flow a scope)) pointer = Ok [line] /\ names line (ntop6 a) pointer).
Proof.
  intros ntop6 show level pointer V T. apply Z.leb_le in V. split.
  - intros port a P A B. destruct a as [|a [|b [|c [|d [|]]]]]; try discriminate.
    destruct (dotted_reads a b c d B) as [N X]. eexists _, (dotted [a; b; c; d]). split; [|split; [reflexivity|exact N]].
    unfold announce. rewrite string_ip4 by assumption. cbn [bind filter]. rewrite V, text_written by exact X. reflexivity.
  - intros port flow a scope P F A S0. eexists. split; [|reflexivity].
    unfold announce. rewrite string_ip6 by assumption. cbn [bind filter]. rewrite V, text_written by apply T. reflexivity.
Qed.
Print Assumptions C156_address_is_logged_partial.
Example C156_ex : announce (fun _ => [58; 58; 49]) (fun _ => []) LOG_INFO (Some (ip4 [20; 235] [192; 168; 0; 17])) (codes "0x5") =
  Ok [(LOG_INFO, codes "New client connection from 192.168.0.17: 0x5")] /\
  announce (fun _ => [58; 58; 49]) (fun _ => []) LOG_INFO (Some (ip6 [20; 235] [0; 0; 0; 0] (repeat 0 15 ++ [1]) [0; 0; 0; 0])) (codes "0x5") =
  Ok [(LOG_INFO, codes "New client connection from ::1: 0x5")].
Proof. split; vm_compute; reflexivity. Qed.

(** A client that connects to a UNIX socket, or anything else that is not IP: memory nothing
    was written to is logged, whatever it holds, if lines of this level are logged. *)
Theorem C156_other_sockets_log_garbage :
  forall ntop6 show level pointer f1 f2 rest, LOG_INFO <= level -> unle [f1; f2] <> AF_INET -> unle [f1; f2] <> AF_INET6 ->
    announce ntop6 show level (Some (f1 :: f2 :: rest)) pointer = Fault Uninit.
Proof.
  intros ntop6 show level pointer f1 f2 rest V A B. apply Z.leb_le in V. apply Z.eqb_neq in A, B.
  unfold announce, sockaddr_to_string, write. cbn [map app read bind]. rewrite A, B. cbv iota. cbn [bind]. rewrite V. reflexivity.
Qed.
Print Assumptions C156_other_sockets_log_garbage.
Example C156_unix_ex : LOG_INFO <= LOG_DEBUG /\ unle [1; 0] <> AF_INET /\ unle [1; 0] <> AF_INET6.
Proof. repeat split; vm_compute; congruence. Qed.

(** And a client that is gone when its connection is taken on: the kind of its address is
    read though nobody wrote it, at every level. *)
Theorem C156_gone_clients_log_garbage :
  forall ntop6 show level pointer, announce ntop6 show level None pointer = Fault Uninit.
Proof. reflexivity. Qed.
Print Assumptions C156_gone_clients_log_garbage.
Example C156_gone_ex : announce (fun _ => []) (fun _ => []) LOG_PANIC None [] = Fault Uninit.
Proof. reflexivity. Qed.

(** At lower levels the former is not noticed. *)
Theorem C156_quiet_logs_are_safe :
  forall ntop6 show level pointer f1 f2 rest, level < LOG_INFO -> unle [f1; f2] <> AF_INET -> unle [f1; f2] <> AF_INET6 ->
    announce ntop6 show level (Some (f1 :: f2 :: rest)) pointer = Ok [].
Proof.
  intros ntop6 show level pointer f1 f2 rest V A B. apply Z.eqb_neq in A, B.
  unfold announce, sockaddr_to_string, write. cbn [map app read bind]. rewrite A, B. cbv iota. cbn [bind filter fst].
  change LOG_INFO with 3 in *. change LOG_DEBUG with 4. destruct (4 <=? level) eqn:E; [lia|]. destruct (3 <=? level) eqn:E3; [lia|reflexivity].
Qed.
Print Assumptions C156_quiet_logs_are_safe.
Example C156_quiet_ex : LOG_WARNING < LOG_INFO /\ announce (fun _ => []) (fun _ => []) LOG_WARNING (Some [1; 0]) [] = Ok [].
Proof. split; reflexivity. Qed.

Theorem C156_address_is_logged_refuted :
  exists peer, announce (fun _ => []) (fun _ => []) LOG_INFO (Some peer) [] = Fault Uninit /\ peer = [1; 0] /\
    announce (fun _ => []) (fun _ => []) LOG_WARNING None [] = Fault Uninit.
Proof. exists [1; 0]. repeat split. Qed.
Print Assumptions C156_address_is_logged_refuted.
