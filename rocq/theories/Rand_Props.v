(** C172: secret numbers are random. *)
From Verif Require Import Common CommonProofs Init_Model Auth_Model Auth_Spec Auth_Props Hand_Spec Hand_Props Rand_Model Rand_Spec Rand_Proofs.

(** When the kernel gives all bytes asked for, the secret for Diffie-Hellman is made of
    these bytes and no others, and the keys of every RSA-AES connection are made with bytes
    it gave when the challenge was sent.  Missing: a kernel that does not. *)
Theorem C172_secret_is_random_partial : forall a bytes,
  supplies 256 a bytes -> generate_random a = Ok (unbe bytes).
Proof.
  intros a bytes [-> L]. rewrite secret_drawn by (cbn; lia). now rewrite L.
Qed.
Print Assumptions C172_secret_is_random_partial.

Theorem C172_keys_are_random_partial : forall cfg e kernel cached reads c b,
  (forall l n, exists bytes, supplies n (kernel l n) bytes) -> consistent cfg cached -> Forall all_bytes reads ->
  session cfg (with_kernel kernel e) (connect cached, []) reads = Ok (c, b) ->
  forall before server client after, log c = before ++ Upgraded RsaAes server client :: after ->
  exists l0 m is256 bytes, before = l0 ++ [Sent Clear m] /\
    supplies (random_size is256) (kernel l0 (random_size is256)) bytes /\ keys_from e is256 bytes server client.
Proof.
  intros cfg e kernel cached reads c b K C F S before server client after L.
  destruct (keys_drawn cfg e kernel cached reads c b C F S before server client after L) as (l0 & m & is256 & B & D).
  destruct (K l0 (random_size is256)) as (bytes & E & Len). rewrite E, (drawn bytes _ Len) in D.
  exists l0, m, is256, bytes. repeat split; assumption.
Qed.
Print Assumptions C172_keys_are_random_partial.

(** Otherwise: the bytes the kernel did not give are zero in the server's number for
    RSA-AES, and the connection goes on; for Diffie-Hellman, memory is read that was never
    written. *)
Theorem C172_missing_bytes_are_zero : forall a n,
  possible n a -> draw a n = match a with Gave l => l ++ repeat 0 (n - length l) | Refused => repeat 0 n end.
Proof. exact drawn_any. Qed.
Print Assumptions C172_missing_bytes_are_zero.

Theorem C172_keys_without_random_numbers : forall cfg e kernel cached reads c b,
  (forall l n, kernel l n = Refused) -> consistent cfg cached -> Forall all_bytes reads ->
  session cfg (with_kernel kernel e) (connect cached, []) reads = Ok (c, b) ->
  forall before server client after, log c = before ++ Upgraded RsaAes server client :: after ->
  exists is256, keys_from e is256 (repeat 0 (random_size is256)) server client.
Proof.
  intros cfg e kernel cached reads c b K C F S before server client after L.
  destruct (keys_drawn cfg e kernel cached reads c b C F S before server client after L) as (l0 & m & is256 & B & D).
  rewrite K, drawn_any in D by exact I. eauto.
Qed.
Print Assumptions C172_keys_without_random_numbers.

Theorem C172_secret_of_unwritten_memory : forall a,
  possible 256 a -> (forall bytes, ~ supplies 256 a bytes) -> generate_random a = Fault Uninit.
Proof.
  intros a P N. rewrite secret_drawn by exact P. destruct a as [l|]; [|reflexivity].
  destruct (Nat.eqb_spec (length l) 256) as [E|_]; [|reflexivity]. destruct (N l). split; [reflexivity|exact E].
Qed.
Print Assumptions C172_secret_of_unwritten_memory.

Theorem C172_numbers_are_random_refuted :
  (exists cfg e reads c b server client, Forall all_bytes reads /\ consistent cfg [] /\
     session cfg (with_kernel (fun _ _ => Refused) e) (connect [], []) reads = Ok (c, b) /\
     In (Upgraded RsaAes server client) (log c) /\ keys_from e false (repeat 0 16) server client) /\
  (exists a, possible 256 a /\ generate_random a = Fault Uninit).
Proof.
  split; [|exists Refused; split; [exact I|reflexivity]].
  exists toy_cfg, toy, rsa_reads. eexists _, _, (repeat 9 16 ++ repeat 0 4), (repeat 0 16 ++ repeat 9 4).
  split; [repeat constructor; vm_compute; discriminate|]. split; [left; reflexivity|]. split; [vm_compute; reflexivity|].
  split; [find_in|]. exists (repeat 9 16). repeat split.
Qed.
Print Assumptions C172_numbers_are_random_refuted.

(* a kernel that gives sevens, and one that is interrupted *)
Example C172_cases :
  supplies 256 (Gave (repeat 7 256)) (repeat 7 256) /\
  (exists c b, session toy_cfg (with_kernel (fun _ n => Gave (repeat 7 n)) toy) (connect [], []) rsa_reads = Ok (c, b) /\
     In (Upgraded RsaAes (repeat 9 16 ++ repeat 7 4) (repeat 7 16 ++ repeat 9 4)) (log c)) /\
  possible 256 (Gave (repeat 7 100)) /\ (forall bytes, ~ supplies 256 (Gave (repeat 7 100)) bytes) /\
  draw (Gave [1; 2; 3]) 5 = [1; 2; 3; 0; 0].
Proof.
  split; [split; reflexivity|]. split; [eexists _, _; split; [vm_compute; reflexivity|find_in]|].
  split; [cbn; lia|]. split; [|reflexivity]. intros bytes [E L]. injection E as <-. discriminate L.
Qed.
