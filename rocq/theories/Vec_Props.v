(** Property C03. *)
From Verif Require Import Common Vec_Model Vec_Spec Vec_Proofs.

(** C03: from a freshly initialised buffer, any history of operations (each
    with its own allocation outcome) runs without a fault as long as the sizes
    involved stay below half the address space; the buffer then holds exactly
    the bytes of the list specification, inside its capacity, which is the
    size of the block it owns; and operations only fail when allocation
    fails. *)
Theorem C03_vec_is_list : forall a c v0 rc0 ops,
  0 <= c -> vec_init a c = (v0, rc0) -> 2 * total_size ops < 2 ^ 64 ->
  exists v rcs,
    vec_run v0 ops = Ok (v, rcs) /\
    vec_contents v = map Some (spec_run [] ops rcs) /\
    len v = Z.of_nat (length (spec_run [] ops rcs)) /\
    len v <= cap v /\ cap v = Z.of_nat (length (data v)) /\
    length rcs = length ops /\
    Forall (fun rc => rc = 0 \/ rc = -1) rcs /\
    (forallb alloc_ok ops = true -> Forall (fun rc => rc = 0) rcs).
Proof.
  intros a c v0 rc0 ops Hc Hi Hb.
  pose proof (init_holds a c v0 rc0 Hc Hi) as H0.
  destruct (run_refines ops v0 [] H0) as (v & rcs & Hr & Hh & Hl & Hrc & Hall).
  { rewrite (holds_len _ _ H0). exact Hb. }
  exists v, rcs. destruct Hh as [[Hlen Hcap] Hcont].
  pose proof (holds_len v _ (conj (conj Hlen Hcap) Hcont)) as HL.
  repeat split; auto; apply Hlen.
Qed.
Print Assumptions C03_vec_is_list.

Example C03_case : exists v,
  vec_run (fst (vec_init true 2))
    [Append true [1; 2; 3]; AppendZero true 2; Append false [4; 5; 6; 7; 8; 9; 10];
     Reserve true 100; Append true [9]; Assign true [7; 7]; Clear; Append true [5]]
  = Ok (v, [0; 0; -1; 0; 0; 0; 0; 0]) /\ vec_contents v = [Some 5].
Proof. eexists. split; reflexivity. Qed.

(** C03 (fast path): after a successful reserve of [n] bytes on any buffer
    reached by such a history, as many unchecked single-byte appends as fit
    into [n] neither trip the assertion nor leave the block, and append. *)
Theorem C03_vec_fast_append : forall a c v0 rc0 ops v rcs n v' bs,
  0 <= c -> vec_init a c = (v0, rc0) -> 2 * total_size ops < 2 ^ 64 ->
  vec_run v0 ops = Ok (v, rcs) -> vec_reserve true v n = (v', 0) ->
  len v + Z.of_nat (length bs) <= n ->
  exists v'',
    fold_left (fun r b => let* w := r in vec_fast_append_8 w b) bs (Ok v') = Ok v'' /\
    vec_contents v'' = map Some (spec_run [] ops rcs ++ bs).
Proof.
  intros a c v0 rc0 ops v rcs n v' bs Hc Hi Hb Hr Hres Hfit.
  pose proof (init_holds a c v0 rc0 Hc Hi) as H0.
  destruct (run_refines ops v0 [] H0) as (v1 & rcs1 & Hr1 & Hh & _).
  { rewrite (holds_len _ _ H0). exact Hb. }
  rewrite Hr in Hr1. inversion Hr1; subst v1 rcs1.
  destruct (reserve_holds _ _ _ _ _ _ Hh Hres) as (H1 & H2 & _ & _ & H5 & _).
  destruct (fast_append_room bs v' _ H1) as (v'' & Hf & [_ Hv] & _).
  { specialize (H5 eq_refl). lia. }
  exists v''. split; [exact Hf|exact Hv].
Qed.
Print Assumptions C03_vec_fast_append.

Example C03_fast_case : exists v' v'',
  vec_reserve true (fst (vec_init true 0)) 3 = (v', 0) /\
  fold_left (fun r b => let* w := r in vec_fast_append_8 w b) [1; 2; 3] (Ok v') = Ok v'' /\
  vec_contents v'' = [Some 1; Some 2; Some 3].
Proof. do 2 eexists. repeat split. Qed.
(** Without room the assertion fails. *)
Example C03_fast_full : vec_fast_append_8 (fst (vec_init true 0)) 1 = Fault AssertFail.
Proof. reflexivity. Qed.
