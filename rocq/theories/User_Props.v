(** C138: the name of the user. *)
From Verif Require Import Common CommonProofs Ws_Proofs WsStream_Proofs WsStream2_Proofs Pixels_Model Init_Model Auth_Model Auth_Spec
  Auth_Proofs Auth2_Proofs Auth3_Proofs Auth4_Proofs Auth_Props User_Model User_Proofs.

(** Whatever a client sends, in whatever pieces: the name returned is one with which the
    application was asked and said yes to, as it was given to the application; there is one
    only if it was asked and said yes, and then the client has been let in; it was asked
    once. *)
Theorem C138_name_is_the_one_approved_partial :
  forall cfg e cached reads c b u, Forall all_bytes reads -> session cfg e (connect cached, []) reads = Ok (c, b) -> u <> [] ->
    (get_auth_username c = Some u <-> exists k clear p, In (AuthCalled k clear u p true) (log c)) /\
    (get_auth_username c = Some u -> admitted c = true /\ length (filter is_auth (log c)) = 1%nat).
Proof.
  intros cfg e cached reads c b u F E NE. pose proof (inv_session cfg e cached reads c b F E) as [V A].
  pose proof (once_session cfg e cached reads c b F E) as O. destruct O as [_ Oc _]. rewrite Forall_forall in V.
  assert (P : get_auth_username c = Some u <-> exists k clear p, In (AuthCalled k clear u p true) (log c)).
  { unfold get_auth_username. cbv zeta. destruct (username_is (log c)) as [(k & cl & u' & p & I & U)|[N U]]; rewrite U.
    - destruct (copy_fine u' (V _ I)) as [C H]. split.
      + destruct (hd 0 (copy_name u') =? 0); [discriminate|]. intros Q. injection Q as Q. rewrite C in Q. subst u'. eauto.
      + intros (k2 & cl2 & p2 & I2). assert (u' = u) as ->.
        { destruct (in_split _ _ I) as (l1 & l2 & El). rewrite El in Oc, I2. unfold calls in Oc. rewrite filter_app in Oc. cbn [filter is_auth] in Oc.
          rewrite app_length in Oc. cbn [length] in Oc. apply in_app_iff in I2 as [I2|[I2|I2]]; [|injection I2 as _ _ -> _; reflexivity|].
          - assert (J : In (AuthCalled k2 cl2 u p2 true) (filter is_auth l1)) by (apply filter_In; auto). destruct (filter is_auth l1); [destruct J|cbn in Oc; lia].
          - assert (J : In (AuthCalled k2 cl2 u p2 true) (filter is_auth l2)) by (apply filter_In; auto). destruct (filter is_auth l2); [destruct J|cbn in Oc; lia]. }
        rewrite C. destruct (hd 0 (copy_name u) =? 0) eqn:Q; [exfalso; apply NE, H; lia|reflexivity].
    - split; [discriminate|]. intros (k & cl & p & I). exfalso. exact (N _ _ _ _ I). }
  split; [exact P|]. intros Q. apply P in Q as (k & cl & p & I). split; [apply A; eauto|].
  assert (J : In (AuthCalled k cl u p true) (filter is_auth (log c))) by (apply filter_In; auto).
  unfold calls in Oc. destruct (filter is_auth (log c)) as [|y l]; [destruct J|cbn in *; lia].
Qed.
Print Assumptions C138_name_is_the_one_approved_partial.
Example C138_ex : exists c b, session toy_cfg toy (connect [], []) [hello; [19]; [0; 2]; be 4 262; plain_message (codes "me") (codes "pw"); [1]] = Ok (c, b) /\
  get_auth_username c = Some (codes "me").
Proof. eexists _, _. split; [vm_compute; reflexivity|vm_compute; reflexivity]. Qed.

(** A user without a name who is let in cannot be told from one who was not asked. *)
Theorem C138_approved_names_are_known_refuted :
  exists cfg e reads c b k clear u p, Forall all_bytes reads /\ session cfg e (connect [], []) reads = Ok (c, b) /\
    In (AuthCalled k clear u p true) (log c) /\ get_auth_username c = None.
Proof.
  exists toy_cfg, (mk_env (fun _ _ _ => true) (random toy) (rsa_encrypt toy) (rsa_decrypt toy) (hash toy) (server_key toy) (tls_accepts toy)
    (dh_secret toy) (dh_public toy) (dh_prime toy) (dh_decrypt toy) (server_name toy) (displayed toy)).
  exists [hello; [19]; [0; 2]; be 4 262; plain_message [] (codes "pw"); [1]]. eexists _, _, _, _, _, _.
  split; [|split; [vm_compute; reflexivity|split; [find_in|vm_compute; reflexivity]]].
  repeat constructor; vm_compute; intuition discriminate.
Qed.
Print Assumptions C138_approved_names_are_known_refuted.
