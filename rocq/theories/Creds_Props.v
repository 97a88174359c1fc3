(** C162: credentials are taken once, kept while they are needed and given back. *)
From Verif Require Import Common Creds_Model Creds_Spec Creds_Proofs Creds2_Proofs.

(** Whatever is called, in whatever order, however GnuTLS answers, and for however many
    servers: nothing is freed twice or used after it was freed, every call returns, GnuTLS
    is initialised exactly as often as there are open servers that have accepted
    credentials, and there are as many credentials and RSA keys as servers that need
    them. *)
Theorem C162_credentials_are_kept_and_given_back :
  forall ops, proper ops ->
    exists w h, run ops empty = Ok (w, h) /\ map fst h = ops /\
      depth w = Z.of_nat (how_many (fun id => is_some (accepted id h)) (opened ops)) /\
      length (creds w) = how_many (fun id => is_some (accepted id h)) (opened ops) /\
      length (keys w) = how_many (fun id => keyed id h) (opened ops).
Proof.
  intros ops P. destruct (all_steps ops [] [] empty inv_empty P) as (w & h & R & I & M). cbn [app] in I.
  exists w, h. split; [exact R|]. split; [exact M|]. unfold opened. pose proof (count_tls _ _ _ I) as C. pose proof (count_keys _ _ _ I) as K.
  split; [rewrite <- C; exact (i_depth _ _ _ I)|]. split; [exact C|exact K].
Qed.

(** When the last server has been deleted nothing is left. *)
Theorem C162_nothing_is_left :
  forall ops w h, proper ops -> opened ops = [] -> run ops empty = Ok (w, h) ->
    depth w = 0 /\ creds w = [] /\ keys w = [] /\ servers w = [].
Proof.
  intros ops w h P O R. destruct (all_steps ops [] [] empty inv_empty P) as (w1 & h1 & R1 & I & M). cbn [app] in I.
  assert (X : Ok (w, h) = Ok (w1, h1)) by (rewrite <- R; exact R1). injection X as -> ->.
  unfold opened in O. rewrite O in I. pose proof (count_tls _ _ _ I) as C. pose proof (count_keys _ _ _ I) as K.
  cbn in C, K. pose proof (i_depth _ _ _ I) as D. pose proof (i_ids _ _ _ I) as S.
  split; [lia|]. destruct (creds w1); [|discriminate C]. destruct (keys w1); [|discriminate K].
  destruct (servers w1); [|discriminate S]. auto.
Qed.

(** nvnc_set_tls_creds returns 0 exactly when the server has not accepted credentials
    before and GnuTLS can use these; so credentials that were accepted are never replaced,
    and after a failure one may try again. *)
Theorem C162_credentials_are_accepted_once :
  forall before id file l w h, proper (before ++ [SetTls id file l]) -> run before empty = Ok (w, h) ->
    exists w' r, run (before ++ [SetTls id file l]) empty = Ok (w', h ++ [(SetTls id file l, r)]) /\
      r = (if negb (is_some (accepted id h)) && init_ok l && alloc_ok l && load_ok l then 0 else -1) /\
      (forall other, accepted other (h ++ [(SetTls id file l, r)]) =
                     if Nat.eqb id other && (r =? 0) then Some file else accepted other h).
Proof.
  intros before id file l w h P R. unfold proper in P. apply proper_app in P as [P Q]. cbn [proper_from] in Q. destruct Q as [Q _].
  destruct (all_steps before [] [] empty inv_empty P) as (w1 & h1 & R1 & I & M). cbn [app] in I.
  assert (X : Ok (w, h) = Ok (w1, h1)) by (rewrite <- R; exact R1). injection X as -> ->.
  destruct (one_step _ _ _ (SetTls id file l) I Q) as (w2 & r & S & _ & T).
  exists w2, r. split; [|split; [exact T|]].
  - rewrite run_app, R. cbn [bind run]. rewrite S. reflexivity.
  - intros other. rewrite accepted_add. reflexivity.
Qed.

(** Every TLS session, for as long as it exists, has the certificate that its own server
    accepted. *)
Theorem C162_sessions_show_the_accepted_certificate :
  forall ops w h id s, proper ops -> run ops empty = Ok (w, h) -> in_session w id s ->
    exists file, accepted id h = Some file /\ certificate w s = Some file.
Proof.
  intros ops w h id s P R (v & V & <- & S). destruct (all_steps ops [] [] empty inv_empty P) as (w1 & h1 & R1 & I & M).
  cbn [app] in I. assert (X : Ok (w, h) = Ok (w1, h1)) by (rewrite <- R; exact R1). injection X as -> ->.
  pose proof (i_servers _ _ _ I) as SV. rewrite Forall_forall in SV. destruct (SV v V) as (T & _ & SS).
  specialize (SS s S). rewrite SS in T. destruct T as (f & A & C). exists f. split; [exact A|].
  unfold certificate. destruct (List.find (fun c => Nat.eqb (c_at c) (s_cred s)) (creds w1)) as [c|] eqn:F.
  - apply find_some in F as [F1 F2]. apply Nat.eqb_eq in F2. destruct c as [a g]. cbn [c_at c_file] in *. subst a.
    exact (NoDup_map_inj _ _ _ _ (i_creds_nd _ _ _ I) F1 C).
  - exfalso. apply (find_none _ _ F) in C. cbn [c_at] in C. rewrite Nat.eqb_refl in C. discriminate C.
Qed.

(** Two servers; the first is refused a wrong file, then accepts one and refuses the next;
    a client of each is encrypted; both servers are deleted. *)
Definition story : list op :=
  [New 1; SetTls 1 7 (mk_luck true true false); SetTls 1 8 (mk_luck true true true); SetTls 1 9 (mk_luck true true true);
   New 2; SetTls 2 5 (mk_luck true false true); SetTls 2 6 (mk_luck true true true); Upgrade 1 30 true true;
   Upgrade 2 31 true true; SetRsa 1 true; SetRsa 1 false; AskRsa 2; Leave 2 31].

Example C162_ex : proper (story ++ [Del 1; Del 2]) /\ opened story = [2; 1]%nat /\ opened (story ++ [Del 1; Del 2]) = [] /\
  exists w h, run story empty = Ok (w, h) /\
    map snd h = [0; -1; 0; -1; 0; -1; 0; 0; 0; 0; -1; 0; 0] /\ depth w = 2 /\ length (keys w) = 2%nat /\
    in_session w 1 (mk_session 30 1) /\ accepted 1 h = Some 8 /\ certificate w (mk_session 30 1) = Some 8.
Proof.
  split; [unfold proper; cbn; intuition congruence|]. split; [reflexivity|]. split; [reflexivity|].
  eexists _, _. split; [vm_compute; reflexivity|]. split; [reflexivity|]. split; [reflexivity|]. split; [reflexivity|].
  split; [|split; reflexivity]. eexists. split; [right; left; reflexivity|]. split; [reflexivity|]. left. reflexivity.
Qed.

Print Assumptions C162_credentials_are_kept_and_given_back.
Print Assumptions C162_nothing_is_left.
Print Assumptions C162_credentials_are_accepted_once.
Print Assumptions C162_sessions_show_the_accepted_certificate.
