From Verif Require Import Common CommonProofs Ws_Proofs WsStream_Proofs WsStream2_Proofs Pixels_Model Init_Model Auth_Model Auth_Spec
  Auth_Proofs Auth2_Proofs Auth3_Proofs Auth4_Proofs User_Model.

Lemma cstr_nonzero l : Forall (fun x => x <> 0) (cstr l).
Proof. induction l as [|x l IH]; cbn [cstr]; [constructor|]. destruct (x =? 0) eqn:E; constructor; [lia|exact IH]. Qed.

Definition fine (u : list Z) : Prop := (length u <= 255)%nat /\ Forall (fun x => x <> 0) u.
Definition fine_event (x : event) : Prop := match x with AuthCalled _ _ u _ _ => fine u | _ => True end.

Lemma fine_cstr l n : (n <= 255)%nat -> fine (cstr (firstn n l)).
Proof. intros N. split; [|apply cstr_nonzero]. pose proof (cstr_le (firstn n l)). rewrite firstn_length in H. lia. Qed.

Section Any.
Variable cfg : config.
Variable e : env.

Definition inv (c : conn) : Prop := Forall fine_event (log c) /\ ((exists k cl u p, In (AuthCalled k cl u p true) (log c)) -> admitted c = true).

Lemma inv_auth c used u p : inv c -> admitted c = false -> fine u -> inv (authenticate e c used u p).
Proof.
  intros [F A] N Fu. destruct (authenticate_log e c used u p) as [L S]. split.
  - rewrite L. apply Forall_app. split; [exact F|]. apply Forall_cons; [exact Fu|apply Forall_cons; [exact I|apply Forall_nil]].
  - intros (k & cl & u' & p' & I). rewrite L in I. unfold admitted. rewrite S. apply in_app_iff in I as [I|[I|[I|[]]]].
    + exfalso. rewrite A in N by eauto. discriminate.
    + injection I as _ _ _ _ ->. reflexivity.
    + discriminate.
Qed.

Lemma calls_fine evs : calls evs = [] -> Forall fine_event evs.
Proof.
  intros C. apply Forall_forall. intros x I. destruct x as [|k cl u p a| | |]; try exact Logic.I. exfalso.
  assert (J : In (AuthCalled k cl u p a) (calls evs)) by (apply filter_In; auto). rewrite C in J. destruct J.
Qed.

Lemma inv_step c b c' n : inv c -> rx_ok b -> try_read cfg e c b = Ok (Some (c', n)) -> inv c'.
Proof.
  intros V R H. pose proof H as H'. apply step_shape in H' as [->|[(Ne & _ & evs & L & F & Ad)|(W & k & u & p & E)]]; [exact V| |].
  - destruct V as [V1 V2]. split.
    + rewrite L. apply Forall_app. split; [exact V1|]. now apply calls_fine.
    + intros (k & cl & u & p & I). apply Ad, V2. exists k, cl, u, p. rewrite L in I. apply in_app_iff in I as [I|I]; [exact I|].
      exfalso. assert (J : In (AuthCalled k cl u p true) (calls evs)) by (apply filter_In; auto). rewrite F in J. destruct J.
  - clear E. unfold try_read in H. destruct (st c) eqn:S; try discriminate W.
    + assert (N : admitted c = false) by (unfold admitted; now rewrite S). unfold on_vencrypt_plain in H.
      destruct (avail b <? 8); [apply taken_inj in H as [-> _]; exact V|]. cbv zeta in H.
      destruct (avail b <? _); apply taken_inj in H as [-> _]; [exact V|]. apply inv_auth; try assumption. apply fine_cstr. lia.
    + assert (N : admitted c = false) by (unfold admitted; now rewrite S). unfold apple_dh_handle_response in H.
      destruct (avail b <? _); apply taken_inj in H as [-> _]; [exact V|]. apply inv_auth; try assumption. apply fine_cstr. lia.
    + assert (N : admitted c = false) by (unfold admitted; now rewrite S). unfold on_rsa_aes_credentials in H.
      destruct (avail b <? 2); [apply taken_inj in H as [-> _]; exact V|]. cbv zeta in H.
      destruct (avail b <? _); [apply taken_inj in H as [-> _]; exact V|].
      destruct (avail b <? _); apply taken_inj in H as [-> _]; [exact V|]. apply inv_auth; try assumption. apply fine_cstr.
      unfold rx_ok in R. destruct (bytes b) as [|x r]; cbn [hd]; [lia|]. inversion R as [|? ? B _]; subst. unfold is_byte in B. lia.
Qed.

Lemma inv_session cached reads c b : Forall all_bytes reads -> session cfg e (connect cached, []) reads = Ok (c, b) -> inv c.
Proof.
  intros F E.
  destruct (session_inv cfg e (fun c _ => inv c)) with (reads := reads) (c := connect cached) (b := @nil (bool * Z)) (c' := c) (b' := b) as [G _]; auto.
  - intros c1 b1 c2 n G R S. now apply (inv_step c1 b1 c2 n).
  - split; [repeat constructor|]. intros (k & cl & u & p & I). destruct I as [I|[]]. discriminate.
  - constructor.
Qed.
End Any.

Lemma copy_fine u : fine u -> cstr (copy_name u) = u /\ (hd 0 (copy_name u) = 0 <-> u = []).
Proof.
  intros [L N]. unfold copy_name, NAME. rewrite firstn_firstn. replace (Nat.min (256 - 1) 256) with 255%nat by reflexivity.
  replace (firstn 255 (u ++ repeat 0 256)) with (u ++ repeat 0 (255 - length u)).
  - split.
    + rewrite <- app_assoc. replace (repeat 0 (255 - length u) ++ [0]) with (0 :: repeat 0 (255 - length u)).
      * rewrite cstr_app_nul. clear L. induction N as [|x u X N IH]; [reflexivity|]. cbn [cstr]. replace (x =? 0) with false by lia. now rewrite IH.
      * clear. induction (255 - length u)%nat as [|k IH]; [reflexivity|]. cbn [repeat app]. now rewrite <- IH.
    + destruct N as [|x u X N]; [|cbn [app hd]; split; [intros; contradiction|discriminate]]. split; [reflexivity|]. intros _. destruct (255 - _)%nat; reflexivity.
  - rewrite firstn_app. rewrite firstn_all2 by lia. f_equal.
    rewrite <- (firstn_skipn (255 - length u) (repeat 0 256)) at 1. clear N.
    replace (repeat 0 256) with (repeat 0 (255 - length u) ++ repeat 0 (S (length u))).
    + rewrite firstn_skipn, firstn_app, repeat_length, Nat.sub_diag, firstn_all2, app_nil_r by (rewrite repeat_length; lia). reflexivity.
    + rewrite <- repeat_app. f_equal. lia.
Qed.

Lemma username_app l x : username (l ++ [x]) = match x with AuthCalled _ _ u _ true => copy_name u | _ => username l end.
Proof. unfold username. rewrite fold_left_app. reflexivity. Qed.

(* the array is that of some name approved, or as it was *)
Lemma username_is l : (exists k cl u p, In (AuthCalled k cl u p true) l /\ username l = copy_name u) \/
  ((forall k cl u p, ~ In (AuthCalled k cl u p true) l) /\ username l = repeat 0 NAME).
Proof.
  induction l as [|x l IH] using rev_ind; [right; split; [intros ? ? ? ? []|reflexivity]|]. rewrite username_app.
  assert (Y : (forall k cl u p, x <> AuthCalled k cl u p true) ->
    (exists k cl u p, In (AuthCalled k cl u p true) (l ++ [x]) /\ username l = copy_name u) \/
    ((forall k cl u p, ~ In (AuthCalled k cl u p true) (l ++ [x])) /\ username l = repeat 0 NAME)).
  { intros Nx. destruct IH as [(k & cl & u & p & I & E)|[N E]]; [left; exists k, cl, u, p; split; [apply in_app_iff; now left|exact E]|].
    right. split; [|exact E]. intros k cl u p I. apply in_app_iff in I as [I|[I|[]]]; [exact (N _ _ _ _ I)|exact (Nx _ _ _ _ I)]. }
  destruct x as [| k cl u p [|] | | |]; try (apply Y; discriminate).
  left. exists k, cl, u, p. split; [apply in_app_iff; right; now left|reflexivity].
Qed.
