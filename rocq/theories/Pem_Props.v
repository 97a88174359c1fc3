(** C134: the RSA key an application gives. *)
From Verif Require Import Common CommonProofs Pixels_Model Init_Model Base64_Model Base64_Spec Base64_Proofs Pem_Model Pem_Spec Pem_Proofs Auth_Model Auth_Props Dh_Proofs.

(** A file with the base64 text of a key cut into lines of any lengths, between the usual
    first and last lines and with anything after them, sets the key: the parser is given
    exactly the bytes that were encoded.  (Partial: lines must end in a newline only, and
    nothing may come before the first line.) *)
Theorem C134_key_file_sets_the_key_partial :
  forall priv parse none s der chunks after k,
    all_bytes der -> cut_of der chunks -> parse der = (true, k) ->
    nvnc_set_rsa_creds priv parse none s (Some (pem [10] chunks after)) = Ok (0, mk_server (Some k) (s_open s)).
Proof.
  intros priv parse none s der chunks after k B C P. unfold nvnc_set_rsa_creds. rewrite (load_pem _ _ _ _ _ _ _ B C P).
  cbn [bind l_ok l_keys l_open]. rewrite Z.add_0_r. reflexivity.
Qed.
Print Assumptions C134_key_file_sets_the_key_partial.

(** Whatever the file, nothing is written outside the buffers, and if the call succeeds the
    file began with the line for an RSA private key and the key is what the parser made of
    the base64 text. *)
Theorem C134_only_key_files_are_accepted :
  forall priv parse none s file, (forall f, file = Some f -> all_bytes f) ->
    exists rc s', nvnc_set_rsa_creds priv parse none s file = Ok (rc, s') /\ (rc = 0 \/ rc = -1) /\
      (rc = 0 -> exists text tail der, file = Some (begin_line ++ tail) /\ (tail = [] \/ hd 0 tail = 10 \/ hd 0 tail = 0) /\
         acceptable text /\ der = octets_of_digits (map value (upto_pad text)) /\
         exists k, parse der = (true, k) /\ s_keys s' = Some k).
Proof.
  intros priv parse none s file B. destruct (load_inv priv parse none file B) as (r & R & _ & D).
  unfold nvnc_set_rsa_creds. rewrite R. cbn [bind]. eexists _, _. split; [reflexivity|]. split; [destruct (l_ok r); auto|].
  intros OK. destruct (l_ok r) eqn:O; [|discriminate].
  destruct D as [[D _]|(first & ls & t & der & (f & F & LF & CF) & (tl & T & H) & _ & A & E & P)]; [discriminate|].
  exists t, (tl ++ concat ls), der. split; [rewrite F, CF; cbn [concat]; now rewrite T, <- app_assoc|]. split.
  - destruct tl as [|c tl]; [|right; destruct H as [H|H]; [discriminate|exact H]].
    destruct ls as [|l ls]; [now left|]. rewrite T in LF. apply line_ends in LF. discriminate.
  - split; [exact A|]. split; [exact E|]. exists (l_keys r). split; [exact P|reflexivity].
Qed.
Print Assumptions C134_only_key_files_are_accepted.

(* a parser that takes what begins like a DER sequence, and a key of five bytes on three
   lines, one of them empty *)
Definition sequence (d : list Z) : bool * keys unit := (match d with 48 :: _ => true | _ => false end, (tt, (12, unbe d, 65537))).
Definition small_der : list Z := [48; 3; 2; 1; 5].
Definition old_key : keys unit := (tt, (16, 2 ^ 127 + 1, 3)).
Example C134_ex : cut_of small_der [codes "MAM"; []; codes "CAQU="] /\ all_bytes small_der /\
  nvnc_set_rsa_creds unit sequence tt (mk_server None 0) (Some (pem [10] [codes "MAM"; []; codes "CAQU="] [10])) =
    Ok (0, mk_server (Some (tt, (12, unbe small_der, 65537))) 0).
Proof. split; [vm_compute; reflexivity|]. split; [repeat constructor; vm_compute; congruence|vm_compute; reflexivity]. Qed.

(** The same file with lines ended by carriage return and newline, or with a line of text
    before it as OpenSSL writes on request, is refused. *)
Theorem C134_key_file_sets_the_key_refuted :
  (exists parse s der chunks after k, all_bytes der /\ cut_of der chunks /\ parse der = (true, k) /\
     nvnc_set_rsa_creds unit parse tt s (Some (pem [13; 10] chunks after)) = Ok (-1, mk_server (Some (empty unit tt)) 0)) /\
  (exists parse s der chunks text k, all_bytes der /\ cut_of der chunks /\ parse der = (true, k) /\
     nvnc_set_rsa_creds unit parse tt s (Some (text ++ 10 :: pem [10] chunks [])) = Ok (-1, mk_server (Some (empty unit tt)) 0)).
Proof.
  split.
  - exists sequence, (mk_server None 0), small_der, [codes "MAMCAQU="], [13; 10]. eexists.
    split; [repeat constructor; vm_compute; congruence|]. split; [vm_compute; reflexivity|]. split; [reflexivity|]. vm_compute. reflexivity.
  - exists sequence, (mk_server None 0), small_der, [codes "MAMCAQU="], (codes "key"). eexists.
    split; [repeat constructor; vm_compute; congruence|]. split; [vm_compute; reflexivity|]. split; [reflexivity|]. vm_compute. reflexivity.
Qed.
Print Assumptions C134_key_file_sets_the_key_refuted.

(** Unless the file is empty, it is closed again; an empty file stays open for ever. *)
Theorem C134_file_is_closed_partial :
  forall priv parse none s file rc s', (forall f, file = Some f -> all_bytes f) ->
    nvnc_set_rsa_creds priv parse none s file = Ok (rc, s') ->
    s_open s' = s_open s <-> file <> Some [].
Proof.
  intros priv parse none s file rc s' B H. destruct (load_inv priv parse none file B) as (r & R & L & _).
  unfold nvnc_set_rsa_creds in H. rewrite R in H. cbn [bind] in H. injection H as _ <-. cbn [s_open]. rewrite L.
  destruct file as [[|c f]|]; (split; [intros E|intros E]); try congruence; try lia; try (contradiction E; reflexivity).
Qed.
Print Assumptions C134_file_is_closed_partial.
Theorem C134_file_is_closed_refuted :
  exists priv parse none s rc s', nvnc_set_rsa_creds priv parse none s (Some []) = Ok (rc, s') /\ s_open s' = s_open s + 1.
Proof. exists unit, sequence, tt, (mk_server None 0). eexists _, _. split; reflexivity. Qed.
Print Assumptions C134_file_is_closed_refuted.

(** A call that fails does not leave the server as it was: the old key is gone, and no
    other takes its place. *)
Theorem C134_failed_call_changes_nothing_refuted :
  exists priv parse none s file s', nvnc_set_rsa_creds priv parse none s file = Ok (-1, s') /\
    s_keys s <> None /\ s_keys s' <> s_keys s.
Proof.
  exists unit, sequence, tt, (mk_server (Some old_key) 0), None. eexists. split; [reflexivity|]. split; discriminate.
Qed.
Print Assumptions C134_failed_call_changes_nothing_refuted.

(** After a file that could not be opened, or that the parser was never given, any client
    that chooses RSA-AES ends the process. *)
Theorem C134_client_aborts_after_failed_call :
  forall priv parse none s file s' gen cfg e c b type rest,
    (forall f, file = Some f -> all_bytes f) -> (forall d, fst (parse d) = true) ->
    nvnc_set_rsa_creds priv parse none s file = Ok (-1, s') ->
    server_key e = public_key s' gen -> have_crypto cfg = true -> st c = SSecurity ->
    type = 5 \/ type = 129 -> In type (types c) -> bytes b = type :: rest ->
    try_read cfg e c b = Fault AssertFail.
Proof.
  intros priv parse none s file s' gen cfg e c b type rest B OK H K HC S T I Bb.
  destruct (load_inv priv parse none file B) as (r & R & _ & D). unfold nvnc_set_rsa_creds in H. rewrite R in H. cbn [bind] in H.
  injection H as RC <-. destruct (l_ok r) eqn:O; [discriminate|].
  destruct D as [[_ D]|(first & ls & t & der & _ & _ & _ & _ & _ & P)]; [|specialize (OK der); rewrite P in OK; discriminate].
  unfold public_key in K. cbn [s_keys] in K. rewrite D in K. cbn [empty snd] in K.
  unfold try_read. rewrite S. unfold on_security_message. rewrite Bb.
  replace (existsb (fun t => t =? type) (types c)) with true
    by (symmetry; apply existsb_exists; exists type; split; [exact I|apply Z.eqb_refl]). cbn [negb]. cbv zeta.
  unfold rsa_aes_send_public_key. rewrite K. rewrite HC.
  destruct T as [-> | ->]; unfold TYPE_NONE, TYPE_VENCRYPT, TYPE_APPLE_DH, TYPE_RSA_AES, TYPE_RSA_AES256; cbn [Z.eqb Pos.eqb andb];
    rewrite Bool.andb_false_r; cbn [andb]; reflexivity.
Qed.
Print Assumptions C134_client_aborts_after_failed_call.
Example C134_abort_ex : exists s', nvnc_set_rsa_creds unit (fun d => (true, old_key)) tt (mk_server (Some old_key) 0) (Some (codes "garbage")) = Ok (-1, s') /\
  public_key s' old_key = (0, 0, 0) /\ public_key (mk_server (Some old_key) 0) old_key <> (0, 0, 0).
Proof. eexists. split; [reflexivity|]. split; [reflexivity|discriminate]. Qed.
