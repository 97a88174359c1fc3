(** C161: a whole connection, from the greeting to the events. *)
From Verif Require Import Common CommonProofs Pixels_Model Init_Model Auth_Model Msg_Model Msg_Spec Msg_Proofs Msg2_Spec Ev_Spec Ev_Proofs Upd_Spec Upd_Props
  Talk_Model Talk_Spec Serve_Model Serve_Spec Serve3_Proofs.
From Verif Require Auth_Spec Auth_Props Auth2_Proofs Hand_Spec Hand_Props Serve_Proofs Talk_Props RsaAes_Props.

(** A client sends what gets it through the rest of the handshake (if these bytes come
    as [reads], it is let in and nothing is left over), then the messages [ms] of at most
    [n] bytes and the beginning of another one.  Through every kind of stream, however
    the bytes are cut (a piece may well be the end of the handshake and the beginning of
    the messages), the handshake is that of [reads] and the messages are handled one by
    one, by a server that holds of the client what it told it.
    Missing: as in C160; and handshakes across a change of the stream (see C119). *)
Theorem C161_whole_connection_partial :
  forall seal unseal mac cfg e E shown seq n bytes go, road seal unseal mac cfg e E shown seq n bytes go -> 1 <= n <= 4096 ->
  forall c0 reads h, Forall all_bytes reads -> session cfg e (c0, []) reads = Ok (h, []) ->
    st c0 <> SReady -> st h = SReady -> encrypted (ch h) = encrypted (ch c0) -> zlen (concat reads) <= n ->
    (forall l, exists code, displayed e l = Some (fb_w shown, fb_h shown, code)) ->
  exists f, as_told (Auth_Model.log h) f (fb_w shown) (fb_h shown) /\
  forall fuel ms rest c', all_bytes bytes -> Forall (Talk_Spec.short n) ms -> begins n rest -> bytes = concat reads ++ concat ms ++ rest ->
    handled E (ready f shown seq) ms c' -> go fuel (Shaking c0 []) = Ok (Serving h (set_buf rest c')).
Proof.
  intros seal unseal mac cfg e E shown seq n bytes go W N c0 reads h F HS NR HR K L D.
  destruct (session_told cfg e c0 reads h F HS NR HR K ltac:(lia)) as (Q & NE & l & m & f & LG & IN).
  exists f. split.
  - destruct (D l) as (code & DL). rewrite DL in IN. exists l, (ch h), (cstr (server_name e)). rewrite LG. repeat f_equal.
    unfold send_server_init_message in IN. destruct (pixfmt_from_fourcc code) as [f0|]; [|discriminate].
    injection IN as <- <-. reflexivity.
  - intros fuel ms rest c' AB SH BE B HA.
    exact (road_heard _ _ _ _ _ _ _ _ _ _ _ W N fuel c0 h (concat reads) _ l m f ms rest c' Q NR NE HR (loop_at_rest cfg e c0)
      eq_refl K LG IN L AB SH BE B HA).
Qed.
Print Assumptions C161_whole_connection_partial.

(** In particular, if no authentication is asked for: the greeting, security type 1,
    the shared flag and then events cause the callbacks of the events, in their order. *)
Theorem C161_events_after_the_handshake_partial :
  forall seal unseal mac cfg e E shown seq n bytes go, road seal unseal mac cfg e E shown seq n bytes go -> 14 <= n <= 4096 ->
  forall cached shared code m f, require_auth cfg = false -> Auth_Spec.consistent cfg cached -> is_byte shared ->
    (forall l, displayed e l = Some (fb_w shown, fb_h shown, code)) ->
    send_server_init_message (server_name e) (Some (fb_w shown, fb_h shown, code)) = Some (m, f) ->
  forall fuel evs rest, all_bytes bytes -> Forall good_event evs -> begins n rest ->
    bytes = (Hand_Spec.greeting ++ [1; shared]) ++ concat (map Ev_Spec.wire evs) ++ rest ->
  exists h c, go fuel (Shaking (connect cached) []) = Ok (Serving h c) /\ st h = SReady /\
    input_of (Serving h c) = map callback evs /\
    as_told (history (Serving h c)) f (fb_w shown) (fb_h shown).
Proof.
  intros seal unseal mac cfg e E shown seq n bytes go W N cached shared code m f A C B D I fuel evs rest AB G BE BY.
  destruct (plain_handshake cfg e cached shared _ _ code m f A C B D I) as (h & HS & HR & HC).
  assert (RB : Forall all_bytes [Hand_Spec.greeting; [1]; [shared]]).
  { apply Forall_cons; [|apply Forall_cons; [|apply Forall_cons; [|constructor]]].
    - apply Forall_forall. intros x X. vm_compute in X. unfold is_byte. repeat (destruct X as [<-|X]; [lia|]). destruct X.
    - repeat constructor; discriminate.
    - apply Forall_cons; [exact B|constructor]. }
  destruct (session_told cfg e (connect cached) _ h RB HS ltac:(discriminate) HR ltac:(rewrite HC; reflexivity) ltac:(vm_compute; discriminate))
    as (Q & NE & l & m' & f' & LG & IN).
  assert (m' = m /\ f' = f) as [-> ->] by (rewrite D, I in IN; split; congruence).
  destruct (events_handled E evs (ready f shown seq) G ltac:(repeat split) eq_refl) as (c' & HA & CB).
  exists h, (set_buf rest c'). split.
  - refine (road_heard _ _ _ _ _ _ _ _ _ _ _ W ltac:(lia) fuel (connect cached) h _ _ l m f (map Ev_Spec.wire evs) rest c' Q
      ltac:(discriminate) NE HR (loop_at_rest cfg e _) eq_refl ltac:(rewrite HC; reflexivity) LG ltac:(rewrite D; exact I) _ AB _ BE BY HA).
    + apply Z.le_trans with 14; [vm_compute; discriminate|lia].
    + apply Forall_map, Forall_forall. intros x _. split; [apply wire_whole|].
      destruct x; cbn; split; (lia || discriminate).
  - split; [exact HR|]. split; [exact CB|]. exists l, (ch h), (cstr (server_name e)). cbn [history]. rewrite LG. repeat f_equal.
    unfold send_server_init_message in I. destruct (pixfmt_from_fourcc code) as [f0|]; [|discriminate].
    injection I as <- <-. reflexivity.
Qed.
Print Assumptions C161_events_after_the_handshake_partial.

(** Whatever a client sends, through whatever stream, and however it is cut: if
    authentication is required, the application is told of nothing the client does
    unless its authentication callback has said yes to credentials the client sent,
    and that was before it was told of the client. *)
Theorem C161_no_input_without_authentication :
  forall cfg e E shown seq St (read : St -> Z -> list Z -> res (St * list Z * bool)) inv fuel cached segs s s' g,
  require_auth cfg = true -> Auth_Spec.consistent cfg cached -> reads_bytes read inv -> inv s -> Forall all_bytes segs ->
  attend cfg e E shown seq read fuel s (Shaking (connect cached) []) segs = Ok (s', g) ->
  (input_of g <> [] \/ In NewClient (history g) -> Auth_Spec.authenticated e (history g)) /\
  Auth_Spec.before_new_client (Auth_Spec.authenticated e) (history g) /\
  (input_of g <> [] -> In NewClient (history g)).
Proof.
  intros cfg e E shown seq St read inv fuel cached segs s s' g A C RB I F H.
  pose proof (known_attend cfg e E shown seq read inv RB fuel cached segs s (Shaking (connect cached) []) s' g I F) as K.
  assert (K0 : known cfg e cached (Shaking (connect cached) [])) by (exists []; split; [constructor|reflexivity]).
  specialize (K K0 H).
  assert (X : exists reads c b, Forall all_bytes reads /\ session cfg e (connect cached, []) reads = Ok (c, b) /\ Auth_Model.log c = history g /\
    (input_of g <> [] -> st c = SReady)).
  { destruct g as [c b|c m|c]; cbn [known] in K.
    - destruct K as (reads & FR & S). exists reads, c, b. cbn. repeat split; auto. congruence.
    - destruct K as (R & reads & b & FR & S). exists reads, c, b. cbn. repeat split; auto.
    - destruct K as (reads & b & FR & S). exists reads, c, b. cbn. repeat split; auto. congruence. }
  destruct X as (reads & c & b & FR & S & L & R). rewrite <- L.
  destruct (Auth_Props.C32_no_access_without_authentication cfg e cached reads c b A C FR S) as [AD BN].
  destruct (Hand_Props.C118_announced_once_at_the_end cfg e cached reads c b C FR S) as [AN _].
  assert (IN : input_of g <> [] -> In NewClient (Auth_Model.log c)).
  { intros X. destruct (AN (R X)) as (l & -> & _). apply in_app_iff. right. left. reflexivity. }
  split; [|split; [exact BN|exact IN]].
  intros Y. assert (Z : In NewClient (Auth_Model.log c)) by (destruct Y; auto).
  apply in_split in Z as (l1 & l2 & Z). destruct (BN l1 l2 Z) as (b0 & k & cl & u & p & a & E0 & Y0).
  exists b0, k, cl, u, p, (a ++ NewClient :: l2). rewrite Z, E0, <- app_assoc. split; [reflexivity|exact Y0].
Qed.
Print Assumptions C161_no_input_without_authentication.

(* a server without authentication, a client that says everything at once, or byte by byte *)
Definition open_cfg : config := mk_cfg true true true false false true.
Definition all_said : list Z := (Hand_Spec.greeting ++ [1; 1]) ++ concat (map Ev_Spec.wire Talk_Props.said) ++ [5; 1].
Definition screen : fb := mk_fb 640 480 false.

Definition goes (segs : list (list Z)) : res stage :=
  let* x := attend open_cfg Auth_Props.toy (calm false none) screen 0 tcp_read 3 [] (Shaking (connect []) []) segs in Ok (snd x).
Definition told (r : res stage) : list out * list Z :=
  match r with Ok (Serving h c) => (input_of (Serving h c), buf c) | _ => ([], []) end.

Example C161_case :
  (forall segs, concat segs = all_said -> Forall (fun s => zlen s + 14 <= 4097) segs ->
     exists go, road RsaAes_Props.toy_seal RsaAes_Props.toy_seal RsaAes_Props.toy_mac open_cfg Auth_Props.toy (calm false none) screen 0 14 all_said go) /\
  told (goes [all_said]) = ([KeySym 97 true; Pointer 300 5 1], [5; 1]) /\
  told (goes (map (fun x => [x]) all_said)) = ([KeySym 97 true; Pointer 300 5 1], [5; 1]) /\
  all_bytes all_said /\ Forall good_event Talk_Props.said /\ begins 14 [5; 1] /\
  require_auth open_cfg = false /\ Auth_Spec.consistent open_cfg [].
Proof.
  split. { intros segs <- F. eexists. apply on_tcp. exact F. }
  split; [vm_compute; reflexivity|]. split; [vm_compute; reflexivity|].
  split. { apply Forall_forall. intros x X. vm_compute in X. unfold is_byte. repeat (destruct X as [<-|X]; [lia|]). destruct X. }
  split; [repeat constructor; cbn; lia|].
  split. { exists [5; 1; 0; 0; 0; 0], [0; 0; 0; 0]. split; [|split; [reflexivity|discriminate]]. split; [constructor; reflexivity|]. split; [cbn; lia|discriminate]. }
  split; [reflexivity|left; reflexivity].
Qed.

(* with authentication: the right password, a key; and the wrong one, a key *)
Definition tls_segs (pw : list Z) : list (list Z) :=
  [Hand_Spec.greeting; [19]; [0; 2]; be 4 262; Auth_Spec.plain_message (codes "me") pw; [1] ++ Ev_Spec.wire (Key 97 1 0 0)].
Notation guarded segs :=
  (attend Auth_Props.toy_cfg Auth_Props.toy (calm false none) screen 0 tcp_read 3 [] (Shaking (connect []) []) segs).

Definition caused (r : res (list Z * stage)) : list out := match r with Ok (_, g) => input_of g | _ => [] end.
Definition announced (r : res (list Z * stage)) : bool :=
  match r with Ok (_, g) => existsb (fun x => match x with NewClient => true | _ => false end) (history g) | _ => false end.
(* some password came in the clear *)
Definition exposed (r : res (list Z * stage)) : bool :=
  match r with Ok (_, g) => existsb (fun x => match x with AuthCalled _ true _ _ _ => true | _ => false end) (history g) | _ => false end.

Definition fine (r : res (list Z * stage)) : bool := match r with Ok _ => true | _ => false end.

Lemma right_password : let r := guarded (tls_segs (codes "pw")) in
  fine r = true /\ caused r = [KeySym 97 true] /\ exposed r = false.
Proof. vm_compute. repeat split. Qed.
Lemma wrong_password : let r := guarded (tls_segs (codes "xx")) in fine r = true /\ caused r = [] /\ announced r = false.
Proof. vm_compute. repeat split. Qed.
Lemma at_once : let r := guarded [concat (tls_segs (codes "pw"))] in fine r = true /\ exposed r = true.
Proof. vm_compute. repeat split. Qed.

Lemma is_fine r : fine r = true -> exists s g, r = Ok (s, g).
Proof. destruct r as [[s g]|]; [eauto|discriminate]. Qed.

Example C161_access_case :
  require_auth Auth_Props.toy_cfg = true /\ reads_bytes tcp_read all_bytes /\
  (exists s g, guarded (tls_segs (codes "pw")) = Ok (s, g) /\ input_of g = [KeySym 97 true] /\ Auth_Spec.authenticated Auth_Props.toy (history g)) /\
  (exists s g, guarded (tls_segs (codes "xx")) = Ok (s, g) /\ input_of g = [] /\ ~ In NewClient (history g)).
Proof.
  split; [reflexivity|]. split; [exact tcp_bytes|]. split.
  - destruct right_password as (F & C & _). destruct (is_fine _ F) as (s & g & G). rewrite G in C. cbn [caused] in C.
    exists s, g. split; [exact G|]. split; [exact C|].
    assert (SB : Forall all_bytes (tls_segs (codes "pw"))).
    { apply Forall_forall. intros x X. apply Forall_forall. intros y Y.
      assert (Z : In y (concat (tls_segs (codes "pw")))) by (apply in_concat; eauto).
      vm_compute in Z. unfold is_byte. repeat (destruct Z as [<-|Z]; [lia|]). destruct Z. }
    assert (NI : input_of g <> []) by (rewrite C; discriminate).
    destruct (C161_no_input_without_authentication Auth_Props.toy_cfg Auth_Props.toy (calm false none) screen 0 (list Z) tcp_read all_bytes 3 []
      (tls_segs (codes "pw")) [] s g eq_refl (or_introl eq_refl) tcp_bytes (Forall_nil _) SB G) as (P & _).
    exact (P (or_introl NI)).
  - destruct wrong_password as (F & C & A). destruct (is_fine _ F) as (s & g & G). rewrite G in C, A. cbn [caused announced] in C, A.
    exists s, g. split; [exact G|]. split; [exact C|]. intros X.
    rewrite (proj2 (existsb_exists _ _) (ex_intro _ NewClient (conj X eq_refl))) in A. discriminate A.
Qed.

(** Across a change of the stream the cutting does matter: credentials that come with the
    bytes that ask for TLS are taken as if they had come through TLS. *)
Theorem C161_whole_connection_refuted : exists cfg e E shown seq fuel cached segs segs' s g s' g',
  Auth_Spec.consistent cfg cached /\ concat segs = concat segs' /\ zlen (concat segs) <= 4096 /\
  attend cfg e E shown seq tcp_read fuel [] (Shaking (connect cached) []) segs = Ok (s, g) /\
  attend cfg e E shown seq tcp_read fuel [] (Shaking (connect cached) []) segs' = Ok (s', g') /\
  input_of g <> [] /\ history g <> history g'.
Proof.
  destruct right_password as (F & C & EX). destruct (is_fine _ F) as (s & g & G). rewrite G in C, EX. cbn [caused exposed] in C, EX.
  destruct at_once as (F' & EX'). destruct (is_fine _ F') as (s' & g' & G'). rewrite G' in EX'. cbn [exposed] in EX'.
  exists Auth_Props.toy_cfg, Auth_Props.toy, (calm false none), screen, 0, 3%nat, [], (tls_segs (codes "pw")), [concat (tls_segs (codes "pw"))].
  exists s, g, s', g'. split; [left; reflexivity|]. split; [vm_compute; reflexivity|]. split; [vm_compute; discriminate|].
  split; [exact G|]. split; [exact G'|]. split; [rewrite C; discriminate|].
  intros X. rewrite X, EX' in EX. discriminate EX.
Qed.
Print Assumptions C161_whole_connection_refuted.
