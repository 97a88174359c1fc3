(** Proofs about the TLS stream. *)
From Verif Require Import Common CommonProofs Gnutls_Model Gnutls_Spec.

Definition dones (k : nat) := map (fun i => (i, DONE)) (seq 0 k).
Definition fails (k n : nat) := map (fun i => (i, FAILED)) (seq k n).

(** The invariant of the sending half. *)
Definition J (s : out) : Prop := exists k part, (k <= length (accepted s))%nat /\
  wire s = concat (firstn k (accepted s)) ++ part /\
  (part = [] \/ exists p, nth_error (accepted s) k = Some p /\ is_prefix part p) /\
  (if closed s
   then queue s = [] /\ watched s = false /\
        finished s = dones k ++ fails k (length (accepted s) - k)
   else finished s = dones k /\ map rid (queue s) = seq k (length (accepted s) - k) /\
        match queue s with
        | [] => part = []
        | r :: rest => skipn k (accepted s) = (part ++ rpay r) :: map rpay rest
        end).

(** What an operation on the sending half keeps. *)
Definition T (s s' : out) : Prop :=
  (length (script s') <= length (script s))%nat /\
  (closed s = true -> s' = s) /\
  (exists more, accepted s' = accepted s ++ more) /\
  (exists more, wire s' = wire s ++ more) /\
  (closed s' = false -> watched s' = watched s) /\
  (forall x, In x (script s') -> In x (script s)).

Lemma T_refl s : T s s.
Proof. repeat split; auto; exists []; symmetry; apply app_nil_r. Qed.

Lemma T_trans s1 s2 s3 : (closed s2 = true -> closed s3 = true) -> T s1 s2 -> T s2 s3 -> T s1 s3.
Proof.
  intros Hm (A1 & A2 & (m & A3) & (w & A4) & A5 & A6) (B1 & B2 & (m' & B3) & (w' & B4) & B5 & B6).
  split; [lia|]. split.
  { intros C. assert (E := A2 C). subst s2. apply B2, C. }
  split; [exists (m ++ m'); rewrite B3, A3, app_assoc; reflexivity|].
  split; [exists (w ++ w'); rewrite B4, A4, app_assoc; reflexivity|].
  split.
  - intros C. rewrite (B5 C). apply A5. destruct (closed s2) eqn:E; [rewrite (Hm eq_refl) in C; discriminate|reflexivity].
  - intros x Hx. apply A6, B6, Hx.
Qed.

Lemma T_mono s s' : T s s' -> closed s = true -> closed s' = true.
Proof. intros (_ & A & _) C. rewrite (A C). exact C. Qed.

Lemma T_then s1 s2 s3 : T s1 s2 -> T s2 s3 -> T s1 s3.
Proof. intros A B. apply (T_trans s1 s2 s3); [apply T_mono, B|exact A|exact B]. Qed.

Lemma is_prefix_refl (l : list Z) : is_prefix l l.
Proof. exists []. symmetry. apply app_nil_r. Qed.

Lemma nth_skipn A (l : list A) : forall k a tl, skipn k l = a :: tl -> nth_error l k = Some a.
Proof.
  induction l as [|x l IH]; intros k a tl H; destruct k; cbn in *; try discriminate.
  - inversion H; reflexivity.
  - apply (IH k a tl H).
Qed.

Lemma firstn_step A (l : list A) : forall k a tl, skipn k l = a :: tl -> firstn (S k) l = firstn k l ++ [a] /\ skipn (S k) l = tl.
Proof.
  induction l as [|x l IH]; intros k a tl H; destruct k; cbn in *; try discriminate.
  - inversion H; split; reflexivity.
  - destruct (IH k a tl H) as [A1 A2]. split; [f_equal; exact A1|exact A2].
Qed.

Lemma close_J s : J s -> J (close s).
Proof.
  unfold close. destruct (closed s) eqn:C; [auto|]. intros (k & part & L & W & P & H). rewrite C in H.
  destruct H as (F & R & Q). exists k, part. cbn. split; [exact L|]. split; [exact W|]. split; [exact P|].
  split; [reflexivity|]. split; [reflexivity|]. rewrite F. f_equal. unfold fails.
  rewrite <- R, map_map. reflexivity.
Qed.

Lemma close_T s : T s (close s).
Proof.
  unfold close. destruct (closed s) eqn:C; [apply T_refl|]. unfold T. cbn.
  split; [lia|]. split; [intros; congruence|]. split; [exists []; symmetry; apply app_nil_r|].
  split; [exists []; symmetry; apply app_nil_r|]. split; [discriminate|auto].
Qed.

Lemma close_closed s : closed (close s) = true.
Proof. unfold close. destruct (closed s) eqn:C; [exact C|reflexivity]. Qed.

Lemma enqueue_J p cb s : closed s = false -> J s -> J (enqueue p cb s).
Proof.
  intros C (k & part & L & W & P & H). rewrite C in H. destruct H as (F & R & Q).
  exists k, part. cbn. rewrite C, app_length. cbn. split; [lia|].
  split. { rewrite W. f_equal. f_equal. rewrite firstn_app.
           replace (k - length (accepted s))%nat with 0%nat by lia. cbn. symmetry. apply app_nil_r. }
  split. { destruct P as [P|(a & P & P2)]; [left; exact P|]. right. exists a. split; [|exact P2].
           rewrite nth_error_app1; [exact P|]. apply nth_error_Some. congruence. }
  split; [exact F|]. split.
  { rewrite map_app, R. cbn. replace (length (accepted s) + 1 - k)%nat with (length (accepted s) - k + 1)%nat by lia.
    rewrite seq_app. f_equal. cbn. f_equal. lia. }
  rewrite skipn_app. destruct (queue s) as [|r rest] eqn:Eq.
  - cbn. cbn in R. assert (length (accepted s) = k).
    { destruct (length (accepted s) - k)%nat eqn:E; [lia|discriminate]. }
    replace (k - length (accepted s))%nat with 0%nat by lia. rewrite skipn_all2 by lia. cbn. rewrite Q. reflexivity.
  - cbn. rewrite Q. replace (k - length (accepted s))%nat with 0%nat by lia. cbn. rewrite map_app. reflexivity.
Qed.

Lemma set_script_J sc s : J s -> J (set_script sc s).
Proof. intros H. exact H. Qed.

Lemma poll_J r w s : J s -> J (poll r w s).
Proof. intros H. exact H. Qed.

Lemma shorten_J n r rest s : closed s = false -> queue s = r :: rest -> (n < length (rpay r))%nat -> J s -> J (shorten n r rest s).
Proof.
  intros C E Hn (k & part & L & W & P & H). rewrite C in H. destruct H as (F & R & Q). rewrite E in R, Q.
  exists k, (part ++ firstn n (rpay r)). cbn. rewrite C. split; [exact L|]. split; [rewrite W, app_assoc; reflexivity|].
  split.
  { right. exists (part ++ rpay r). split; [exact (nth_skipn _ _ _ _ _ Q)|]. exists (skipn n (rpay r)).
    rewrite <- app_assoc, firstn_skipn. reflexivity. }
  split; [exact F|]. split; [exact R|]. rewrite <- app_assoc, firstn_skipn. exact Q.
Qed.

Lemma complete_J r rest s : closed s = false -> queue s = r :: rest -> J s -> J (complete r rest s).
Proof.
  intros C E (k & part & L & W & P & H). rewrite C in H. destruct H as (F & R & Q). rewrite E in R, Q.
  destruct (firstn_step _ _ _ _ _ Q) as [F1 F2].
  assert (Hk : (k < length (accepted s))%nat).
  { apply nth_error_Some. rewrite (nth_skipn _ _ _ _ _ Q). discriminate. }
  assert (E1 : (length (accepted s) - k)%nat = S (length (accepted s) - S k)) by lia.
  exists (S k), []. cbn [closed queue wire accepted finished complete]. rewrite C.
  split; [lia|]. split.
  { rewrite W, F1, concat_app. cbn. rewrite !app_nil_r, app_assoc. reflexivity. }
  split; [left; reflexivity|].
  rewrite E1 in R. cbn [map seq] in R.
  assert (R1 := f_equal (hd 0%nat) R). assert (R2 := f_equal (@tl nat) R). cbn [hd tl] in R1, R2.
  split.
  { rewrite F, R1. unfold dones. rewrite seq_S, map_app. reflexivity. }
  split; [exact R2|]. destruct rest as [|r' rest']; [reflexivity|].
  cbn [app]. rewrite F2. reflexivity.
Qed.

(** What a flush leaves behind. *)
Definition settled (s : out) : Prop :=
  closed s = false -> rd s = true /\ (if queue s then wr s = false else wr s = true).

(** The callbacks in the queue do not close the stream. *)
Definition kind (s : out) : Prop := forallb (fun r => forallb gentle (rcb r)) (queue s) = true.

Lemma flush_ok : forall fuel s, (length (script s) < fuel)%nat -> J s ->
  exists s', flush fuel s = Ok s' /\ J s' /\ T s s' /\ settled s' /\
    (kind s -> ~ In Fatal (script s) -> closed s = false -> kind s' /\ closed s' = false).
Proof.
  induction fuel as [|fuel IH]; [intros; lia|]. intros s Hl HJ. cbn [flush].
  destruct (queue s) as [|r rest] eqn:Eq.
  { exists (if closed s then s else poll true false s). split; [reflexivity|].
    destruct (closed s) eqn:C.
    - split; [exact HJ|]. split; [apply T_refl|]. split; [intros C'; congruence|intros; congruence].
    - split; [exact HJ|]. split.
      { unfold T. cbn. split; [lia|]. split; [intros; congruence|]. split; [exists []; symmetry; apply app_nil_r|].
        split; [exists []; symmetry; apply app_nil_r|]. split; auto. }
      split; [intros _; cbn; rewrite Eq; auto|]. intros K _ _. split; [exact K|exact C]. }
  destruct (closed s) eqn:C.
  { exfalso. destruct HJ as (k & part & _ & _ & _ & H). rewrite C in H. destruct H as [H _]. congruence. }
  assert (Hag : forall sc, (length sc <= length (script s))%nat -> (forall x, In x sc -> In x (script s)) ->
    exists s', Ok (poll true true (set_script sc s)) = Ok s' /\ J s' /\ T s s' /\ settled s' /\
    (kind s -> ~ In Fatal (script s) -> false = false -> kind s' /\ closed s' = false)).
  { intros sc Hs Hin. eexists. split; [reflexivity|]. split; [exact HJ|]. split.
    { unfold T. cbn. split; [exact Hs|]. split; [intros; congruence|]. split; [exists []; symmetry; apply app_nil_r|].
      split; [exists []; symmetry; apply app_nil_r|]. split; auto. }
    split; [intros _; cbn; rewrite Eq; auto|]. intros K _ _. split; [exact K|exact C]. }
  destruct (script s) as [|[n| |] sc] eqn:Es.
  - cbn [tl]. apply Hag; cbn; auto.
  - assert (Hsc : (length sc < fuel)%nat) by (cbn in Hl; lia).
    assert (HJ1 : J (set_script sc s)) by exact HJ.
    assert (HT1 : T s (set_script sc s)).
    { unfold T. cbn. rewrite Es. cbn. split; [lia|]. split; [intros; congruence|]. split; [exists []; symmetry; apply app_nil_r|].
      split; [exists []; symmetry; apply app_nil_r|]. split; auto. }
    destruct (Nat.ltb_spec n (length (rpay r))) as [Hn|Hn].
    + eexists. split; [reflexivity|]. split; [apply shorten_J; assumption|]. split.
      { apply (T_then s (set_script sc s)); [exact HT1|]. unfold T. cbn. split; [lia|]. split; [intros; congruence|].
        split; [exists []; symmetry; apply app_nil_r|]. split; [exists (firstn n (rpay r)); reflexivity|]. split; auto. }
      split; [intros _; cbn; auto|]. intros K _ _. split; [|exact C]. unfold kind in *. cbn. rewrite Eq in K. exact K.
    + set (s1 := complete r rest (set_script sc s)).
      assert (HJ2 : J s1) by (apply complete_J; assumption).
      assert (HT2 : T s s1).
      { apply (T_then s (set_script sc s)); [exact HT1|]. unfold s1, T. cbn. split; [lia|]. split; [intros; congruence|].
        split; [exists []; symmetry; apply app_nil_r|]. split; [exists (rpay r); reflexivity|]. split; auto. }
      set (go := fix go (l : list act) (s : out) : res out :=
             match l with
             | [] => Ok s
             | AClose :: l => go l (close s)
             | ASend p cb :: l => let* s := if closed s then Ok s else flush fuel (enqueue p cb s) in go l s
             end).
      assert (Hgo : forall l u, J u -> T s1 u -> exists u', go l u = Ok u' /\ J u' /\ T s1 u' /\
        (kind u -> forallb gentle l = true -> ~ In Fatal sc -> closed u = false -> kind u' /\ closed u' = false)).
      { induction l as [|a l IHl]; intros u HJu HTu.
        - exists u. split; [reflexivity|]. split; [exact HJu|]. split; [exact HTu|]. auto.
        - destruct a as [p cb|].
          + cbn. destruct (closed u) eqn:Cu.
            * cbn. destruct (IHl u HJu HTu) as (u' & A & B & D & _). exists u'.
              split; [exact A|]. split; [exact B|]. split; [exact D|]. intros; congruence.
            * assert (HJe : J (enqueue p cb u)) by (apply enqueue_J; assumption).
              assert (Hle : (length (script (enqueue p cb u)) < fuel)%nat).
              { cbn. destruct HTu as (X & _). cbn in X. lia. }
              destruct (IH _ Hle HJe) as (v & A & B & D & _ & G). rewrite A. cbn [bind].
              assert (HTv : T s1 v).
              { apply (T_then s1 (enqueue p cb u)); [|exact D]. apply (T_then s1 u); [exact HTu|].
                unfold T. cbn. split; [lia|]. split; [intros; congruence|]. split; [exists [p]; reflexivity|].
                split; [exists []; symmetry; apply app_nil_r|]. split; auto. }
              destruct (IHl v B HTv) as (u' & A' & B' & D' & G'). exists u'.
              split; [exact A'|]. split; [exact B'|]. split; [exact D'|].
              intros K Hg Hf _. apply andb_prop in Hg. destruct Hg as [Hg1 Hg2].
              assert (Hfe : ~ In Fatal (script (enqueue p cb u))).
              { intros Hi. apply Hf. destruct HTu as (_ & _ & _ & _ & _ & X). apply X. exact Hi. }
              assert (Ke : kind (enqueue p cb u)).
              { unfold kind in *. cbn. rewrite forallb_app, K. cbn. rewrite Hg1. reflexivity. }
              destruct (G Ke Hfe Cu) as [Kv Cv]. apply (G' Kv Hg2 Hf Cv).
          + cbn. destruct (IHl (close u) (close_J u HJu) (T_then _ _ _ HTu (close_T u))) as (u' & A & B & D & _).
            exists u'. split; [exact A|]. split; [exact B|]. split; [exact D|]. intros; discriminate. }
      destruct (Hgo (rcb r) s1 HJ2 (T_refl s1)) as (u & A & B & D & G).
      cbn zeta. fold s1. fold go. rewrite A. cbn [bind].
      assert (Hlu : (length (script u) < fuel)%nat).
      { destruct D as (X & _). cbn in X. lia. }
      destruct (IH u Hlu B) as (v & A' & B' & D' & E' & G'). exists v.
      split; [exact A'|]. split; [exact B'|].
      split; [apply (T_then s s1 v HT2); apply (T_then s1 u v D D')|].
      split; [exact E'|]. intros K Hf _.
      unfold kind in K. rewrite Eq in K. cbn in K. apply andb_prop in K. destruct K as [K1 K2].
      destruct (G K2 K1 (fun Hi => Hf (or_intror Hi)) C) as [Ku Cu]. apply G'; [exact Ku| |exact Cu].
      intros Hi. apply Hf. destruct D as (_ & _ & _ & _ & _ & X). right. apply X, Hi.
  - cbn [tl]. apply Hag; cbn; auto.
  - eexists. split; [reflexivity|]. split; [apply close_J; exact HJ|]. split.
    { apply (T_then s (set_script sc s)); [|apply close_T]. unfold T. cbn. rewrite Es. cbn. split; [lia|].
      split; [intros; congruence|]. split; [exists []; symmetry; apply app_nil_r|].
      split; [exists []; symmetry; apply app_nil_r|]. split; auto. }
    split; [intros X; rewrite close_closed in X; discriminate|]. intros _ Hf _. exfalso. apply Hf. left. reflexivity.
Qed.

Lemma flush_now_ok s : J s -> exists s', flush_now s = Ok s' /\ J s' /\ T s s' /\ settled s' /\
  (kind s -> ~ In Fatal (script s) -> closed s = false -> kind s' /\ closed s' = false).
Proof. intros H. apply flush_ok; [lia|exact H]. Qed.

Lemma send_ok p cb s : J s -> exists s', send p cb s = Ok s' /\ J s' /\ T s s' /\
  (closed s = false -> settled s' /\ exists more, accepted s' = accepted s ++ p :: more) /\
  (kind s -> forallb gentle cb = true -> ~ In Fatal (script s) -> closed s = false -> kind s' /\ closed s' = false).
Proof.
  intros H. unfold send. destruct (closed s) eqn:C.
  - exists s. split; [reflexivity|]. split; [exact H|]. split; [apply T_refl|]. split; [discriminate|intros; congruence].
  - destruct (flush_now_ok (enqueue p cb s) (enqueue_J p cb s C H)) as (s' & A & B & D & E & G).
    exists s'. split; [exact A|]. split; [exact B|]. split.
    { apply (T_then s (enqueue p cb s)); [|exact D]. unfold T. cbn. split; [lia|]. split; [intros; congruence|].
      split; [exists [p]; reflexivity|]. split; [exists []; symmetry; apply app_nil_r|]. split; auto. }
    split.
    { intros _. split; [exact E|]. destruct D as (_ & _ & (m & D) & _). exists m. rewrite D. cbn.
      rewrite <- app_assoc. reflexivity. }
    intros K Hg Hf _. apply G; [|exact Hf|exact C]. unfold kind in *. cbn. rewrite forallb_app, K. cbn. rewrite Hg. reflexivity.
Qed.

Lemma answer_ok l : forall s, J s -> exists s', answer l s = Ok s' /\ J s' /\ T s s' /\
  (settled s -> settled s') /\
  (kind s -> ~ In Fatal (script s) -> closed s = false -> kind s' /\ closed s' = false).
Proof.
  induction l as [|p l IH]; intros s H.
  - exists s. split; [reflexivity|]. split; [exact H|]. split; [apply T_refl|]. auto.
  - cbn. destruct (send_ok p [] s H) as (u & A & B & D & E & G). rewrite A. cbn [bind].
    destruct (IH u B) as (v & A' & B' & D' & E' & G'). exists v. split; [exact A'|]. split; [exact B'|].
    split; [apply (T_then s u v D D')|]. split.
    { intros Hs. apply E'. destruct (closed s) eqn:C; [|apply E; reflexivity].
      destruct D as (_ & X & _). rewrite (X C). exact Hs. }
    intros K Hf C. destruct (G K eq_refl Hf C) as [K' C']. apply G'; [exact K'| |exact C'].
    intros Hi. apply Hf. destruct D as (_ & _ & _ & _ & _ & X). apply X, Hi.
Qed.

(** ** The stream *)
Definition all_in (s : tls) : list Z := got s ++ pending s ++ concat (map bytes_of (input s)).

Lemma recv_snd size s : snd_half (snd (recv size s)) = snd_half s /\ ph (snd (recv size s)) = ph s /\
  told (snd (recv size s)) = told s /\ freed (snd (recv size s)) = freed s /\
  all_in (snd (recv size s)) = all_in s.
Proof.
  unfold recv, all_in. destruct size as [|size]; [auto 6|].
  destruct (pending s) as [|z zs] eqn:P.
  - destruct (input s) as [|x rest] eqn:I; [cbn; rewrite P, I; auto 6|].
    destruct x as [[|b bs]| | | |]; try (cbn; auto 6).
    cbn -[firstn skipn]. repeat split. rewrite <- !app_assoc. f_equal. cbn. f_equal. rewrite (app_assoc (firstn _ _)), firstn_skipn. reflexivity.
  - cbn -[firstn skipn]. repeat split. rewrite <- !app_assoc. f_equal. cbn. f_equal. rewrite (app_assoc (firstn _ _)), firstn_skipn. reflexivity.
Qed.

(** What every operation keeps. *)
Definition N (s : tls) : Prop := J (snd_half s) /\ (told s <= 1)%nat /\ (told s = 1%nat -> closed (snd_half s) = true) /\
  (freed s = true -> closed (snd_half s) = true).

Definition wound (t : turn) : bool := can_r t && can_w t.

Lemma set_script_T sc s : closed s = false -> accepted (set_script sc s) = accepted s.
Proof. reflexivity. Qed.

Lemma on_read_ok size l s : N s -> closed (snd_half s) = false -> freed s = false ->
  exists s', on_read size l s = Ok s' /\ N s' /\ T (snd_half s) (snd_half s') /\ ph s' = ph s /\ all_in s' = all_in s /\
   (settled (snd_half s) -> settled (snd_half s')).
Proof.
  intros (HJ & H1 & H2 & H3) C F. unfold on_read. destruct (recv_snd size s) as (R1 & R2 & R3 & R4 & R5).
  set (x := recv size s) in *. cbn zeta. assert (Ht : told s = 0%nat). { destruct (told s) as [|[|n]]; [reflexivity| |lia]. rewrite H2 in C by reflexivity. discriminate. }
  destruct (fst x) as [b| | |].
  - destruct (answer_ok l (snd_half (snd x))) as (o & A & B & D & E & G); [rewrite R1; exact HJ|].
    rewrite A. cbn [bind]. eexists. split; [reflexivity|]. rewrite R1 in *.
    split. { split; [exact B|]. cbn. rewrite R3, R4, Ht, F. repeat split; try discriminate. lia. }
    split; [exact D|]. split; [exact R2|]. split; [exact R5|]. exact E.
  - eexists. split; [reflexivity|]. split.
    { split; [cbn; rewrite R1; apply close_J, HJ|]. cbn. rewrite R3, Ht. split; [lia|]. split; intros; rewrite ?R1; apply close_closed. }
    split; [cbn; rewrite R1; apply close_T|]. split; [exact R2|]. split; [exact R5|].
    intros _ X. cbn in X. rewrite close_closed in X. discriminate.
  - eexists. split; [reflexivity|]. split. { split; [rewrite R1; exact HJ|]. rewrite R1, R3, R4. auto. }
    split; [rewrite R1; apply T_refl|]. split; [exact R2|]. split; [exact R5|]. rewrite R1. auto.
  - eexists. split; [reflexivity|]. split.
    { split; [cbn; rewrite R1; apply close_J, HJ|]. cbn. rewrite R3, Ht. split; [lia|]. split; intros; rewrite ?R1; apply close_closed. }
    split; [cbn; rewrite R1; apply close_T|]. split; [exact R2|]. split; [exact R5|].
    intros _ X. cbn in X. rewrite close_closed in X. discriminate.
Qed.

Lemma accept_N h s : N s -> N (accept h s).
Proof.
  intros (A & B & C & D). destruct h; (split; [|cbn; auto]); try exact A.
  destruct A as (k & part & L & W & P & H). exists k, part. cbn. split; [exact L|]. split; [exact W|].
  split; [exact P|]. destruct (closed (snd_half s)); [|exact H]. destruct H as (H1 & H2 & H3). auto.
Qed.

Lemma on_readable_ok h size l s : N s -> freed s = false ->
  exists s', on_readable h size l s = Ok s' /\ N s' /\ all_in s' = all_in s.
Proof.
  intros HN F. unfold on_readable. destruct (closed (snd_half s)) eqn:C; [exists s; auto|].
  destruct (ph s).
  - eexists. split; [reflexivity|]. split; [apply accept_N, HN|]. destruct h; reflexivity.
  - destruct (on_read_ok size l s HN C F) as (s' & A & B & _ & _ & D & _). exists s'. auto.
Qed.

Lemma on_writable_ok h s : N s -> freed s = false ->
  exists s', on_writable h s = Ok s' /\ N s' /\ all_in s' = all_in s /\ freed s' = false.
Proof.
  intros HN F. unfold on_writable. rewrite F. destruct (closed (snd_half s)) eqn:C; [exists s; auto|].
  destruct (ph s).
  - eexists. split; [reflexivity|]. split; [apply accept_N, HN|]. destruct h; auto.
  - destruct HN as (HJ & H1 & H2 & H3). destruct (flush_now_ok (snd_half s) HJ) as (o & A & B & D & E & _).
    rewrite A. cbn [bind]. eexists. split; [reflexivity|]. split; [|auto].
    split; [exact B|]. cbn. split; [exact H1|]. split; [|intros X; congruence].
    intros X. rewrite (H2 X) in C. discriminate.
Qed.

Lemma step_ok a s : N s ->
  match step a s with
  | Ok s' => N s' /\ (freed s' = false -> all_in s' = all_in s ++ arrived a) /\
             (exists more, all_in s' = all_in s ++ more /\ is_prefix more (arrived a)) /\
             (freed s = true -> s' = s)
  | Fault e => e = UseAfterFree /\ ~ one_event a
  end.
Proof.
  intros HN. unfold step. destruct (freed s) eqn:F.
  { split; [exact HN|]. split; [congruence|]. split; [exists []; split; [symmetry; apply app_nil_r|exists (arrived a); reflexivity]|reflexivity]. }
  assert (Hk : forall s' : tls, N s' -> all_in s' = all_in s -> arrived a = [] ->
     N s' /\ (freed s' = false -> all_in s' = all_in s ++ arrived a) /\
             (exists more, all_in s' = all_in s ++ more /\ is_prefix more (arrived a)) /\
             (false = true -> s' = s)).
  { intros s' A B D. rewrite D, B, app_nil_r. split; [exact A|]. split; [reflexivity|]. split; [|discriminate].
    exists []. split; [symmetry; apply app_nil_r|exists []; reflexivity]. }
  destruct HN as (HJ & H1 & H2 & H3). destruct a as [p cb sc|l|t sc|].
  - destruct (send_ok p cb (set_script sc (snd_half s)) HJ) as (o & A & B & D & _). rewrite A. cbn [bind].
    apply Hk; [|reflexivity|reflexivity]. split; [exact B|]. split; [exact H1|].
    assert (X := T_mono _ _ D). cbn in X. cbn. auto.
  - split; [split; [exact HJ|split; [exact H1|split; [exact H2|cbn; discriminate]]]|]. unfold all_in. cbn. rewrite map_app, concat_app, !app_assoc.
    split; [reflexivity|]. split; [|discriminate]. eexists. split; [reflexivity|exists []; symmetry; apply app_nil_r].
  - unfold on_event. cbn [snd_half set_out watched set_script rd wr].
    set (s0 := set_out (set_script sc (snd_half s)) s).
    assert (N0 : N s0) by (split; [exact HJ|auto]).
    destruct (watched (snd_half s)); [|apply Hk; auto].
    assert (F0 : freed s0 = false) by exact F.
    destruct (can_r t && rd (snd_half s)) eqn:Er.
    + destruct (on_readable_ok (h_r t) (space t) (says t) s0 N0 F0) as (s1 & A & B & D). rewrite A. cbn [bind].
      destruct (can_w t && wr (snd_half s)) eqn:Ew; [|apply Hk; auto].
      destruct (freed s1) eqn:F1.
      * unfold on_writable. rewrite F1. split; [reflexivity|]. cbn. apply andb_prop in Er, Ew.
        destruct Er as [E1 _], Ew as [E2 _]. rewrite E1, E2. discriminate.
      * destruct (on_writable_ok (h_w t) s1 B F1) as (s2 & A2 & B2 & D2 & _). rewrite A2. apply Hk; [exact B2|rewrite D2, D; reflexivity|reflexivity].
    + cbn [bind]. destruct (can_w t && wr (snd_half s)); [|apply Hk; auto].
      destruct (on_writable_ok (h_w t) s0 N0 F0) as (s2 & A2 & B2 & D2 & _). rewrite A2. apply Hk; [exact B2|exact D2|reflexivity].
  - apply Hk; [|reflexivity|reflexivity]. split; [apply close_J, HJ|]. split; [exact H1|]. split; intros; apply close_closed.
Qed.

Lemma run_ok ops : forall s, N s ->
  match run ops s with
  | Ok s' => N s' /\ (freed s' = false -> all_in s' = all_in s ++ flat_map arrived ops) /\
             (exists more, all_in s' = all_in s ++ more /\ is_prefix more (flat_map arrived ops)) /\
             (freed s = true -> s' = s)
  | Fault e => e = UseAfterFree /\ ~ Forall one_event ops
  end.
Proof.
  induction ops as [|a ops IH]; intros s HN; cbn [run flat_map].
  - split; [exact HN|]. rewrite app_nil_r. split; [reflexivity|]. split; [|reflexivity].
    exists []. split; [symmetry; apply app_nil_r|exists []; reflexivity].
  - pose proof (step_ok a s HN) as Ha. destruct (step a s) as [s1|e].
    2:{ cbn. destruct Ha as [A B]. split; [exact A|]. intros X. inversion X; contradiction. }
    cbn [bind]. destruct Ha as (A & B & (m & D & D') & E). specialize (IH s1 A).
    destruct (run ops s1) as [s2|e].
    2:{ destruct IH as [X Y]. split; [exact X|]. intros Z. apply Y. inversion Z; assumption. }
    destruct IH as (A' & B' & (m' & F & F') & E').
    assert (Hf : freed s1 = true -> s2 = s1) by exact E'.
    split; [exact A'|]. split; [|split].
    + intros X. assert (X1 : freed s1 = false). { destruct (freed s1) eqn:Y; [rewrite (Hf eq_refl) in X; congruence|reflexivity]. }
      rewrite (B' X), (B X1), app_assoc. reflexivity.
    + destruct (freed s1) eqn:Y.
      * rewrite (Hf eq_refl). exists m. split; [exact D|]. destruct D' as [r D']. rewrite D'. exists (r ++ flat_map arrived ops). rewrite app_assoc. reflexivity.
      * exists (arrived a ++ m'). split; [rewrite F, (B eq_refl), app_assoc; reflexivity|].
        destruct F' as [r F']. rewrite F'. exists r. rewrite app_assoc. reflexivity.
    + intros X. rewrite (E X) in *. apply Hf, X.
Qed.

Lemma left_over_rid ps : forall i, map rid (left_over i ps) = seq i (length ps) /\ map rpay (left_over i ps) = ps.
Proof.
  induction ps as [|p ps IH]; intros i; cbn; [auto|]. destruct (IH (S i)) as [A B]. rewrite A, B. auto.
Qed.

Lemma upgrade_N ps h : N (upgrade ps h).
Proof.
  apply accept_N. split; [|cbn; repeat split; try discriminate; lia]. exists 0%nat, []. cbn.
  split; [lia|]. split; [reflexivity|]. split; [left; reflexivity|]. split; [reflexivity|].
  destruct (left_over_rid ps 0) as [A B]. split; [rewrite A; f_equal; lia|]. destruct (left_over 0 ps) eqn:E; [reflexivity|].
  cbn in B. rewrite <- B. reflexivity.
Qed.
