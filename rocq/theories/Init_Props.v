(** Claims about the server's name and the ServerInit message. *)
From Verif Require Import Common CommonProofs Pixels_Model Pixels_Spec Init_Model.

(** C53: whatever the name, what is stored is 256 bytes with a NUL at the end,
    the string in it is the name up to its 255th byte, ... *)
Theorem C53_name_is_kept_and_terminated : forall name, Forall (fun c => c <> 0) name ->
  length (nvnc_set_name name) = 256%nat /\ nth 255 (nvnc_set_name name) 1 = 0 /\
  cstr (nvnc_set_name name) = firstn 255 name.
Proof.
  intros name NZ. unfold nvnc_set_name. rewrite firstn_firstn. change (Nat.min 255 256) with 255%nat.
  assert (L : length (firstn 255 (name ++ repeat 0 256)) = 255%nat)
    by (rewrite firstn_length, app_length, repeat_length; lia).
  split; [rewrite app_length, L; reflexivity|]. split.
  - rewrite app_nth2, L by lia. reflexivity.
  - rewrite firstn_app. clear L. revert NZ. generalize (255 - length name)%nat as k. intros k NZ.
    assert (F : forall l z, Forall (fun c => c <> 0) l -> cstr (l ++ 0 :: z) = l).
    { clear. induction l as [|c l IH]; intros z H; [reflexivity|]. inversion H; subst. cbn [app cstr].
      destruct (c =? 0) eqn:E; [lia|]. f_equal. apply IH. assumption. }
    assert (R : exists z, firstn k (repeat 0 256) ++ [0] = 0 :: z).
    { destruct k; [exists []; reflexivity|]. cbn [repeat firstn app]. eauto. }
    destruct R as [z R]. rewrite <- app_assoc, R. apply F. apply Forall_firstn, NZ.
Qed.
Print Assumptions C53_name_is_kept_and_terminated.

(** ServerInit as a client reads it, RFC 6143 7.3.2. *)
Record server_init := mk_init { i_width : Z; i_height : Z; i_format : pixfmt; i_name : list Z; i_rest : list Z }.

Definition read_server_init (l : list Z) : option server_init :=
  match l with
  | w1 :: w0 :: h1 :: h0 :: bpp :: dep :: bigf :: tc :: r1 :: r0 :: g1 :: g0 :: b1 :: b0 :: rs :: gs :: bs :: _ :: _ :: _ ::
    n3 :: n2 :: n1 :: n0 :: tail =>
      let len := unbe [n3; n2; n1; n0] in
      if len <=? zlen tail then
        Some (mk_init (unbe [w1; w0]) (unbe [h1; h0])
                (mk_fmt bpp dep bigf tc (unbe [r1; r0]) (unbe [g1; g0]) (unbe [b1; b0]) rs gs bs)
                (firstn (Z.to_nat len) tail) (skipn (Z.to_nat len) tail))
      else None
  | _ => None
  end.

(** A format a client can be told: RFC 6143 7.4. *)
Definition announceable (f : pixfmt) : Prop :=
  In (bits_per_pixel f) [8; 16; 32] /\ 0 < depth f <= bits_per_pixel f /\
  exists r g b, has_fields f r g b /\ fields_ok (bits_per_pixel f) r g b.

Lemma some_pair_inj {A B} (a c : A) (b d : B) : Some (a, b) = Some (c, d) -> a = c /\ b = d.
Proof. intros E. inversion E. split; reflexivity. Qed.

Lemma some_inj1 {A} (a b : A) : Some a = Some b -> a = b.
Proof. intros E. inversion E. reflexivity. Qed.

Lemma server_init_readable name width height code m f :
  (length name <= 256)%nat -> 0 <= width < 65536 -> 0 <= height < 65536 ->
  send_server_init_message name (Some (width, height, code)) = Some (m, f) ->
  read_server_init m = Some (mk_init width height f (cstr name) []) /\
  exists g, pixfmt_from_fourcc code = Some g /\
    depth f = depth g /\ big_endian_flag f = big_endian_flag g /\ red_max f = red_max g /\ green_max f = green_max g /\
    blue_max f = blue_max g /\ red_shift f = red_shift g /\ green_shift f = green_shift g /\ blue_shift f = blue_shift g /\
    true_colour_flag f = 1 /\ bits_per_pixel f = (if bits_per_pixel g =? 24 then 32 else bits_per_pixel g).
Proof.
  intros LN W H. unfold send_server_init_message.
  destruct (pixfmt_from_fourcc code) as [g|] eqn:E; [|discriminate].
  intros Q. apply some_pair_inj in Q as [<- <-].
  assert (CL : zlen (cstr name) <= 256).
  { unfold zlen. assert (length (cstr name) <= length name)%nat; [|lia].
    clear. induction name as [|c n IH]; cbn [cstr length]; [lia|]. destruct (c =? 0); cbn [length]; lia. }
  unfold pixfmt_from_fourcc in E. destruct (layout_of_fourcc code) as [[[[rs gs] bs] [[bpp dep] max]]|] eqn:L; [|discriminate].
  apply some_inj1 in E. subst g.
  assert (D : 0 <= rs < 256 /\ 0 <= gs < 256 /\ 0 <= bs < 256 /\ (bpp = 16 \/ bpp = 24 \/ bpp = 32) /\ 0 <= dep < 256 /\ 0 <= max < 65536).
  { clear - L. unfold layout_of_fourcc in L.
    repeat match type of L with (if ?b then _ else _) = _ => destruct b end; try discriminate;
      injection L as <- <- <- <- <- <-; lia. }
  destruct D as [Drs [Dgs [Dbs [Dbpp [Ddep Dmax]]]]].
  set (flag := if Z.testbit code 31 then 1 else 0). assert (FL : 0 <= flag < 256) by (unfold flag; destruct (Z.testbit code 31); lia).
  clearbody flag. cbn [bits_per_pixel].
  split.
  - set (b := if bpp =? 24 then 32 else bpp).
    assert (B : 0 <= b < 256) by (unfold b; destruct (bpp =? 24); lia).
    match goal with |- context [if bpp =? 24 then mk_fmt ?c1 ?c2 ?c3 ?c4 ?c5 ?c6 ?c7 ?c8 ?c9 ?c10 else ?d] =>
      assert (EB : (if bpp =? 24 then mk_fmt c1 c2 c3 c4 c5 c6 c7 c8 c9 c10 else d) = mk_fmt b dep flag 1 max max max rs gs bs)
        by (unfold b; destruct (bpp =? 24); reflexivity); rewrite EB end.
    clearbody b. unfold pixel_format_bytes.
    cbn [bits_per_pixel depth big_endian_flag true_colour_flag red_max green_max blue_max red_shift green_shift blue_shift].
    rewrite !(Z.mod_small _ 256) by lia.
    pose proof (unbe_be 2 width) as U1. pose proof (unbe_be 2 height) as U2. pose proof (unbe_be 2 max) as U3.
    pose proof (unbe_be 4 (zlen (cstr name))) as U4.
    pose proof (be_length 2 width) as L1. pose proof (be_length 2 height) as L2. pose proof (be_length 2 max) as L3.
    pose proof (be_length 4 (zlen (cstr name))) as L4.
    destruct (be 2 width) as [|a1 [|a2 [|]]]; cbn [length] in L1; try lia.
    destruct (be 2 height) as [|h1 [|h2 [|]]]; cbn [length] in L2; try lia.
    destruct (be 2 max) as [|m1 [|m2 [|]]]; cbn [length] in L3; try lia.
    destruct (be 4 _) as [|n3 [|n2 [|n1 [|n0 [|]]]]]; cbn [length] in L4; try lia.
    cbn [app read_server_init]. rewrite U1 by (split; [lia|cbn; lia]). rewrite U2 by (split; [lia|cbn; lia]).
    rewrite U3 by (split; [lia|cbn; lia]). rewrite U4 by (unfold zlen in *; split; [lia|cbn; lia]).
    rewrite Z.leb_refl. unfold zlen. rewrite Nat2Z.id, firstn_all, skipn_all. reflexivity.
  - exists (mk_fmt bpp dep flag 1 max max max rs gs bs). split; [reflexivity|]. destruct (bpp =? 24) eqn:B24;
      cbn [bits_per_pixel depth big_endian_flag true_colour_flag red_max green_max blue_max red_shift green_shift blue_shift];
      repeat split; rewrite B24; reflexivity.
Qed.

(** ... and ServerInit announces exactly its length and carries it. *)
Theorem C53_server_init_carries_the_name : forall name width height code m f, Forall (fun c => c <> 0) name ->
  0 <= width < 65536 -> 0 <= height < 65536 ->
  send_server_init_message (nvnc_set_name name) (Some (width, height, code)) = Some (m, f) ->
  exists i, read_server_init m = Some i /\ i_name i = firstn 255 name /\ i_rest i = [].
Proof.
  intros name width height code m f NZ W H E.
  destruct (C53_name_is_kept_and_terminated name NZ) as [L [_ C]].
  apply server_init_readable in E as [E _]; [|lia|lia|lia].
  eexists. split; [exact E|]. cbn [i_name i_rest]. rewrite C. split; reflexivity.
Qed.
Print Assumptions C53_server_init_carries_the_name.

(** C73: a client reads from ServerInit the size of the displayed framebuffer and a
    format that RFB allows, with the same channels as the framebuffer's format;
    that is also the format in which the server sends pixels from then on.  False
    of the 16-bit formats, whose channels overlap. *)
Theorem C73_server_init_describes_framebuffer_refuted : exists code m f,
  send_server_init_message (nvnc_set_name []) (Some (640, 480, code)) = Some (m, f) /\ ~ announceable f.
Proof.
  exists (fourcc "RA12"). do 2 eexists. split; [vm_compute; reflexivity|].
  intros [_ [_ [r [g [b [[_ [R [RS [G [GS _]]]]] [[R1 _] [[G1 _] [_ [AP _]]]]]]]]]].
  cbn [red_max red_shift green_max green_shift] in *. unfold apart, inside in *.
  assert (W : forall k, 0 <= k <= 16 -> 127 = 2 ^ k - 1 -> k = 7).
  { intros k K E. assert (C : k = 7 \/ k <= 6 \/ 8 <= k) by lia. destruct C as [C|[C|C]]; [exact C| |].
    - pose proof (Z.pow_le_mono_r 2 k 6 ltac:(lia) C). lia.
    - pose proof (Z.pow_le_mono_r 2 8 k ltac:(lia) C). lia. }
  apply W in R; [|lia]. apply W in G; [|lia]. lia.
Qed.
Print Assumptions C73_server_init_describes_framebuffer_refuted.

Theorem C73_server_init_describes_framebuffer_partial : forall name width height code m f, (length name <= 256)%nat ->
  0 <= width < 65536 -> 0 <= height < 65536 ->
  send_server_init_message name (Some (width, height, code)) = Some (m, f) ->
  bits_per_pixel f = 32 ->
  exists i g, read_server_init m = Some i /\ i_width i = width /\ i_height i = height /\ i_format i = f /\
  pixfmt_from_fourcc code = Some g /\ big_endian_flag f = big_endian_flag g /\
  (red_max f, green_max f, blue_max f) = (red_max g, green_max g, blue_max g) /\
  (red_shift f, green_shift f, blue_shift f) = (red_shift g, green_shift g, blue_shift g) /\
  announceable f.
Proof.
  intros name width height code m f LN W H E BP.
  apply server_init_readable in E as [E [g [G P]]]; [|lia|lia|lia].
  destruct P as [P1 [P2 [P3 [P4 [P5 [P6 [P7 [P8 [P9 P10]]]]]]]]].
  exists (mk_init width height f (cstr name) []), g. split; [exact E|]. cbn [i_width i_height i_format].
  split; [reflexivity|]. split; [reflexivity|]. split; [reflexivity|]. split; [exact G|]. split; [exact P2|].
  split; [congruence|]. split; [congruence|]. unfold announceable.
  unfold pixfmt_from_fourcc in G. destruct (layout_of_fourcc code) as [[[[rs gs] bs] [[bpp dep] max]]|] eqn:L; [|discriminate].
  apply some_inj1 in G. subst g.
  cbn [bits_per_pixel depth big_endian_flag true_colour_flag red_max green_max blue_max red_shift green_shift blue_shift] in *.
  rewrite P10 in BP. rewrite P10, P1. unfold has_fields. rewrite P3, P4, P5, P6, P7, P8, P9. clear - L BP.
  unfold layout_of_fourcc in L.
  repeat match type of L with (if ?b then _ else _) = _ => destruct b end; try discriminate;
    injection L as <- <- <- <- <- <-; cbn [Z.eqb Pos.eqb In] in *; try discriminate BP;
    (split; [tauto|]); (split; [lia|]);
    match goal with |- exists r g b, (_ /\ ?rm = _ /\ ?rs = _ /\ _ = _ /\ ?gs = _ /\ _ = _ /\ ?bs = _) /\ _ =>
      let w := (match rm with 1023 => constr:(10) | 255 => constr:(8) | _ => constr:(7) end) in
      exists (mk_field rs w), (mk_field gs w), (mk_field bs w) end;
    unfold fields_ok, inside, apart; cbn [f_shift f_bits]; (split; [repeat split; (discriminate || reflexivity)|lia]).
Qed.
Print Assumptions C73_server_init_describes_framebuffer_partial.

Example C73_ex : exists m f i, send_server_init_message (nvnc_set_name (codes "desk")) (Some (1920, 1080, fourcc "BG24")) = Some (m, f) /\
  read_server_init m = Some i /\ i_width i = 1920 /\ i_height i = 1080 /\ i_name i = codes "desk" /\
  i_format i = mk_fmt 32 24 0 1 255 255 255 0 8 16 /\ length m = 28%nat.
Proof.
  do 3 eexists. split; [vm_compute; reflexivity|]. split; [vm_compute; reflexivity|].
  split; [vm_compute; reflexivity|]. split; [vm_compute; reflexivity|]. split; [vm_compute; reflexivity|].
  split; [vm_compute; reflexivity|vm_compute; reflexivity].
Qed.

(** A name of 300 bytes is cut to 255. *)
Example C53_ex : exists m f i, send_server_init_message (nvnc_set_name (repeat 65 300)) (Some (4, 2, fourcc "XR24")) = Some (m, f) /\
  read_server_init m = Some i /\ i_name i = repeat 65 255 /\ i_rest i = [].
Proof.
  do 3 eexists. split; [vm_compute; reflexivity|]. split; [vm_compute; reflexivity|].
  split; [vm_compute; reflexivity|vm_compute; reflexivity].
Qed.
