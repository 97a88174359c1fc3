(** C50: the colours of a cursor. *)
From Coq Require Import String.
From Verif Require Import Common CommonProofs Pixels_Model Pixels_Spec Pixels_Proofs Pixels_Props Zrle_Model Zrle_Spec Raw_Model Raw_Spec
  Fb_Model Transform_Model Cursor_Model Cursor_Spec Cursor_Proofs Cursor2_Proofs Cursor_Props Hue_Spec Hue_Proofs Hue2_Proofs CursorHue_Spec.

Lemma ok_eq {T} (a b : T) : Ok a = Ok b -> a = b.
Proof. congruence. Qed.
Lemma le_unle l : all_bytes l -> le (length l) (unle l) = l.
Proof.
  intros H. unfold le, unle. rewrite <- (rev_length l). rewrite be_unbe by (apply Forall_rev; exact H). apply rev_involutive.
Qed.
Lemma unle_bound l : all_bytes l -> 0 <= unle l < 256 ^ Z.of_nat (length l).
Proof. intros H. unfold unle. rewrite <- (rev_length l). apply unbe_bound. apply Forall_rev. exact H. Qed.

Lemma clear_client fmt r g b : clear_format fmt r g b -> client_format fmt.
Proof.
  intros (H & F & B & D & _). destruct H as (T & R1 & R2 & G1 & G2 & B1 & B2). destruct F as (F1 & F2 & F3 & _).
  unfold Pixels_Spec.inside in F1, F2, F3.
  assert (8 <= bits_per_pixel fmt <= 32) by (destruct B as [<-|[<-|[<-|[]]]]; lia).
  split; [|auto]. unfold shifts_below_32. rewrite R2, G2, B2.
  repeat split; try lia.
Qed.

Lemma alpha_formats name a r g b : alpha_colours name a r g b ->
  alpha32 name a /\ drm_colours (fourcc name) 32 r g b /\
  (In name ["AR24"; "AB24"; "RA24"; "BA24"; "AR30"; "AB30"]%string -> pixman_format (fourcc name) = Ok true).
Proof.
  intros (layout & I & Bt & EA & ER & EG & EB). split; [exists layout; auto|]. split.
  - exists name, layout. repeat split; auto. discriminate.
  - intros J. cbn [In] in J. repeat destruct J as [<-|J]; try reflexivity. destruct J.
Qed.

(** As C50_cursor_reads_back_partial, with colours: the client that reads the pixels as
    numbers in its format has, where the cursor is to be seen, the colours of the image,
    rescaled. *)
Theorem C50_cursor_colours_partial : forall name a r g b fmt dr dg db i width height hotspot_x hotspot_y w h hx hy,
  alpha_colours name a r g b -> im_fourcc i = fourcc name -> clear_format fmt dr dg db -> can_be_turned name i ->
  0 < im_w i -> 0 < im_h i -> im_w i <= im_stride i -> im_h i * im_stride i * 4 <= zlen (im_mem i) ->
  all_bytes (im_mem i) -> 0 < width <= im_w i -> 0 < height <= im_h i -> width < 2 ^ 16 -> height < 2 ^ 16 ->
  0 <= hotspot_x < 2 ^ 16 -> 0 <= hotspot_y < 2 ^ 16 ->
  transform_dimensions (im_transform i) width height = (w, h) ->
  transform_dimensions (im_transform i) hotspot_x hotspot_y = (hx, hy) ->
  let n := bits_per_pixel fmt / 8 in
  needed w h n <= reserved w h n ->
  exists out c, send_cursor_update true fmt (Some i) width height hotspot_x hotspot_y = Ok (Some out, 0) /\
    read_cursor (Z.to_nat n) (skipn 4 out) = Some (c, []) /\
    forall x y, 0 <= x < w -> 0 <= y < h ->
      let (sx, sy) := comes_from (im_transform i) (im_w i) (im_h i) x y in
      exists v cp, get (im_mem i) ((sy * im_stride i + sx) * 4) 4 = Ok (le 4 v) /\
        pixel_of c x y = Some cp /\ shown c x y = (2 * channel a v >? 2 ^ f_bits a - 1) /\
        tint fmt (number fmt cp) = [rescale r dr (channel r v); rescale g dg (channel g v); rescale b db (channel b v)].
Proof.
  intros name a r g b fmt dr dg db i width height hotspot_x hotspot_y w h hx hy AC IF CF CT I1 I2 I3 I4 AB W H W2 H2 HX HY T1 T2 n NR.
  destruct (alpha_formats _ _ _ _ _ AC) as (A32 & DC & PX).
  destruct (drm_source _ _ _ _ _ DC) as (src & PS & SF & B32).
  assert (DR : Cursor_Spec.drawable i).
  { destruct CT as [CT|(J & X & Y)]; [left; exact CT|right]. rewrite IF, PX by exact J. auto. }
  destruct (C50_cursor_reads_back_partial name a fmt src i width height hotspot_x hotspot_y w h hx hy A32 IF (clear_client _ _ _ _ CF) PS DR
    I1 I2 I3 I4 AB W H W2 H2 HX HY T1 T2 NR) as (out & c & O & _ & RC & _ & _ & _ & _ & P & _).
  exists out, c. split; [exact O|]. split; [exact RC|]. intros x y X Y. specialize (P x y X Y).
  destruct (comes_from _ _ _ x y) as [sx sy]. destruct P as (p & cp & G & C & PO & SH).
  assert (BP : all_bytes p /\ length p = 4%nat).
  { unfold get in G. destruct ((0 <=? (sy * im_stride i + sx) * 4) && (0 <=? 4) && ((sy * im_stride i + sx) * 4 + 4 <=? Z.of_nat (length (im_mem i))))%bool eqn:K; [|discriminate G].
    apply ok_eq in G. subst p. split; [apply Forall_firstn, Forall_skipn, AB|]. rewrite firstn_length, skipn_length. lia. }
  destruct BP as [BP LP]. pose proof (le_unle p BP) as LE. pose proof (unle_bound p BP) as UB. rewrite LP in LE, UB.
  exists (unle p), cp. rewrite LE. split; [exact G|]. split; [exact PO|]. split; [exact SH|].
  destruct (whole_pixel fmt src dr dg db r g b CF SF (unle p)) with (c := cp) as [TT _].
  - rewrite B32. exact UB.
  - rewrite B32. change (Z.to_nat (32 / 8)) with 4%nat. rewrite LE. exact C.
  - exact TT.
Qed.
Print Assumptions C50_cursor_colours_partial.

(** The image of C50_example, turned by 90 degrees, at a client of eight bits: red, red,
    green, green, blue, blue. *)
Example C50_colours_case :
  alpha_colours "AR24" (mk_field 24 8) (mk_field 16 8) (mk_field 8 8) (mk_field 0 8) /\ can_be_turned "AR24" little /\
  clear_format rgb332 (mk_field 5 3) (mk_field 2 3) (mk_field 0 2) /\
  map (fun cp => tint rgb332 (number rgb332 cp)) [[224]; [28]; [3]] = [[7; 0; 0]; [0; 7; 0]; [0; 0; 3]].
Proof.
  split. { exists [(A, 8); (R, 8); (G, 8); (B, 8)]. split; [vm_compute; tauto|]. repeat split. }
  split. { right. cbn. repeat split; try lia. tauto. }
  split.
  { unfold clear_format, has_fields, fields_ok, Pixels_Spec.inside, apart. cbn. repeat split; try lia; try tauto; try (intros XX; discriminate XX). }
  vm_compute. reflexivity.
Qed.
