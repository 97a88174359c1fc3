(** Claims about the Tight encoder. *)
From Verif Require Import Common CommonProofs Ws_Proofs WsStream_Proofs.
From Verif Require Import Pixels_Model Pixels_Props Zrle_Model Zrle_Spec Zrle_Proofs Zrle2_Proofs Zrle_Props Raw_Spec.
From Verif Require Import Tight_Model Tight_Spec Tight_Proofs Tight2_Proofs Tight3_Proofs Tight4_Proofs Tight5_Proofs.

(** C20: the compact length reads back, takes at most three bytes, and no shorter
    byte string reads to the same length. *)
Theorem C20_compact_length : forall v size, 0 <= size < 2 ^ 22 -> zlen (tdata v) + 3 <= tcap v ->
  exists v' l, encode_size v size = Ok v' /\ tdata v' = tdata v ++ l /\ all_bytes l /\
    (length l <= 3)%nat /\
    (forall rest, read_len (l ++ rest) = Some (size, rest)) /\
    (forall l' rest, all_bytes l' -> read_len (l' ++ rest) = Some (size, rest) -> (length l <= length l')%nat).
Proof.
  intros v size S C. pose proof (len_bytes_le3 size) as L.
  destruct (encode_size_total v size) as [v' E]; [lia|lia|].
  exists v', (len_bytes size). split; [exact E|]. destruct (encode_size_ok v size v' S E) as [D _].
  split; [exact D|]. split; [apply len_bytes_bytes; exact S|]. split; [unfold zlen in L; lia|].
  split; [intros; apply read_len_bytes; exact S|]. intros l' rest. apply len_shortest. exact S.
Qed.
Print Assumptions C20_compact_length.

Example C20_ex :
  encode_size (mk_tv [] 3) 127 = Ok (mk_tv [127] 3) /\
  encode_size (mk_tv [] 3) 128 = Ok (mk_tv [128; 1] 3) /\
  encode_size (mk_tv [] 3) 16384 = Ok (mk_tv [128; 128; 1] 3) /\
  encode_size (mk_tv [] 3) (2 ^ 22 - 1) = Ok (mk_tv [255; 255; 255] 3).
Proof. repeat split. Qed.

(** Compressors for the examples: the identity, and one that adds ten bytes. *)
Definition id_deflate (s : unit) (p : list Z) (flush : bool) : unit * list Z := (s, p).
Definition id_inflate (s : unit) (p : list Z) : unit * list Z := (s, p).
Definition pad_deflate (s : unit) (p : list Z) (flush : bool) : unit * list Z :=
  (s, if flush then p ++ repeat 0 10 else p).
Definition pad_inflate (s : unit) (p : list Z) : unit * list Z := (s, firstn (length p - 10) p).
Definition no_tj (fmt : string) (q w h : Z) (img : list Z) : option (list Z) := None.

Lemma id_works : zlib_works unit unit id_deflate id_inflate (fun _ _ => True).
Proof. exact (proj1 C66_ex). Qed.

Lemma pad_all : forall pieces s, pieces <> [] ->
  deflate_all unit pad_deflate s pieces = (tt, concat pieces ++ repeat 0 10).
Proof.
  induction pieces as [|p pieces IH]; intros s N; [congruence|]. destruct s. cbn [deflate_all pad_deflate].
  destruct pieces as [|q pieces].
  - cbn [deflate_all concat]. rewrite !app_nil_r. reflexivity.
  - rewrite (IH tt) by discriminate. cbn [concat]. rewrite <- !app_assoc. reflexivity.
Qed.

Lemma pad_works : zlib_works unit unit pad_deflate pad_inflate (fun _ _ => True).
Proof.
  intros zs st pieces _ N. exists tt. split; [|exact I]. rewrite pad_all by exact N. cbn [snd].
  destruct st. unfold pad_inflate. rewrite app_length, repeat_length.
  rewrite Nat.add_sub, firstn_app_exact. reflexivity.
Qed.

(** The order in which the workers run one after another. *)
Definition in_turn (w h : Z) : list job :=
  concat (map (fun i => worker_jobs i (UDIV_UP w 64) (UDIV_UP h 64)) [0; 1; 2; 3]).

Lemma in_turn_ok : forall w h, four_workers w h (in_turn w h).
Proof.
  intros w h. unfold four_workers, in_turn. generalize (map (fun i => worker_jobs i (UDIV_UP w 64) (UDIV_UP h 64)) [0; 1; 2; 3]).
  intros ws. change ws with ([] ++ ws) at 1. assert (F : Forall (fun w : list job => w = []) []) by constructor.
  revert F. generalize (@nil (list job)). induction ws as [|a ws IH]; intros pre F; cbn [concat].
  - rewrite app_nil_r. constructor. exact F.
  - induction a as [|j a IHa]; cbn [app].
    + replace (pre ++ [] :: ws) with ((pre ++ [[]]) ++ ws) by (rewrite <- app_assoc; reflexivity).
      apply IH. apply Forall_app. split; [exact F|]. constructor; [reflexivity|constructor].
    + constructor. exact IHa.
Qed.

(** A new encoder. *)
Definition fresh : tenc unit := mk_te 0 0 0 0 [] [tt; tt; tt; tt].

Lemma fresh_ok : well_formed fresh /\ streams_synced (fun _ _ : unit => True) fresh [tt; tt; tt; tt].
Proof. vm_compute. repeat constructor; congruence. Qed.

(** C71: which worker is ahead of which makes no difference to the client. *)
Theorem C71_workers_interleave_freely : forall zstate deflate tj have_jpeg te f xp yp w h damage s1 s2 r,
  @well_formed zstate te -> 0 <= w -> 0 <= h -> four_workers w h s1 -> four_workers w h s2 ->
  tight_encode deflate tj have_jpeg te f xp yp w h damage s1 = Ok r ->
  tight_encode deflate tj have_jpeg te f xp yp w h damage s2 = Ok r.
Proof.
  intros zstate deflate tj hj te f xp yp w h damage s1 s2 r W Hw Hh F1 F2 H.
  unfold tight_encode in *. cbv zeta in *.
  destruct (resize_wf zstate te w h W Hw Hh) as [W0 [Ew [Eh Ez]]].
  destruct (damage_applied zstate _ damage W0) as [te1 [E1 [W1 [Ew1 [Eh1 _]]]]].
  rewrite E1 in *. cbn [bind fst snd] in *. destruct (_ <=? 0); [discriminate|].
  destruct (work deflate tj hj f te1 s1) as [te2|] eqn:E2; cbn [bind] in H; [|discriminate].
  apply (order_irrelevant zstate deflate tj hj f te1 te2 w h s1 W1) in E2; [|congruence|congruence|exact F1].
  apply (order_irrelevant zstate deflate tj hj f te1 te2 w h s2 W1) in E2; [|congruence|congruence|exact F2].
  rewrite E2. cbn [bind]. exact H.
Qed.
Print Assumptions C71_workers_interleave_freely.

(** A client of 24-bit depth. *)
Definition grey (n : Z) : list Z := concat (map (fun i => px4 (i mod 80)) (zrange n)).
Definition frame_of (fb : list Z) (stride : Z) (dst : pixfmt) : tframe :=
  mk_tf fb stride (fourcc "XR24") xrgb8888 dst 10.

Example C71_ex : exists r s1 s2,
  s1 <> s2 /\ four_workers 130 1 s1 /\ four_workers 130 1 s2 /\
  tight_encode id_deflate no_tj true fresh (frame_of (grey 130) 130 rgb888) 0 0 130 1 [mk_box 0 0 70 1] s1 = Ok r.
Proof.
  eexists. exists (in_turn 130 1), [(2, 0); (0, 0); (1, 0)].
  split; [vm_compute; discriminate|]. split; [apply in_turn_ok|]. split.
  - unfold four_workers. vm_compute.
    apply (one_works [[(0, 0)]; [(1, 0)]] (2, 0) [] [[]]). apply (one_works [] (0, 0) [] [[(1, 0)]; []; []]).
    apply (one_works [[]] (1, 0) [] [[]; []]). constructor. repeat constructor.
  - vm_compute. reflexivity.
Qed.

(** C21 is false of framebuffers wider than 32704 pixels: the right edge of the
    last tile column is 32768, which a 16-bit box holds as -32768, and damage
    there is never sent. *)
Theorem C21_every_damaged_pixel_is_sent_refuted : exists f w h damage sched te' out n x y rs sts,
  four_workers w h sched /\ 0 < w <= 65535 /\ 0 < h <= 65535 /\
  tight_encode id_deflate no_tj true fresh f 0 0 w h damage sched = Ok (te', out, n) /\
  0 <= x < w /\ 0 <= y < h /\ damaged damage x y /\
  read_trects unit id_inflate (Z.to_nat (tpixel_size (tf_dst f))) (Z.to_nat n) [tt; tt; tt; tt] out = Some (rs, sts) /\
  times (coversb 0 0 x y) rs = 0%nat.
Proof.
  exists (frame_of (concat (repeat (px4 7) 64)) 32705 rgb888), 32705, 1, [mk_box 0 0 1 1; mk_box 32704 0 32705 1], (in_turn 32705 1).
  do 3 eexists. exists 32704, 0. do 2 eexists.
  split; [apply in_turn_ok|]. split; [lia|]. split; [lia|].
  split; [vm_compute; reflexivity|]. split; [lia|]. split; [lia|].
  split; [exists (mk_box 32704 0 32705 1); split; [right; left; reflexivity|cbn; lia]|].
  split; vm_compute; reflexivity.
Qed.
Print Assumptions C21_every_damaged_pixel_is_sent_refuted.

(** What holds, up to 32704 pixels: the client reads as many rectangles as it is
    told to the last byte, each lies inside the framebuffer, and each damaged
    pixel is in exactly one.  [tiles_long_enough] is the condition of C70; in
    JPEG mode there is none. *)
Theorem C21_every_damaged_pixel_is_sent_partial :
  forall zstate istate deflate inflate synced, zlib_works zstate istate deflate inflate synced ->
  forall tj have_jpeg te f xp yp w h damage sched te' out n sts,
  well_formed te -> 0 <= w <= 32704 -> 0 <= h <= 32704 ->
  0 <= xp -> xp + w <= 2 ^ 16 -> 0 <= yp -> yp + h <= 2 ^ 16 -> 0 <= bits_per_pixel (tf_src f) ->
  (basic_mode have_jpeg f = true -> tpixel_agrees (tf_dst f) /\ tiles_long_enough f w h) ->
  four_workers w h sched -> streams_synced synced te sts ->
  tight_encode deflate tj have_jpeg te f xp yp w h damage sched = Ok (te', out, n) ->
  exists rs sts', read_trects istate inflate (Z.to_nat (tpixel_size (tf_dst f))) (Z.to_nat n) sts out = Some (rs, sts') /\
    0 < n /\ n = Z.of_nat (length rs) /\ well_formed te' /\ streams_synced synced te' sts' /\
    Forall (fun r => xp <= t_x r /\ 0 < t_w r <= 64 /\ t_x r + t_w r <= xp + w /\
                     yp <= t_y r /\ 0 < t_h r <= 64 /\ t_y r + t_h r <= yp + h) rs /\
    forall x y, 0 <= x < w -> 0 <= y < h -> damaged damage x y -> times (coversb xp yp x y) rs = 1%nat.
Proof.
  intros zstate istate deflate inflate synced Z tj hj te f xp yp w h damage sched te' out n sts
    W Hw Hh X1 X2 Y1 Y2 B C F Sy H.
  destruct (tight_frame zstate deflate tj hj istate inflate synced Z te f xp yp w h damage sched te' out n sts
    W (proj1 Hw) (proj1 Hh) X1 X2 Y1 Y2 B C F Sy H) as [rs [sts' [R [N [W' [S' [P _]]]]]]].
  exists rs, sts'. split; [exact R|]. split; [exact N|]. split.
  - assert (L : forall size count sts l rs sts', read_trects istate inflate size count sts l = Some (rs, sts') -> length rs = count).
    { clear. intros size. induction count as [|count IH]; intros sts l rs sts' H; cbn [read_trects] in H.
      - destruct l; [injection H as <- _; reflexivity|discriminate].
      - destruct (read_trect _ _ _ _ _) as [[[r s] l']|]; [|discriminate].
        destruct (read_trects _ _ _ _ _ _) as [[rs1 s1]|] eqn:E; [|discriminate].
        injection H as <- _. cbn [length]. rewrite (IH _ _ _ _ E). reflexivity. }
    rewrite (L _ _ _ _ _ _ R). lia.
  - split; [exact W'|]. split; [exact S'|].
    split; [apply (rects_inside xp yp w h damage); [lia|lia|exact P]|].
    apply (rects_cover xp yp w h damage); assumption.
Qed.
Print Assumptions C21_every_damaged_pixel_is_sent_partial.

(** And no rectangle is sent for nothing: each has a damaged pixel. *)
Theorem C21_every_rectangle_is_damaged :
  forall zstate istate deflate inflate synced, zlib_works zstate istate deflate inflate synced ->
  forall tj have_jpeg te f xp yp w h damage sched te' out n sts,
  well_formed te -> 0 <= w <= 32704 -> 0 <= h <= 32704 ->
  0 <= xp -> xp + w <= 2 ^ 16 -> 0 <= yp -> yp + h <= 2 ^ 16 -> 0 <= bits_per_pixel (tf_src f) ->
  (basic_mode have_jpeg f = true -> tpixel_agrees (tf_dst f) /\ tiles_long_enough f w h) ->
  four_workers w h sched -> streams_synced synced te sts ->
  Forall (fun d => 0 <= x1 d /\ x1 d < x2 d /\ x2 d <= w /\ 0 <= y1 d /\ y1 d < y2 d /\ y2 d <= h) damage ->
  tight_encode deflate tj have_jpeg te f xp yp w h damage sched = Ok (te', out, n) ->
  exists rs sts', read_trects istate inflate (Z.to_nat (tpixel_size (tf_dst f))) (Z.to_nat n) sts out = Some (rs, sts') /\
    Forall (fun r => exists x y, damaged damage x y /\ coversb xp yp x y r = true) rs.
Proof.
  intros zstate istate deflate inflate synced Z tj hj te f xp yp w h damage sched te' out n sts
    W Hw Hh X1 X2 Y1 Y2 B C F Sy D H.
  destruct (tight_frame zstate deflate tj hj istate inflate synced Z te f xp yp w h damage sched te' out n sts
    W (proj1 Hw) (proj1 Hh) X1 X2 Y1 Y2 B C F Sy H) as [rs [sts' [R [N [W' [S' [P _]]]]]]].
  exists rs, sts'. split; [exact R|]. exact (rects_needed xp yp w h damage rs Hw Hh D P).
Qed.
Print Assumptions C21_every_rectangle_is_damaged.

Example C21_ex : exists te' out,
  tight_encode id_deflate no_tj true fresh (frame_of (grey 140) 140 rgb888) 5 6 140 1 [mk_box 60 0 70 1] (in_turn 140 1) =
    Ok (te', out, 2) /\
  tpixel_agrees rgb888 /\ tiles_long_enough (frame_of (grey 140) 140 rgb888) 140 1 /\ zlen out = 2 * (12 + 1 + 2 + 192).
Proof.
  do 2 eexists. split; [vm_compute; reflexivity|]. split; [left; reflexivity|]. split; [|vm_compute; reflexivity].
  intros gx gy X Y. assert (gy = 0) by lia. subst gy. assert (gx = 0 \/ gx = 1 \/ gx = 2) as [-> | [-> | ->]] by lia; cbn; lia.
Qed.

(** C70, what a client shows, without JPEG.  Two things break it.  A tile of fewer
    than 12 bytes is sent compressed behind a length, although the protocol has
    it sent as it is: *)
Theorem C70_basic_tight_reads_back_short_refuted : exists f w h te' out n,
  tpixel_agrees (tf_dst f) /\ raw_formats (tf_dst f) (tf_src f) /\ 0 < w /\ 0 < h /\
  tight_encode id_deflate no_tj false fresh f 0 0 w h [mk_box 0 0 w h] (in_turn w h) = Ok (te', out, n) /\
  read_trects unit id_inflate (Z.to_nat (tpixel_size (tf_dst f))) (Z.to_nat n) [tt; tt; tt; tt] out = None.
Proof.
  exists (frame_of (px4 7) 1 rgb888), 1, 1. do 3 eexists.
  split; [left; reflexivity|]. split; [vm_compute; repeat split; congruence|]. split; [lia|]. split; [lia|].
  split; vm_compute; reflexivity.
Qed.
Print Assumptions C70_basic_tight_reads_back_short_refuted.

(** and a client format of 32 bits per pixel and depth 16 gets two bytes per pixel
    where the protocol has four: *)
Theorem C70_basic_tight_reads_back_format_refuted : exists f w h te' out n,
  tiles_long_enough f w h /\ raw_formats (tf_dst f) (tf_src f) /\ 0 < w /\ 0 < h /\
  tight_encode id_deflate no_tj false fresh f 0 0 w h [mk_box 0 0 w h] (in_turn w h) = Ok (te', out, n) /\
  read_trects unit id_inflate (Z.to_nat (tpixel_size (tf_dst f))) (Z.to_nat n) [tt; tt; tt; tt] out = None.
Proof.
  exists (frame_of (grey 16) 4 (mk_fmt 32 16 0 1 31 63 31 11 5 0)), 4, 4. do 3 eexists.
  split; [|split; [vm_compute; repeat split; congruence|split; [lia|split; [lia|split; vm_compute; reflexivity]]]].
  intros gx gy X Y. assert (gx = 0) by lia. assert (gy = 0) by lia. subst. cbn. lia.
Qed.
Print Assumptions C70_basic_tight_reads_back_format_refuted.

(** What holds: with a client format whose pixel size is the protocol's and no
    tile below 12 bytes, the client reads rectangles that show the framebuffer,
    and stays in step with all four streams. *)
Theorem C70_basic_tight_reads_back_partial :
  forall zstate istate deflate inflate synced, zlib_works zstate istate deflate inflate synced ->
  forall tj have_jpeg te f xp yp w h damage sched te' out n sts,
  basic_mode have_jpeg f = true -> tpixel_agrees (tf_dst f) -> tiles_long_enough f w h ->
  well_formed te -> 0 <= w -> 0 <= h ->
  0 <= xp -> xp + w <= 2 ^ 16 -> 0 <= yp -> yp + h <= 2 ^ 16 -> 0 <= bits_per_pixel (tf_src f) ->
  four_workers w h sched -> streams_synced synced te sts ->
  tight_encode deflate tj have_jpeg te f xp yp w h damage sched = Ok (te', out, n) ->
  exists rs sts', read_trects istate inflate (Z.to_nat (tpixel_size (tf_dst f))) (Z.to_nat n) sts out = Some (rs, sts') /\
    well_formed te' /\ streams_synced synced te' sts' /\ Forall (trect_shows f xp yp) rs.
Proof.
  intros zstate istate deflate inflate synced Z tj hj te f xp yp w h damage sched te' out n sts
    B A T W Hw Hh X1 X2 Y1 Y2 Bs F Sy H.
  destruct (tight_frame zstate deflate tj hj istate inflate synced Z te f xp yp w h damage sched te' out n sts
    W Hw Hh X1 X2 Y1 Y2 Bs (fun _ => conj A T) F Sy H) as [rs [sts' [R [N [W' [S' [_ P]]]]]]].
  exists rs, sts'. split; [exact R|]. split; [exact W'|]. split; [exact S'|].
  unfold is_basic, basic_mode in *. rewrite B in P. exact P.
Qed.
Print Assumptions C70_basic_tight_reads_back_partial.

(** (zlib's hypotheses are those of [id_works], the rest those of C21_ex.) *)
Example C70_ex : exists te' out rs sts,
  tight_encode id_deflate no_tj true fresh (frame_of (grey 140) 140 rgb888) 5 6 140 1 [mk_box 130 0 131 1] (in_turn 140 1) =
    Ok (te', out, 1) /\
  read_trects unit id_inflate 3 1 [tt; tt; tt; tt] out = Some (rs, sts) /\
  rs = [mk_trect 133 6 12 1 (T_pixels (map (fun v => [v * 3; v * 2; v]) (map (fun i => i + 48) (zrange 12))))].
Proof. do 4 eexists. split; [vm_compute; reflexivity|]. split; vm_compute; reflexivity. Qed.

(** C72: in JPEG mode a rectangle's image is made from its pixels.  False of
    framebuffer formats without a turbojpeg name, such as those of 10 bits per
    channel, even when turbojpeg never fails: the rectangle has an image of no
    bytes. *)
Definition a_tj (fmt : string) (q w h : Z) (img : list Z) : option (list Z) := Some (255 :: img).

Theorem C72_jpeg_rectangles_show_framebuffer_refuted : exists f w h te' out n rs sts,
  (forall fmt q w h img, exists b l, a_tj fmt q w h img = Some (b :: l)) /\
  raw_formats (tf_dst f) (tf_src f) /\ pixfmt_from_fourcc (tf_fourcc f) = Some (tf_src f) /\
  0 < w /\ 0 < h /\ 0 <= tf_quality f <= 9 /\
  tight_encode id_deflate a_tj true fresh f 0 0 w h [mk_box 0 0 w h] (in_turn w h) = Ok (te', out, n) /\
  read_trects unit id_inflate (Z.to_nat (tpixel_size (tf_dst f))) (Z.to_nat n) [tt; tt; tt; tt] out = Some (rs, sts) /\
  exists r, In r rs /\ t_data r = T_jpeg [].
Proof.
  exists (mk_tf (grey 16) 4 (fourcc "XR30") (mk_fmt 32 30 0 1 1023 1023 1023 20 10 0) rgb888 5), 4, 4.
  do 5 eexists. split; [intros; do 2 eexists; reflexivity|].
  split; [vm_compute; repeat split; congruence|]. split; [vm_compute; reflexivity|].
  split; [lia|]. split; [lia|]. split; [cbn; lia|].
  split; [vm_compute; reflexivity|]. split; [vm_compute; reflexivity|].
  eexists. split; [left; reflexivity|reflexivity].
Qed.
Print Assumptions C72_jpeg_rectangles_show_framebuffer_refuted.

(** What holds: a rectangle's image is turbojpeg's output for exactly the
    rectangle's pixels, named with their colours in the right order, or empty for one of the three reasons of [jpeg_shows]. *)
Theorem C72_jpeg_rectangles_show_framebuffer_partial :
  forall zstate istate deflate inflate synced, zlib_works zstate istate deflate inflate synced ->
  forall tj have_jpeg te f xp yp w h damage sched te' out n sts,
  basic_mode have_jpeg f = false -> well_formed te -> 0 <= w -> 0 <= h ->
  0 <= xp -> xp + w <= 2 ^ 16 -> 0 <= yp -> yp + h <= 2 ^ 16 -> pixfmt_from_fourcc (tf_fourcc f) = Some (tf_src f) ->
  four_workers w h sched -> streams_synced synced te sts ->
  tight_encode deflate tj have_jpeg te f xp yp w h damage sched = Ok (te', out, n) ->
  exists rs sts', read_trects istate inflate (Z.to_nat (tpixel_size (tf_dst f))) (Z.to_nat n) sts out = Some (rs, sts') /\
    well_formed te' /\ streams_synced synced te' sts' /\ Forall (jpeg_shows tj f xp yp) rs.
Proof.
  intros zstate istate deflate inflate synced Z tj hj te f xp yp w h damage sched te' out n sts
    B W Hw Hh X1 X2 Y1 Y2 Fc F Sy H.
  assert (Bs : 0 <= bits_per_pixel (tf_src f)) by exact (source_bits _ _ Fc).
  assert (C : is_basic hj f = true -> tpixel_agrees (tf_dst f) /\ tiles_long_enough f w h)
    by (unfold is_basic, basic_mode in *; rewrite B; discriminate).
  destruct (tight_frame zstate deflate tj hj istate inflate synced Z te f xp yp w h damage sched te' out n sts
    W Hw Hh X1 X2 Y1 Y2 Bs C F Sy H) as [rs [sts' [R [N [W' [S' [_ P]]]]]]].
  exists rs, sts'. split; [exact R|]. split; [exact W'|]. split; [exact S'|].
  unfold is_basic, basic_mode in *. rewrite B in P.
  refine (Forall_impl _ _ P). intros r. exact (made_shows tj f xp yp r Fc).
Qed.
Print Assumptions C72_jpeg_rectangles_show_framebuffer_partial.

Example C72_ex : exists te' out rs sts, let f := mk_tf (grey 140) 70 (fourcc "XR24") xrgb8888 rgb888 5 in
  tight_encode id_deflate a_tj true fresh f 0 0 70 2 [mk_box 69 0 70 1] (in_turn 70 2) = Ok (te', out, 1) /\
  read_trects unit id_inflate 3 1 [tt; tt; tt; tt] out = Some (rs, sts) /\
  rs = [mk_trect 64 0 6 2 (T_jpeg (255 :: firstn 24 (skipn 256 (grey 140)) ++ firstn 24 (skipn 536 (grey 140))))].
Proof. do 4 eexists. cbv zeta. split; [vm_compute; reflexivity|]. split; vm_compute; reflexivity. Qed.

(** C69: no write outside the output buffer of four bytes per pixel.  False: the
    vector grows for the parts that are copied in, but the length bytes go in
    unchecked (an assertion, compiled out in release builds).  A client of 4-byte
    pixels and a compressor that adds ten bytes to a tile (what stored blocks and
    a flush cost) are enough. *)
Theorem C69_tight_output_stays_in_bounds_refuted : exists f w h damage sched,
  zlib_works unit unit pad_deflate pad_inflate (fun _ _ => True) /\
  (forall zs pieces, zlen (snd (deflate_all unit pad_deflate zs pieces)) <= zlen (concat pieces) + 10) /\
  raw_formats (tf_dst f) (tf_src f) /\ tpixel_agrees (tf_dst f) /\ tiles_long_enough f w h /\
  w <= tf_stride f /\ zlen (tf_fb f) = h * tf_stride f * (bits_per_pixel (tf_src f) / 8) /\
  four_workers w h sched /\ damage = [mk_box 0 0 w h] /\
  tight_encode pad_deflate no_tj false fresh f 0 0 w h damage sched = Fault AssertFail.
Proof.
  exists (frame_of (concat (repeat (px4 7) 425)) 425 (mk_fmt 32 32 0 1 255 255 255 16 8 0)), 425, 1, [mk_box 0 0 425 1], (in_turn 425 1).
  split; [exact pad_works|]. split.
  { intros zs [|p pieces]; [cbn; lia|]. rewrite pad_all by discriminate. cbn [snd]. rewrite zlen_app. cbn; lia. }
  split; [vm_compute; repeat split; congruence|]. split; [right; right; right; vm_compute; repeat split; congruence|].
  split.
  { intros gx gy X Y. assert (gy = 0) by lia. subst gy. unfold tile_dim.
    change (tpixel_size _) with 4. lia. }
  split; [cbn; lia|]. split; [vm_compute; reflexivity|]. split; [apply in_turn_ok|]. split; [reflexivity|].
  vm_compute. reflexivity.
Qed.
Print Assumptions C69_tight_output_stays_in_bounds_refuted.

(** What holds: if compression adds at most [e] bytes to a tile and the buffer has
    room for 16 + e bytes per tile besides the pixels, nothing goes wrong. *)
Theorem C69_tight_output_stays_in_bounds_partial :
  forall zstate deflate tj have_jpeg e, 0 <= e <= 16000 ->
  (forall zs pieces, zlen (snd (deflate_all zstate deflate zs pieces)) <= zlen (concat pieces) + e) ->
  forall te f xp yp w h damage sched, well_formed te -> 0 <= w -> 0 <= h ->
  basic_mode have_jpeg f = true -> raw_formats (tf_dst f) (tf_src f) -> tpixel_agrees (tf_dst f) ->
  w <= tf_stride f -> h * tf_stride f * (bits_per_pixel (tf_src f) / 8) <= zlen (tf_fb f) ->
  four_workers w h sched -> w * h * 4 < 2 ^ 32 ->
  (16 + e) * (UDIV_UP w 64 * UDIV_UP h 64) + tpixel_size (tf_dst f) * (w * h) <= 4 * (w * h) ->
  (exists x y, damaged damage x y /\ 0 <= x < w /\ 0 <= y < h) -> w <= 32704 -> h <= 32704 ->
  exists te' out n, tight_encode deflate tj have_jpeg te f xp yp w h damage sched = Ok (te', out, n).
Proof.
  intros zstate deflate tj hj e E D te f xp yp w h damage sched W Hw Hh B R A S1 S2 F Q Fit [x [y [Dm [X Y]]]] Lw Lh.
  destruct (tight_total zstate deflate tj hj e E D te f xp yp w h damage sched W Hw Hh B R A S1 S2 F Q Fit) as [[[te' out] n] H].
  - apply existsb_exists. exists (x / 64, y / 64). split; [|apply (overlap_pixel damage w h); assumption].
    apply grid_jobs_in. cbn [fst snd].
    pose proof (udiv_up w ltac:(lia)) as [U1 _]. pose proof (udiv_up h ltac:(lia)) as [U2 _].
    repeat split; try (apply Z.div_pos; lia); apply Z.div_lt_upper_bound; lia.
  - exists te', out, n. exact H.
Qed.
Print Assumptions C69_tight_output_stays_in_bounds_partial.

(** A 64x2 screen with a 24-bit client and the compressor that adds ten bytes. *)
Example C69_ex :
  (16 + 10) * (UDIV_UP 64 64 * UDIV_UP 2 64) + tpixel_size rgb888 * (64 * 2) <= 4 * (64 * 2) /\
  raw_formats rgb888 xrgb8888 /\ exists te' out,
  tight_encode pad_deflate no_tj false fresh (frame_of (grey 128) 64 rgb888) 0 0 64 2 [mk_box 1 1 2 2] (in_turn 64 2)
    = Ok (te', out, 1) /\ zlen out = 12 + 1 + 2 + 384 + 10.
Proof.
  split; [vm_compute; congruence|]. split; [vm_compute; repeat split; congruence|].
  do 2 eexists. split; vm_compute; reflexivity.
Qed.
