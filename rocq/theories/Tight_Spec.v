(** The Tight encoding as a client reads it (the community RFB protocol
    description, section "Tight Encoding"), as far as a server without filters,
    fills and stream resets goes. *)
From Verif Require Import Common Pixels_Model Zrle_Model Zrle_Spec Tight_Model.

(** Compact length: seven bits, seven bits, eight bits, low bits first; the top
    bit of the first and second byte says that another follows. *)
Definition read_len (l : list Z) : option (Z * list Z) :=
  match l with
  | a :: l =>
      if a <? 128 then Some (a, l)
      else match l with
           | b :: l =>
               if b <? 128 then Some (a - 128 + 128 * b, l)
               else match l with
                    | c :: l => Some (a - 128 + 128 * (b - 128) + 16384 * c, l)
                    | [] => None
                    end
           | [] => None
           end
  | [] => None
  end.

(** TPIXEL: "if true-colour-flag is non-zero, bits-per-pixel is 32, depth is 24
    and all of the bits making up the red, green and blue intensities are exactly
    8 bits wide" a pixel is three bytes red, green, blue.  Else it is a PIXEL in
    the client's format. *)
Definition is_tpixel3 (f : pixfmt) : bool :=
  negb (true_colour_flag f =? 0) && (bits_per_pixel f =? 32) && (depth f =? 24) &&
  (red_max f =? 255) && (green_max f =? 255) && (blue_max f =? 255).

Definition tpixel_size (f : pixfmt) : Z := if is_tpixel3 f then 3 else bits_per_pixel f / 8.

(** Three bytes red, green, blue are what a little-endian format with red lowest
    stores first. *)
Definition rgb_bytes : pixfmt := mk_fmt 32 24 0 1 255 255 255 0 8 16.

(** The bytes a client of format [dst] takes for the server's pixel [p]. *)
Definition tpixel (dst src : pixfmt) (p : list Z) : res (list Z) :=
  pixel_to_cpixel (tpixel_size dst) (if is_tpixel3 dst then rgb_bytes else dst) src p 0 1.

Inductive tdata_rect := T_pixels (px : list (list Z)) | T_jpeg (image : list Z).

Record trect := mk_trect { t_x : Z; t_y : Z; t_w : Z; t_h : Z; t_data : tdata_rect }.

Section Client.
Variable istate : Type.
Variable inflate : istate -> list Z -> istate * list Z.

(** Basic compression with stream [n] and no filter: data shorter than 12 bytes
    comes as it is, other data compressed behind its compact length. *)
Definition read_basic (size : nat) (n : nat) (w h : Z) (sts : list istate) (l : list Z)
  : option (list (list Z) * list istate * list Z) :=
  let count := Z.to_nat (w * h) in
  if (count * size <? 12)%nat then
    match read_cpixels size count l with
    | Some (px, l) => Some (px, sts, l)
    | None => None
    end
  else
    match read_len l, nth_error sts n with
    | Some (len, l), Some st =>
        match take (Z.to_nat len) l with
        | Some (data, l) =>
            let (st, plain) := inflate st data in
            match read_cpixels size count plain with
            | Some (px, []) => Some (px, set_nth sts n st, l)
            | _ => None
            end
        | None => None
        end
    | _, _ => None
    end.

(** Header, then the compression control byte. *)
Definition read_trect (size : nat) (sts : list istate) (l : list Z) : option (trect * list istate * list Z) :=
  match take 12 l with
  | None => None
  | Some (head, l) =>
      let x := u16 head in let y := u16 (skipn 2 head) in
      let w := u16 (skipn 4 head) in let h := u16 (skipn 6 head) in
      if unbe (skipn 8 head) =? 7 then
        match l with
        | c :: l =>
            if c =? 144 then
              match read_len l with
              | Some (len, l) =>
                  match take (Z.to_nat len) l with
                  | Some (image, l) => Some (mk_trect x y w h (T_jpeg image), sts, l)
                  | None => None
                  end
              | None => None
              end
            else if existsb (Z.eqb c) [0; 16; 32; 48] then
              match read_basic size (Z.to_nat (c / 16)) w h sts l with
              | Some (px, sts, l) => Some (mk_trect x y w h (T_pixels px), sts, l)
              | None => None
              end
            else None
        | [] => None
        end
      else None
  end.

(** [count] rectangles, and nothing after them. *)
Fixpoint read_trects (size count : nat) (sts : list istate) (l : list Z) : option (list trect * list istate) :=
  match count with
  | O => match l with [] => Some ([], sts) | _ => None end
  | S count =>
      match read_trect size sts l with
      | Some (r, sts, l) =>
          match read_trects size count sts l with
          | Some (rs, sts) => Some (r :: rs, sts)
          | None => None
          end
      | None => None
      end
  end.
End Client.

(** An order in which the tiles may be worked on: each worker goes through its
    list, the workers interleaved in any way. *)
Inductive interleaved : list (list job) -> list job -> Prop :=
| all_done : forall ws, Forall (fun w => w = []) ws -> interleaved ws []
| one_works : forall before j w after s, interleaved (before ++ w :: after) s ->
    interleaved (before ++ (j :: w) :: after) (j :: s).

Definition four_workers (w h : Z) (sched : list job) : Prop :=
  interleaved (map (fun i => worker_jobs i (UDIV_UP w 64) (UDIV_UP h 64)) [0; 1; 2; 3]) sched.

(** Pixel (x, y) is in a damaged box. *)
Definition damaged (damage : list box) (x y : Z) : Prop :=
  exists d, In d damage /\ x1 d <= x < x2 d /\ y1 d <= y < y2 d.

(** Pixel (x, y) of the framebuffer is in rectangle [r]. *)
Definition covers (x_pos y_pos : Z) (r : trect) (x y : Z) : Prop :=
  t_x r <= x_pos + x < t_x r + t_w r /\ t_y r <= y_pos + y < t_y r + t_h r.

(** The same as a test, to count rectangles with. *)
Definition coversb (xp yp x y : Z) (r : trect) : bool :=
  (t_x r <=? xp + x) && (xp + x <? t_x r + t_w r) && (t_y r <=? yp + y) && (yp + y <? t_y r + t_h r).

(** The rectangle shows the framebuffer at each of its pixels. *)
Definition trect_shows (f : tframe) (x_pos y_pos : Z) (r : trect) : Prop :=
  exists px, t_data r = T_pixels px /\ Z.of_nat (length px) = t_w r * t_h r /\
  forall i j, 0 <= i < t_w r -> 0 <= j < t_h r ->
  exists p c, get (tf_fb f) (((t_y r - y_pos + j) * tf_stride f + (t_x r - x_pos + i)) * (bits_per_pixel (tf_src f) / 8))
                (bits_per_pixel (tf_src f) / 8) = Ok p /\
    tpixel (tf_dst f) (tf_src f) p = Ok c /\
    nth_error px (Z.to_nat (j * t_w r + i)) = Some c.

(** The name of a pixel order in turbojpeg has a letter for each byte of a pixel, in their
    order in memory.  It names the colours of [src] if at the place of the letter is the
    byte with that colour. *)
Definition names_colours (name : string) (src : pixfmt) : Prop :=
  bits_per_pixel src = 8 * Z.of_nat (String.length name) /\
  forall px, all_bytes px -> length px = String.length name ->
  forall letter shift max,
    In (letter, shift, max)
      [("R"%char, red_shift src, red_max src); ("G"%char, green_shift src, green_max src); ("B"%char, blue_shift src, blue_max src)] ->
    exists i, String.get i name = Some letter /\ nth_error px i = Some (Z.land (Z.shiftr (unle px) shift) max).

(** Formats with eight bits per colour, low byte first. *)
Definition bytes_of_colour (src : pixfmt) : Prop :=
  red_max src = 255 /\ green_max src = 255 /\ blue_max src = 255 /\ big_endian_flag src = 0.

(** A JPEG rectangle whose image is what turbojpeg made of an image with exactly
    the rectangle's framebuffer pixels, under the name of their order of colours, or is
    empty: because the framebuffer's format is not one of eight bits per colour, because
    turbojpeg failed, or because it made more than 32768 bytes. *)
Definition jpeg_shows (tj : string -> Z -> Z -> Z -> list Z -> option (list Z)) (f : tframe) (xp yp : Z) (r : trect) : Prop :=
  exists image, t_data r = T_jpeg image /\
  ((image = [] /\ ~ bytes_of_colour (tf_src f)) \/
   exists name img, names_colours name (tf_src f) /\
      (forall i j, 0 <= i < t_w r -> 0 <= j < t_h r ->
        get img ((j * t_w r + i) * (bits_per_pixel (tf_src f) / 8)) (bits_per_pixel (tf_src f) / 8) =
        get (tf_fb f) (((t_y r - yp + j) * tf_stride f + (t_x r - xp + i)) * (bits_per_pixel (tf_src f) / 8))
          (bits_per_pixel (tf_src f) / 8)) /\
      match tj name (11 * tf_quality f + 1) (t_w r) (t_h r) img with
      | None => image = []
      | Some out => image = if 32768 <? zlen out then [] else out
      end).

(** Width or height of the tiles in column or row [g] of a framebuffer of width or
    height [total]. *)
Definition tile_dim (total g : Z) : Z := Z.min 64 (total - 64 * g).

(** An encoder for framebuffers of the size it was last used with. *)
Definition well_formed {zstate} (te : tenc zstate) : Prop :=
  te_gw te = UDIV_UP (te_w te) 64 /\ te_gh te = UDIV_UP (te_h te) 64 /\
  Z.of_nat (length (te_grid te)) = te_gw te * te_gh te /\ length (te_zs te) = 4%nat /\
  0 <= te_w te /\ 0 <= te_h te.

(** Each of the four compressed streams at the point where the client's is. *)
Definition streams_synced {zstate istate} (synced : zstate -> istate -> Prop)
  (te : tenc zstate) (sts : list istate) : Prop := Forall2 synced (te_zs te) sts.

(** The client formats for which the server's pixel size is that of the protocol. *)
Definition tpixel_agrees (dst : pixfmt) : Prop :=
  is_tpixel3 dst = true \/ bits_per_pixel dst = 8 \/ bits_per_pixel dst = 16 \/
  (bits_per_pixel dst = 32 /\ 25 <= depth dst <= 32).

(** No tile is sent in fewer than 12 bytes (such data goes uncompressed). *)
Definition tiles_long_enough (f : tframe) (w h : Z) : Prop :=
  forall gx gy, 0 <= 64 * gx < w -> 0 <= 64 * gy < h ->
    12 <= tile_dim w gx * tile_dim h gy * tpixel_size (tf_dst f).

(** Not in JPEG mode. *)
Definition basic_mode (have_jpeg : bool) (f : tframe) : bool := negb have_jpeg || (tf_quality f >=? 10).
