(** ZRLE as a client reads it, from RFC 6143 section 7.7.6.  Independent of the
    encoder.  Sub-encodings 2..127 (packed palette) and 128 (plain RLE) are
    left out: the reader below rejects them, so whatever it accepts is read as
    the RFC says. *)
From Verif Require Import Common Pixels_Model Pixels_Proofs Zrle_Model.

Definition cpixel : Type := list Z.

(** [take n l]: the first n bytes and the rest. *)
Definition take (n : nat) (l : list Z) : option (list Z * list Z) :=
  if (n <=? length l)%nat then Some (firstn n l, skipn n l) else None.

(** [count] pixels of [size] bytes each. *)
Fixpoint read_cpixels (size count : nat) (l : list Z) : option (list cpixel * list Z) :=
  match count with
  | O => Some ([], l)
  | S count =>
      match take size l with
      | Some (p, l) =>
          match read_cpixels size count l with
          | Some (ps, l) => Some (p :: ps, l)
          | None => None
          end
      | None => None
      end
  end.

(** Run length: one more than the sum of the bytes up to and including the first
    that is not 255. *)
Fixpoint read_run (l : list Z) : option (Z * list Z) :=
  match l with
  | [] => None
  | b :: l =>
      if b =? 255 then
        match read_run l with Some (n, l) => Some (255 + n, l) | None => None end
      else Some (b + 1, l)
  end.

(** Palette RLE: until [todo] pixels are there. *)
Fixpoint read_runs (fuel : nat) (palette : list cpixel) (todo : Z) (l : list Z)
  : option (list cpixel * list Z) :=
  if todo =? 0 then Some ([], l)
  else
    match fuel, l with
    | S fuel, b :: l =>
        let run :=
          if b <? 128 then Some (b, 1, l)
          else match read_run l with Some (n, l) => Some (b - 128, n, l) | None => None end in
        match run with
        | None => None
        | Some (index, n, l) =>
            if n >? todo then None
            else
              match nth_error palette (Z.to_nat index) with
              | None => None
              | Some c =>
                  match read_runs fuel palette (todo - n) l with
                  | Some (ps, l) => Some (repeat c (Z.to_nat n) ++ ps, l)
                  | None => None
                  end
              end
        end
    | _, _ => None
    end.

(** One tile of [count] pixels with CPIXELs of [size] bytes. *)
Definition read_tile (size count : nat) (l : list Z) : option (list cpixel * list Z) :=
  match l with
  | [] => None
  | sub :: l =>
      if sub =? 0 then read_cpixels size count l
      else if sub =? 1 then
        match take size l with
        | Some (c, l) => Some (repeat c count, l)
        | None => None
        end
      else if sub >=? 130 then
        match read_cpixels size (Z.to_nat (sub - 128)) l with
        | Some (palette, l) => read_runs count palette (Z.of_nat count) l
        | None => None
        end
      else None
  end.

(** The tiles of a rectangle in the order of the RFC: rows of tiles from the
    top, each from the left, 64x64 except at the right and bottom edges. *)
Fixpoint cuts (fuel : nat) (from to : Z) : list (Z * Z) :=
  if to <=? from then []
  else match fuel with
       | O => []
       | S fuel => (from, Z.min 64 (to - from)) :: cuts fuel (from + 64) to
       end.

Definition rfc_tiles (w h : Z) : list (Z * Z * Z * Z) :=
  flat_map (fun r : Z * Z => map (fun c : Z * Z => (fst c, fst r, snd c, snd r))
                               (cuts (Z.to_nat w) 0 w))
           (cuts (Z.to_nat h) 0 h).

(** A whole rectangle (RFC 6143 7.6.1 and 7.7.6): header, length, zlib data.
    [inflate st data] is the client's decompressor. *)
Record zrect := mk_zrect {
  r_x : Z; r_y : Z; r_w : Z; r_h : Z;
  r_tiles : list ((Z * Z * Z * Z) * list cpixel) }.

Fixpoint read_tiles (size : nat) (ts : list (Z * Z * Z * Z)) (l : list Z)
  : option (list ((Z * Z * Z * Z) * list cpixel) * list Z) :=
  match ts with
  | [] => Some ([], l)
  | (x, y, w, h) :: ts =>
      match read_tile size (Z.to_nat (w * h)) l with
      | Some (px, l) =>
          match read_tiles size ts l with
          | Some (rs, l) => Some (((x, y, w, h), px) :: rs, l)
          | None => None
          end
      | None => None
      end
  end.

Definition u16 (l : list Z) : Z := unbe (firstn 2 l).

Section Client.
Variable istate : Type.
Variable inflate : istate -> list Z -> istate * list Z.

Definition read_rect (size : nat) (st : istate) (l : list Z) : option (zrect * istate * list Z) :=
  match take 16 l with
  | None => None
  | Some (head, l) =>
      let x := u16 head in let y := u16 (skipn 2 head) in
      let w := u16 (skipn 4 head) in let h := u16 (skipn 6 head) in
      if unbe (firstn 4 (skipn 8 head)) =? 16 then
        match take (Z.to_nat (unbe (skipn 12 head))) l with
        | None => None
        | Some (data, l) =>
            let (st, plain) := inflate st data in
            match read_tiles size (rfc_tiles w h) plain with
            | Some (rs, []) => Some (mk_zrect x y w h rs, st, l)
            | _ => None
            end
        end
      else None
  end.

(** [count] rectangles, and nothing after them. *)
Fixpoint read_rects (size count : nat) (st : istate) (l : list Z) : option (list zrect * istate) :=
  match count with
  | O => match l with [] => Some ([], st) | _ => None end
  | S count =>
      match read_rect size st l with
      | Some (r, st, l) =>
          match read_rects size count st l with
          | Some (rs, st) => Some (r :: rs, st)
          | None => None
          end
      | None => None
      end
  end.
End Client.

(** What the client shows at (x, y) of a rectangle. *)
Definition in_tile (t : Z * Z * Z * Z) (x y : Z) : bool :=
  match t with
  | (tx, ty, tw, th) => (tx <=? x) && (x <? tx + tw) && (ty <=? y) && (y <? ty + th)
  end.

Definition shown (r : zrect) (x y : Z) : option cpixel :=
  match find (fun t => in_tile (fst t) x y) (r_tiles r) with
  | Some ((tx, ty, tw, th), px) => nth_error px (Z.to_nat ((y - ty) * tw + (x - tx)))
  | None => None
  end.

(** [n] is the number of elements of [l] that satisfy [f]. *)
Definition times {A} (f : A -> bool) (l : list A) : nat := length (filter f l).

(** What is asked of zlib: the pieces given to deflate one after the other, the
    last with a sync flush, come out of inflate in one go, and both ends can
    carry on. *)
Section Zlib.
Variable zstate istate : Type.
Variable deflate : zstate -> list Z -> bool -> zstate * list Z.
Variable inflate : istate -> list Z -> istate * list Z.
Variable synced : zstate -> istate -> Prop.

Fixpoint deflate_all (zs : zstate) (pieces : list (list Z)) : zstate * list Z :=
  match pieces with
  | [] => (zs, [])
  | p :: pieces =>
      let (zs, out) := deflate zs p (match pieces with [] => true | _ => false end) in
      let (zs, rest) := deflate_all zs pieces in
      (zs, out ++ rest)
  end.

Definition zlib_works : Prop := forall zs st pieces, synced zs st -> pieces <> [] ->
  exists st', inflate st (snd (deflate_all zs pieces)) = (st', concat pieces) /\
    synced (fst (deflate_all zs pieces)) st'.
End Zlib.

(** Formats that pixel conversion takes: shifts below 32 and what it asserts. *)
Definition zrle_formats (dst src : pixfmt) : Prop :=
  shifts_ok src /\ shifts_ok dst /\ asserts (calc_bytes_per_cpixel dst) dst src = true /\
  1 <= bits_per_pixel src / 8 <= 4.

(** A rectangle inside a framebuffer of this stride (in pixels) and height. *)
Definition box_in (b : box) (stride height : Z) : Prop :=
  0 <= x1 b /\ x1 b < x2 b /\ x2 b <= stride /\ 0 <= y1 b /\ y1 b < y2 b /\ y2 b <= height.

(** The rectangle can be written in a rectangle header. *)
Definition fits_header (xp yp : Z) (b : box) : Prop :=
  0 <= xp + x1 b < 2 ^ 16 /\ 0 <= yp + y1 b < 2 ^ 16 /\ 0 < x2 b - x1 b < 2 ^ 16 /\ 0 < y2 b - y1 b < 2 ^ 16.

(** The client has the rectangle [r] for the damaged box [b], and at each of its
    pixels the CPIXEL of the framebuffer's pixel there. *)
Definition shows (fb : list Z) (stride xp yp : Z) (dst src : pixfmt) (b : box) (r : zrect) : Prop :=
  r_x r = xp + x1 b /\ r_y r = yp + y1 b /\ r_w r = x2 b - x1 b /\ r_h r = y2 b - y1 b /\
  forall i j, 0 <= i < r_w r -> 0 <= j < r_h r ->
  exists p c, get fb (((y1 b + j) * stride + (x1 b + i)) * (bits_per_pixel src / 8)) (bits_per_pixel src / 8) = Ok p /\
    pixel_to_cpixel (calc_bytes_per_cpixel dst) dst src p 0 1 = Ok c /\ shown r i j = Some c.
