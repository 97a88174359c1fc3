(** What a client has to see of turned buffers. *)
From Verif Require Import Common Zrle_Model Raw_Model Transform_Model Transform_Spec Refinery_Model Refinery_Spec Cursor_Model Turn_Model.

(** The size of the frame seen. *)
Definition size (f : frame) : Z * Z :=
  match fr_turn f with
  | R90 | R270 | Flipped_90 | Flipped_270 => (pic_h (pic f), pic_w (pic f))
  | _ => (pic_w (pic f), pic_h (pic f))
  end.
Definition inside (f : frame) (x y : Z) : Prop := 0 <= x < fst (size f) /\ 0 <= y < snd (size f).

(** Where in the buffer the pixel seen at (x, y) is: the buffer is turned clockwise by the
    angle, "flipped" mirrors left and right before that. *)
Definition source (f : frame) (x y : Z) : Z * Z :=
  let w := pic_w (pic f) in
  let h := pic_h (pic f) in
  match fr_turn f with
  | Normal => (x, y) | R90 => (y, h - 1 - x) | R180 => (w - 1 - x, h - 1 - y) | R270 => (w - 1 - y, x)
  | Flipped => (w - 1 - x, y) | Flipped_90 => (y, x) | Flipped_180 => (x, h - 1 - y)
  | Flipped_270 => (w - 1 - y, h - 1 - x)
  end.

(** The pixel of a buffer: format and bytes. *)
Definition stored (p : picture) (x y : Z) : list Z :=
  firstn (Z.to_nat (pic_bpp p)) (skipn (Z.to_nat ((y * pic_stride p + x) * pic_bpp p)) (pic_mem p)).
Definition pixel (f : frame) (x y : Z) : Z * list Z :=
  let (sx, sy) := source f x y in (fr_format f, stored (pic f) sx sy).

(** The application says what changed: what is not in the damage, which is in the
    coordinates of the buffer, looks as it did. *)
Definition honest (before : list frame) (f : frame) : Prop :=
  forall x y, inside f x y ->
    (let (sx, sy) := source f x y in in_region (f_damage (fr_fed f)) sx sy) \/
    match before with
    | old :: _ => size old = size f /\ pixel old x y = pixel f x y
    | [] => False
    end.

(** Buffers that can be used: memory for all pixels, damage inside, and, if turned, in a
    format pixman knows. *)
Definition usable (f : frame) : Prop :=
  proper (fr_fed f) /\ 0 < pic_bpp (pic f) /\ (fr_turn f = Normal \/ pixman_format (fr_format f) = Ok true).

(** Turned and of the same format as the frame before if of the same size. *)
Definition steady (before : list frame) (f : frame) : Prop :=
  match before with
  | old :: _ => pic_w (pic old) = pic_w (pic f) -> pic_h (pic old) = pic_h (pic f) ->
                fr_turn old = fr_turn f /\ fr_format old = fr_format f /\ pic_bpp (pic old) = pic_bpp (pic f)
  | [] => True
  end.

(** Of all frames. *)
Fixpoint every (P : list frame -> frame -> Prop) (l : list frame) : Prop :=
  match l with [] => True | f :: before => P before f /\ every P before end.

(** The hash tells the tiles of these frames apart, and is not 0. *)
Definition tells_apart (xxh : list Z -> Z) (l : list frame) : Prop :=
  forall f g tx ty, In f l -> In g l -> 0 <= 32 * tx < pic_w (pic f) -> 0 <= 32 * ty < pic_h (pic f) ->
    xxh (tile_bytes (pic f) tx ty) mod 2 ^ 32 <> 0 /\
    (xxh (tile_bytes (pic f) tx ty) mod 2 ^ 32 = xxh (tile_bytes (pic g) tx ty) mod 2 ^ 32 ->
     tile_bytes (pic f) tx ty = tile_bytes (pic g) tx ty).
