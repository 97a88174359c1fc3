(** The layout that a client asks for, as an object in memory: check_desktop_layout builds
    it, the application reads it with the nvnc_desktop_layout functions.
    src/server.c:1592-1634, src/desktop-layout.c, include/desktop-layout.h:24-35.
    The display of the server is its address, None for NULL. *)
From Coq Require Import ZArith List Lia Bool.
From Verif Require Import Common.
Import ListNotations.
Open Scope Z_scope.

(* include/desktop-layout.h:24-29, struct nvnc_display_layout *)
Record cell : Type := mk_cell { c_display : option Z; c_id : Z; c_x : Z; c_y : Z; c_w : Z; c_h : Z }.

(* include/desktop-layout.h:31-35, struct nvnc_desktop_layout; an entry of the array is None
   until it is written *)
Record desk : Type := mk_desk { d_w : Z; d_h : Z; d_n : Z; d_cells : list (option cell) }.

(* ntohs and ntohl at src/desktop-layout.c:27-31: [n] bytes at [off] *)
Definition net (m : list Z) (off n : Z) : res Z := let* l := get m off n in Ok (unbe l).

(* src/desktop-layout.c:23-32, nvnc_display_layout_init, of the screen at [off];
   include/rfb-proto.h:161-336, struct rfb_screen *)
Definition display_layout_init (m : list Z) (off : Z) : res cell :=
  let* id := net m off 4 in
  let* x := net m (off + 4) 2 in
  let* y := net m (off + 6) 2 in
  let* w := net m (off + 8) 2 in
  let* h := net m (off + 10) 2 in
  Ok (mk_cell None id x y w h).

(* display_layouts[i] = v, src/server.c:1613-1619 *)
Fixpoint set_cell (l : list (option cell)) (i : nat) (v : cell) : res (list (option cell)) :=
  match l, i with
  | [], _ => Fault OobWrite
  | _ :: l, O => Ok (Some v :: l)
  | x :: l, S i => let* l := set_cell l i v in Ok (x :: l)
  end.

(* src/server.c:1609-1626: the loop from entry [i] on, with [todo] entries to go; None when
   a screen sticks out *)
Fixpoint fill (display : option Z) (w h : Z) (m : list Z) (todo i : nat) (l : list (option cell)) : res (option (list (option cell))) :=
  match todo with
  | O => Ok (Some l)
  | S todo =>
      let off := 16 * Z.of_nat i in
      let* c := display_layout_init m off in
      let* id := get m off 4 in
      let c := if unle id =? 0 then mk_cell display (c_id c) (c_x c) (c_y c) (c_w c) (c_h c) else c in
      let* l := set_cell l i c in
      if (c_x c + c_w c >? w) || (c_y c + c_h c >? h) then Ok None
      else fill display w h m todo (S i) l
  end.

(* src/server.c:1592-1634, check_desktop_layout: the status, and the layout the application
   was given, if it was; malloc gives what is asked for *)
Definition check_desktop_layout (display : option Z) (fn : option (desk -> bool)) (w h n : Z) (m : list Z)
  : res (Z * option desk) :=
  let* l := fill display w h m (Z.to_nat n) 0 (repeat None (Z.to_nat n)) in
  match l with
  | None => Ok (3, None)
  | Some l =>
      let d := mk_desk w h n l in
      match fn with
      | None => Ok (1, None)
      | Some fn => Ok (if fn d then 4 else 1, Some d)
      end
  end.

(* layout->display_layouts[display_index], src/desktop-layout.c:59, 68, 77, 86, 95 *)
Definition at_index (d : desk) (i : Z) : res cell :=
  match nth_error (d_cells d) (Z.to_nat i) with
  | None => Fault OobRead
  | Some None => Fault Uninit
  | Some (Some c) => Ok c
  end.

(* src/desktop-layout.c:34-38 *)
Definition get_width (d : desk) : Z := d_w d.
(* src/desktop-layout.c:40-44 *)
Definition get_height (d : desk) : Z := d_h d.
(* src/desktop-layout.c:46-51 *)
Definition get_display_count (d : desk) : Z := d_n d.
(* src/desktop-layout.c:53-60 *)
Definition get_display_x_pos (d : desk) (i : Z) : res Z :=
  if i >=? d_n d then Ok 0 else let* c := at_index d i in Ok (c_x c).
(* src/desktop-layout.c:62-69 *)
Definition get_display_y_pos (d : desk) (i : Z) : res Z :=
  if i >=? d_n d then Ok 0 else let* c := at_index d i in Ok (c_y c).
(* src/desktop-layout.c:71-78 *)
Definition get_display_width (d : desk) (i : Z) : res Z :=
  if i >=? d_n d then Ok 0 else let* c := at_index d i in Ok (c_w c).
(* src/desktop-layout.c:80-87 *)
Definition get_display_height (d : desk) (i : Z) : res Z :=
  if i >=? d_n d then Ok 0 else let* c := at_index d i in Ok (c_h c).
(* src/desktop-layout.c:89-96 *)
Definition get_display (d : desk) (i : Z) : res (option Z) :=
  if i >=? d_n d then Ok None else let* c := at_index d i in Ok (c_display c).
