(** What single client messages mean, for the statements in Msg_Props.v.  The
    protocol's own words: RFC 6143 section 7.5, the extensions for fences, the
    clipboard, desktop size and QEMU keys. *)
From Verif Require Import Common Msg_Model.

(** The encodings this library knows, as the protocol numbers them: raw, copyrect,
    RRE, hextile, tight, TRLE, ZRLE, H.264; cursor, desktop size, extended desktop
    size, QEMU keys, QEMU and VMware LED state, extended clipboard, continuous
    updates, fence; time stamps and NTP in experimental builds. *)
Definition known_encodings (experimental : bool) : list Z :=
  [0; 1; 2; 5; 7; 15; 16; 50; -239; -223; -308; -258; -261; 1464686184; -1063131698; -313; -312]
  ++ (if experimental then [-1000; -1001] else []).
Definition is_known (experimental : bool) (e : Z) : bool :=
  if in_dec Z.eq_dec e (known_encodings experimental) then true else false.

(** The JPEG quality a list of encodings asks for: the last of -32 ... -23. *)
Fixpoint last_quality (l : list Z) (q : Z) : Z :=
  match l with
  | [] => q
  | e :: l => last_quality l (if (-32 <=? e) && (e <=? -23) then e + 32 else q)
  end.

(** A SetEncodings message. *)
Definition set_encodings_msg (p : Z) (l : list Z) : list Z :=
  [2; p] ++ be 2 (zlen l) ++ flat_map (fun e => be 4 (e mod 2 ^ 32)) l.

(** What the server can produce a frame in. *)
Definition usable (E : env) (f : fb) (e : Z) : Prop :=
  e = 0 \/ e = 7 \/ e = 16 \/ (e = 50 /\ fb_gbm f = true /\ e_h264 E = true).

(** [normalised l l']: every CR LF in [l] is replaced by LF and nothing else is
    changed. *)
Inductive normalised : list Z -> list Z -> Prop :=
| n_end : normalised [] []
| n_pair l l' : normalised l l' -> normalised (13 :: 10 :: l) (10 :: l')
| n_other a l l' : ~ (a = 13 /\ exists t, l = 10 :: t) -> normalised l l' ->
    normalised (a :: l) (a :: l').

(** A CR that is not followed by LF. *)
Definition lone_cr (l : list Z) : Prop :=
  exists a b, l = a ++ [13] ++ b /\ hd 0 b <> 10.

(** One screen of a SetDesktopSize message: id, x, y, width, height, flags. *)
Record screen : Type :=
  mk_screen { s_id : Z; s_x : Z; s_y : Z; s_w : Z; s_h : Z; s_flags : Z }.
Definition good_screen (s : screen) : Prop :=
  0 <= s_id s < 2 ^ 32 /\ 0 <= s_x s < 2 ^ 16 /\ 0 <= s_y s < 2 ^ 16 /\
  0 <= s_w s < 2 ^ 16 /\ 0 <= s_h s < 2 ^ 16 /\ 0 <= s_flags s < 2 ^ 32.
Definition screen_bytes (s : screen) : list Z :=
  be 4 (s_id s) ++ be 2 (s_x s) ++ be 2 (s_y s) ++ be 2 (s_w s) ++ be 2 (s_h s) ++ be 4 (s_flags s).
Definition set_size_msg (p w h q : Z) (ls : list screen) : list Z :=
  [251; p] ++ be 2 w ++ be 2 h ++ [Z.of_nat (length ls); q] ++ flat_map screen_bytes ls.
(** what the application is told about a screen *)
Definition told (s : screen) : layout :=
  mk_layout (s_id s) (s_x s) (s_y s) (s_w s) (s_h s) (s_id s =? 0).
(** does the screen stick out of the desktop? *)
Definition sticks_out (w h : Z) (s : screen) : Prop := w < s_x s + s_w s \/ h < s_y s + s_h s.
(** the answer: one rectangle, extended desktop size, reason 1 (this client's
    request), the status, and one screen *)
Definition size_answer (w h status : Z) : list Z :=
  [0; 0] ++ be 2 1 ++ be 2 1 ++ be 2 status ++ be 2 w ++ be 2 h ++ be 4 (-308 mod 2 ^ 32) ++
  [1; 0; 0; 0] ++ be 4 0 ++ be 2 0 ++ be 2 0 ++ be 2 w ++ be 2 h ++ be 4 0.

(** Pseudo-rectangles: a header of twelve bytes, the last four of which are the
    encoding, and a payload whose size the encoding gives. *)
Definition payload_size (e : Z) (body : list Z) : option Z :=
  if e =? -223 then Some 0                             (* desktop size *)
  else if e =? -308 then Some (4 + 16 * nth 0 body 0)  (* extended: a count of screens *)
  else if e =? -258 then Some 0                        (* QEMU keys *)
  else if e =? -1001 then Some 0                       (* NTP *)
  else if e =? -1000 then Some 8                       (* time stamp *)
  else if e =? -261 then Some 1                        (* QEMU LED state *)
  else if e =? 1464686184 then Some 4                  (* VMware LED state *)
  else None.
Inductive pseudo_rects : list Z -> Z -> Prop :=
| p_nil : pseudo_rects [] 0
| p_cons head e body l n : length head = 8%nat -> - 2 ^ 31 <= e < 2 ^ 31 ->
    payload_size e body = Some (zlen body) -> pseudo_rects l n ->
    pseudo_rects (head ++ be 4 (e mod 2 ^ 32) ++ body ++ l) (n + 1).

(** A fence message, sent by either side. *)
Definition fence_msg (p1 p2 p3 flags : Z) (payload : list Z) : list Z :=
  [248; p1; p2; p3] ++ be 4 flags ++ [zlen payload] ++ payload.

(** Key, pointer and QEMU key messages. *)
Definition key_msg (down p1 p2 sym : Z) : list Z := [4; down; p1; p2] ++ be 4 sym.
Definition pointer_msg (buttons x y : Z) : list Z := [5; buttons] ++ be 2 x ++ be 2 y.
Definition qemu_key_msg (down sym code : Z) : list Z := [255; 0] ++ be 2 down ++ be 4 sym ++ be 4 code.
Definition update_request_msg (inc x y w h : Z) : list Z :=
  [3; inc] ++ be 2 x ++ be 2 y ++ be 2 w ++ be 2 h.
Definition cut_text_msg (p1 p2 p3 : Z) (text : list Z) : list Z :=
  [6; p1; p2; p3] ++ be 4 (zlen text) ++ text.
Definition ntp_msg (p1 p2 p3 t0 t1 t2 t3 : Z) : list Z :=
  [160; p1; p2; p3] ++ be 4 t0 ++ be 4 t1 ++ be 4 t2 ++ be 4 t3.
