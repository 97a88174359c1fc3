(** How a viewer finds the ends of the messages a server sends it after the handshake:
    RFB protocol (RFC 6143, section 7.6, and its extensions).  Nothing here uses the
    handlers of the model; only its inputs and its log. *)
From Verif Require Import Common Tight_Spec Msg_Model Clip_Model.

(** The bytes handed to the stream, one element per entry of the log. *)
Definition sent (l : list out) : list (list Z) :=
  flat_map (fun o => match o with Sent b | Update _ b | NtpReply b => [b] | _ => [] end) l.
(** The same, as the viewer gets them. *)
Definition traffic (l : list out) : list Z := concat (sent l).

(** A field of [n] bytes at [k]. *)
Definition field (n k : nat) (l : list Z) : Z := unbe (firstn n (skipn k l)).
(** [n] bytes, if they are there. *)
Definition need (n : nat) (l : list Z) : option nat :=
  if (n <=? length l)%nat then Some n else None.

(** [pic e w h l]: how many bytes of [l] the viewer takes for a rectangle of encoding [e]
    and [w] times [h] pixels, if they are all there. *)
Definition picture := Z -> Z -> Z -> list Z -> option nat.

Section Viewer.
Variable pic : picture.

(** What follows the 12 bytes of a rectangle's header. *)
Definition body_len (e w h : Z) (l : list Z) : option nat :=
  if e =? -258 then Some 0%nat                      (* QEMU extended key event *)
  else if e =? -1001 then Some 0%nat                (* NTP *)
  else if e =? -223 then Some 0%nat                 (* DesktopSize *)
  else if e =? -261 then need 1 l                   (* QEMU LED state *)
  else if e =? 1464686184 then need 4 l             (* VMware LED state *)
  else if e =? -1000 then need 8 l                  (* presentation time *)
  else if e =? -308 then                            (* ExtendedDesktopSize *)
    if (length l <? 4)%nat then None else need (4 + 16 * Z.to_nat (nth 0 l 0)) l
  else pic e w h l.

Definition rect_len (l : list Z) : option nat :=
  if (length l <? 12)%nat then None else
  match body_len (to_signed 32 (field 4 8 l)) (field 2 4 l) (field 2 6 l) (skipn 12 l) with
  | Some n => Some (12 + n)%nat
  | None => None
  end.

Fixpoint rects_len (n : nat) (l : list Z) : option nat :=
  match n with
  | O => Some 0%nat
  | S n =>
      match rect_len l with
      | None => None
      | Some k =>
          match rects_len n (skipn k l) with
          | None => None
          | Some j => Some (k + j)%nat
          end
      end
  end.

(** The length of the message at the start of [l]; None if it is not complete or of a
    kind the viewer does not know. *)
Definition message_len (l : list Z) : option nat :=
  match l with
  | [] => None
  | t :: _ =>
      if t =? 0 then                                (* FramebufferUpdate *)
        if (length l <? 4)%nat then None else
        match rects_len (Z.to_nat (field 2 2 l)) (skipn 4 l) with
        | Some n => Some (4 + n)%nat
        | None => None
        end
      else if t =? 1 then                           (* SetColourMapEntries *)
        if (length l <? 6)%nat then None else need (6 + 6 * Z.to_nat (field 2 4 l)) l
      else if t =? 2 then Some 1%nat                (* Bell *)
      else if t =? 3 then                           (* ServerCutText, plain or extended *)
        if (length l <? 8)%nat then None else
        need (8 + Z.to_nat (Z.abs (to_signed 32 (field 4 4 l)))) l
      else if t =? 150 then Some 1%nat              (* EndOfContinuousUpdates *)
      else if t =? 160 then need 20 l               (* NTP *)
      else if t =? 248 then                         (* Fence *)
        if (length l <? 9)%nat then None else need (9 + Z.to_nat (nth 8 l 0)) l
      else None
  end.

(** [n] rectangles and nothing else. *)
Definition readable (n : Z) (l : list Z) : Prop := rects_len (Z.to_nat n) l = Some (length l).
End Viewer.

(** The pictures: [size] bytes for a pixel, [tsize] for one of Tight's.  Raw: RFC 6143
    7.7.1; Tight: [read_len] of Tight_Spec.v, images and basic compression without
    filter; ZRLE: 7.7.6; H.264: length and flags; cursor: 7.8.1. *)
Definition tight_len (tsize : nat) (w h : Z) (l : list Z) : option nat :=
  match l with
  | [] => None
  | c :: l' =>
      let basic := existsb (Z.eqb c) [0; 16; 32; 48] in
      let n := (Z.to_nat (w * h) * tsize)%nat in
      if basic && (n <? 12)%nat then need (1 + n) l
      else if basic || (c =? 144) then
        match read_len l' with
        | Some (v, rest) => need (length l - length rest + Z.to_nat v) l
        | None => None
        end
      else None
  end.

Definition viewer (size tsize : nat) : picture := fun e w h l =>
  if e =? 0 then need (Z.to_nat (w * h) * size) l
  else if e =? 7 then tight_len tsize w h l
  else if e =? 16 then
    if (length l <? 4)%nat then None else need (4 + Z.to_nat (field 4 0 l)) l
  else if e =? 50 then
    if (length l <? 8)%nat then None else need (8 + Z.to_nat (field 4 0 l)) l
  else if e =? -239 then
    need (Z.to_nat (w * h) * size + Z.to_nat h * Z.to_nat ((w + 7) / 8)) l
  else None.

(** [splits pic h l ms]: having read [h], the viewer takes [l] apart into the messages
    [ms], with nothing left over.  Which pictures it can read may depend on all it has
    read before. *)
Inductive splits (pic : list Z -> picture) : list Z -> list Z -> list (list Z) -> Prop :=
| s_end h : splits pic h [] []
| s_message h m l ms : message_len (pic h) (m ++ l) = Some (length m) ->
    splits pic (h ++ m) l ms -> splits pic h (m ++ l) (m :: ms).

(** Whether a picture is complete does not depend on what comes after it. *)
Definition prefix_wise (pic : list Z -> picture) : Prop :=
  forall h e x y l n, pic h e x y l = Some n ->
    (n <= length l)%nat /\ forall l', pic h e x y (l ++ l') = Some n.

(** What happens to a client: what Msg_Model has, and nvnc_send_cut_text on a server
    that has other clients as well. *)
Inductive act : Type := Inp (i : input) | Text (others : list peer) (t : list Z).

Definition act_step (E : env) (fuel : nat) (compress : list Z -> option (list Z))
    (c : client) (a : act) : res client :=
  match a with
  | Inp i => step E fuel c i
  | Text others t =>
      let* l := nvnc_send_cut_text compress (mk_peer true c :: others) t in
      Ok (match l with p :: _ => p_client p | [] => c end)
  end.

Fixpoint act_run (E : env) (fuel : nat) (compress : list Z -> option (list Z))
    (c : client) (l : list act) : res client :=
  match l with
  | [] => Ok c
  | a :: l => let* c := act_step E fuel compress c a in act_run E fuel compress c l
  end.

(** Along the run, each frame an encoder delivers is readable after what was sent before
    it and has no more than 65533 rectangles; each text has at most 2000000000 bytes. *)
Fixpoint proper (pic : list Z -> picture) (E : env) (fuel : nat)
    (compress : list Z -> option (list Z)) (c : client) (l : list act) : Prop :=
  match l with
  | [] => True
  | a :: l =>
      match a with
      | Inp (IEncoded f) =>
          0 <= f_rects f <= 65533 /\ readable (pic (traffic (log c))) (f_rects f) (f_data f)
      | Inp _ => True
      | Text _ t => zlen t <= 2000000000
      end /\
      forall c', act_step E fuel compress c a = Ok c' -> proper pic E fuel compress c' l
  end.

(** The same for cursor images. *)
Definition cursors (pic : list Z -> picture) (E : env) : Prop :=
  forall l f d, e_cursor E l f = Some d -> readable (pic (traffic l)) 1 d.

(** compress() fills no more than compressBound() says, zlib's compress.c. *)
Definition bounded (compress : list Z -> option (list Z)) : Prop :=
  forall l z, compress l = Some z ->
    zlen z <= zlen l + zlen l / 2 ^ 12 + zlen l / 2 ^ 14 + zlen l / 2 ^ 25 + 13.

(** No LED state was sent in four bytes (see C52). *)
Definition one_byte_leds (l : list out) : Prop :=
  forall b, In (Update KLed b) l -> length b = 17%nat.
