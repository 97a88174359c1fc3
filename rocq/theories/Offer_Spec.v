(** What a client has said it understands, for the statements in Offer_Props.v. *)
From Verif Require Import Common Msg_Model Msg_Spec Msg2_Spec Safe_Spec.

(** The last of the messages [ms] that lists encodings (type 2) lists [e]. *)
Definition listed (ms : list (list Z)) (e : Z) : Prop :=
  exists a p l b, ms = a ++ set_encodings_msg p l :: b /\ zlen l <= 1023 /\ Forall int32 l /\
    Forall (fun m => hd 0 m <> 2) b /\ In e l.

(** Among the messages there is one of type [t]. *)
Definition spoken (ms : list (list Z)) (t : Z) : Prop := exists m, In (t :: m) ms.

(** The bytes of a pseudo rectangle of type [e]: its head and its body. *)
Definition rectangle (e : Z) (body it : list Z) : Prop :=
  exists x y w h, it = be 2 x ++ be 2 y ++ be 2 w ++ be 2 h ++ be 4 (e mod 2 ^ 32) ++ body.

(** How long the body of each type is. *)
Definition body_size (e : Z) : Z :=
  if e =? -308 then 20 else if e =? -1000 then 8 else if e =? -261 then 1 else 0.

(** A pseudo rectangle the client can expect: of a type it has listed; or, extended desktop
    sizes (-308), the answer to its own message of type 251.  [lights]: so are lock lights in
    QEMU's form (-261), even if it has only listed VMware's. *)
Definition expected (lights : bool) (ms : list (list Z)) (it : list Z) : Prop :=
  exists e body, rectangle e body it /\
    ((zlen body = body_size e /\ (listed ms e \/ (e = -308 /\ spoken ms 251))) \/
     (lights = true /\ e = -261 /\ zlen body = 4 /\ listed ms 1464686184)).

(** What may be sent to a client that has sent [ms]: colour maps (type 1), which belong to
    RFC 6143; the end of continuous updates (150) if it has listed or used them; fences
    (248) and clipboards (3) if it has listed them; time (160) if it has asked; and updates,
    which consist of pseudo rectangles it can expect, followed by nothing, a frame or, if it has
    listed them (-239), a cursor. *)
Definition may_be_sent (lights : bool) (E : env) (frames : list Z -> Prop) (ms : list (list Z)) (o : out) : Prop :=
  match o with
  | Sent m =>
      match hd 0 m with
      | 1 => True
      | 150 => listed ms (-313) \/ spoken ms 150
      | 248 => listed ms (-312)
      | 3 => listed ms (-1063131698)
      | _ => False
      end
  | NtpReply _ => spoken ms 160
  | Update _ m =>
      exists n items picture, m = [0; 0] ++ be 2 n ++ concat items ++ picture /\
        Forall (expected lights ms) items /\
        (picture = [] \/ frames picture \/ (listed ms (-239) /\ exists l f, e_cursor E l f = Some picture))
  | _ => True
  end.

(** The frames among what happens. *)
Definition among (l : list happening) (data : list Z) : Prop :=
  exists f, In (Meanwhile (IEncoded f)) l /\ f_data f = data.

(** [o] was fit to be sent when it was: after some of the messages [ms] had been received. *)
Definition sent_rightly (lights : bool) (E : env) (frames : list Z -> Prop) (ms : list (list Z)) (o : out) : Prop :=
  exists seen later, ms = seen ++ later /\ may_be_sent lights E frames seen o.
