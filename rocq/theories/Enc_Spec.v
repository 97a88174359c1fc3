(** What is said of the encoders and of the compressed streams. *)
From Verif Require Import Common Enc_Model.

(** A viewer has one decompressor for each kind of compressed frame, for the whole connection.
    It fits the compressor if, from the start, each piece comes out as it went in. *)
Definition codec_ok {zst ist} (z_new : zst) (deflate : zst -> list Z -> zst * list Z) (i_new : ist) (inflate : ist -> list Z -> option (ist * list Z)) : Prop :=
  exists R : zst -> ist -> Prop, R z_new i_new /\
    forall z i p, R z i -> exists i', inflate i (snd (deflate z p)) = Some (i', p) /\ R (fst (deflate z p)) i'.

(** What such a viewer makes of what it gets; after an error it reads nothing more. *)
Fixpoint watch {ist} (inflate : ist -> list Z -> option (ist * list Z)) (i : ist) (l : list (list Z)) : list (option (list Z)) :=
  match l with
  | [] => []
  | b :: l => match inflate i b with Some (i, p) => Some p :: watch inflate i l | None => map (fun _ => None) (b :: l) end
  end.

(** The frames of one kind. *)
Definition of_kind (k : kind) (l : list frame) : list frame := filter (fun f => kind_eqb k (f_kind f)) l.

(** A stream: each frame is what the compressor makes of it after all those before it. *)
Fixpoint in_stream {zst} (deflate : zst -> list Z -> zst * list Z) (z : zst) (l : list frame) : Prop :=
  match l with
  | [] => True
  | f :: l => f_bytes f = snd (deflate z (f_plain f)) /\ in_stream deflate (fst (deflate z (f_plain f))) l
  end.

(** Which of the clients want to know about damage: those whose current encoder does not ignore it. *)
Definition wants_damage {zst} (s : srv zst) (i : nat) : bool :=
  match c_enc (s_cli _ s i) with Some a => negb (ignores_damage (e_kind _ (s_enc _ s a))) | None => false end.

(** How many they are. *)
Definition damage_clients {zst} (s : srv zst) : Z := Z.of_nat (length (filter (wants_damage s) (seq 0 (s_n _ s)))).

(** Memory for new ZRLE and Tight encoders is there. *)
Definition memory (o : op) : Prop := match o with Process _ k _ alloc _ => deflates k = true -> alloc = true | _ => True end.

(** Nobody is connected and nothing is being encoded. *)
Definition quiet {zst} (s : srv zst) : Prop := (forall i, c_alive (s_cli _ s i) = false) /\ (forall a, e_job _ (s_enc _ s a) = None).
