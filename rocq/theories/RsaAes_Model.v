(** The RSA-AES encrypted stream: src/stream/rsa-aes.c and the EAX part of
    src/crypto/nettle/cipher.c.

    AES-EAX itself (nettle) is a parameter: [seal]/[unseal] the keystream part
    and [mac] the 16-byte tag, as functions of nonce, associated data and text;
    the two directions have one instance each.  Not modelled: the TCP layer
    below (see Tcp_Model), allocation failure. *)
From Verif Require Import Common.

(* src/crypto/nettle/cipher.c:25-34, uint64_t count[2] *)
Definition counter : Type := (Z * Z)%type.
(* src/crypto/nettle/cipher.c:141, calloc *)
Definition counter0 : counter := (0, 0).

(* src/crypto/nettle/cipher.c:94-107 and 154-167, update_nonce: the nonce used
   (16 bytes, both words little-endian) and the next counter *)
Definition update_nonce (c : counter) : list Z * counter :=
  let (c0, c1) := c in
  let nonce := le 8 c0 ++ le 8 c1 in
  let c0' := (c0 + 1) mod 2 ^ 64 in
  (nonce, (c0', if c0' =? 0 then (c1 + 1) mod 2 ^ 64 else c1)).

(* src/stream/rsa-aes.c:32 *)
Definition BUFSIZE : Z := 8192.

Section Eax.
Variable seal unseal mac : list Z -> list Z -> list Z -> list Z.

(* src/crypto/nettle/cipher.c:109-125 / 169-185, encrypt *)
Definition encrypt (c : counter) (src ad : list Z) : counter * list Z * list Z :=
  let (nonce, c) := update_nonce c in
  let text := seal nonce ad src in
  (c, text, mac nonce ad text).

(* src/crypto/nettle/cipher.c:127-136 / 187-196, decrypt: text and expected mac *)
Definition decrypt (c : counter) (src ad : list Z) : counter * list Z * list Z :=
  let (nonce, c) := update_nonce c in
  (c, unseal nonce ad src, mac nonce ad src).

(* src/stream/rsa-aes.c:159-171: the loop, from message [i] *)
Fixpoint send_loop (n : nat) (i : Z) (payload : list Z) (c : counter) : res (counter * list Z) :=
  match n with
  | O => Ok (c, [])
  | S n =>
      let msglen := Z.min (zlen payload - i * BUFSIZE) BUFSIZE in
      let msglen_be := be 2 (msglen mod 2 ^ 16) in
      let* src := get payload (i * BUFSIZE) msglen in
      let '(c, text, tag) := encrypt c src msglen_be in
      let* x := send_loop n (i + 1) payload c in
      Ok (fst x, msglen_be ++ text ++ tag ++ snd x)
  end.

(* src/stream/rsa-aes.c:150-183, stream_rsa_aes_send: what is passed on to TCP *)
Definition send (payload : list Z) (c : counter) : res (counter * list Z) :=
  let n_msg := (zlen payload + BUFSIZE - 1) / BUFSIZE in
  send_loop (Z.to_nat n_msg) 0 payload c.

(** Consecutive calls of the above on one stream. *)
(* any calls of stream_rsa_aes_send, src/stream/rsa-aes.c:150-183 *)
Fixpoint send_all (payloads : list (list Z)) (c : counter) : res (counter * list Z) :=
  match payloads with
  | [] => Ok (c, [])
  | p :: ps =>
      let* x := send p c in
      let* y := send_all ps (fst x) in
      Ok (fst y, snd x ++ snd y)
  end.

(** Receiving.  [rbuf] is the filled part of read_buffer (read_index bytes). *)
(* src/stream/rsa-aes.c:35-42 *)
Record rstate := mk_r { rbuf : list Z; rcnt : counter; rclosed : bool }.

(* src/stream/rsa-aes.c:64-79, stream_rsa_aes_parse_header: None for -1 *)
Definition parse_header (s : rstate) : option Z :=
  if zlen (rbuf s) <=? 2 then None
  else
    let len := unbe (firstn 2 (rbuf s)) in
    if zlen (rbuf s) <? 2 + 16 + len then None else Some len.

(* the results of src/stream/rsa-aes.c:81-118 *)
Inductive msg_result := MNone | MData (d : list Z) | MBad.

(* src/stream/rsa-aes.c:81-118, stream_rsa_aes_read_message; MNone: returned 0
   without consuming *)
Definition read_message (s : rstate) (size : Z) : res (rstate * msg_result) :=
  match parse_header s with
  | None => Ok (s, MNone)
  | Some len =>
      if size <? len then Ok (s, MNone)
      else
        let* src := get (rbuf s) 2 len in
        let '(c, text, expected) := decrypt (rcnt s) src (be 2 len) in
        let* actual := get (rbuf s) (2 + len) 16 in
        if list_eq_dec Z.eq_dec expected actual
        then Ok (mk_r (skipn (Z.to_nat (2 + 16 + len)) (rbuf s)) c (rclosed s), MData text)
        else Ok (mk_r (rbuf s) c (rclosed s), MBad)
  end.

(* the results of src/stream/rsa-aes.c:120-148 *)
Inductive read_result := RGot (d : list Z) | RErr.

(* src/stream/rsa-aes.c:130-145: an empty message ends the loop like no message *)
Fixpoint read_loop (fuel : nat) (s : rstate) (size : Z) (acc : list Z) : res (rstate * read_result) :=
  match fuel with
  | O => Fault Diverges
  | S fuel =>
      let* x := read_message s size in
      match x with
      | (s, MNone) => Ok (s, RGot acc)
      | (s, MBad) => Ok (s, RErr)
      | (s, MData []) => Ok (s, RGot acc)
      | (s, MData d) => read_loop fuel s (size - zlen d) (acc ++ d)
      end
  end.

(* src/stream/rsa-aes.c:55-62 with src/stream/tcp.c:196-215: [avail] is what the
   kernel holds; a read of zero bytes counts as end of stream *)
Definition read_into_buffer (s : rstate) (avail : list Z) : rstate * list Z :=
  let room := BUFSIZE - zlen (rbuf s) in
  if room =? 0 then (mk_r (rbuf s) (rcnt s) true, avail)
  else (mk_r (rbuf s ++ firstn (Z.to_nat room) avail) (rcnt s) (rclosed s),
        skipn (Z.to_nat room) avail).

(* src/stream/rsa-aes.c:120-148, stream_rsa_aes_read, called on a read event:
   state, result, and what is left in the kernel *)
Definition read (s : rstate) (size : Z) (avail : list Z) : res (rstate * read_result * list Z) :=
  let (s, left_over) := read_into_buffer s avail in
  if rclosed s then Ok (s, RGot [], left_over)
  else
    let* x := read_loop (S (length (rbuf s))) s size [] in
    Ok (fst x, snd x, left_over).

(** A connection: the network delivers the segments one after the other, each
    followed by reads until the kernel holds nothing more. *)
(* any calls of src/stream/rsa-aes.c:120-148 *)
Fixpoint drain (fuel : nat) (s : rstate) (size : Z) (avail : list Z) : res (rstate * list Z * bool) :=
  match avail with
  | [] => Ok (s, [], true)
  | _ =>
      match fuel with
      | O => Fault Diverges
      | S fuel =>
          let* x := read s size avail in
          match x with
          | (s, RErr, _) => Ok (s, [], false)
          | (s, RGot d, more) =>
              if rclosed s then Ok (s, d, false)
              else let* y := drain fuel s size more in
                   let '(s, d', ok) := y in Ok (s, d ++ d', ok)
          end
      end
  end.

(* any calls of src/stream/rsa-aes.c:120-148 *)
Fixpoint receive (s : rstate) (size : Z) (segs : list (list Z)) : res (rstate * list Z * bool) :=
  match segs with
  | [] => Ok (s, [], true)
  | seg :: segs =>
      let* x := drain (S (length seg)) s size seg in
      let '(s, d, ok) := x in
      if ok then
        let* y := receive s size segs in
        let '(s, d', ok) := y in Ok (s, d ++ d', ok)
      else Ok (s, d, false)
  end.
End Eax.

(* src/stream/rsa-aes.c:192-211, stream_upgrade_to_rsa_eas *)
Definition rstate0 : rstate := mk_r [] counter0 false.
