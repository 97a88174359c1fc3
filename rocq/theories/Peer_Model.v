(** The line logged for a new connection: the end of on_connection and sockaddr_to_string,
    src/server.c:2064-2073, 2087-2105.

    Simplifications: memory of the stack is cells that are bytes or not initialised;
    addresses are laid out as on Linux with little-endian numbers; inet_ntop is modelled for
    IPv4, and a parameter for IPv6; what is passed on to the logger is in Log_Model.v. *)
From Verif Require Import Common Log_Model.
Open Scope string_scope.
Open Scope list_scope.
Open Scope Z_scope.

(* char ip_address[256], struct sockaddr_storage addr: not initialised, src/server.c:2064-2065 *)
Definition fresh (n : nat) : list (option Z) := repeat None n.
(* getpeername and inet_ntop write from the start, src/server.c:2067, 2094, 2097 *)
Definition write (cells : list (option Z)) (l : list Z) : list (option Z) := map Some l ++ skipn (length l) cells.
(* inet_ntop writes the text and a terminator if there is room, src/server.c:2094, 2097 *)
Definition write_text (cells : list (option Z)) (s : list Z) : list (option Z) :=
  if (length s <? length cells)%nat then write cells (s ++ [0]) else cells.
(* reading [n] bytes, addr->sa_family and the like: src/server.c:2092-2097 *)
Fixpoint read (n : nat) (cells : list (option Z)) : res (list Z) :=
  match n, cells with
  | O, _ => Ok []
  | S _, [] => Fault OobRead
  | S _, None :: _ => Fault Uninit
  | S n, Some b :: cells => let* l := read n cells in Ok (b :: l)
  end.
(* what "%s" reads, src/server.c:2070-2071 *)
Fixpoint read_string (cells : list (option Z)) : res (list Z) :=
  match cells with
  | [] => Fault OobRead
  | None :: _ => Fault Uninit
  | Some c :: cells => if c =? 0 then Ok [] else let* l := read_string cells in Ok (c :: l)
  end.

(* AF_INET and AF_INET6 of Linux, src/server.c:2093, 2096 *)
Definition AF_INET : Z := 2.
(* src/server.c:2096 *)
Definition AF_INET6 : Z := 10.

(* inet_ntop(AF_INET): "%u.%u.%u.%u", src/server.c:2094 *)
Definition decimal (b : Z) : list Z :=
  (if 100 <=? b then [48 + b / 100] else []) ++ (if 10 <=? b then [48 + b / 10 mod 10] else []) ++ [48 + b mod 10].
(* src/server.c:2094 *)
Fixpoint dotted (l : list Z) : list Z :=
  match l with
  | [] => []
  | [b] => decimal b
  | b :: l => decimal b ++ 46 :: dotted l
  end.

Section Peer.
Variable ntop6 : list Z -> list Z. (* inet_ntop(AF_INET6) *)
Variable show : Z -> list Z. (* "%d" *)

(* src/server.c:2087-2105: [dst] afterwards, and what is logged at which level *)
Definition sockaddr_to_string (dst addr : list (option Z)) : res (list (option Z) * list (Z * list Z)) :=
  let* family := read 2 addr in
  if unle family =? AF_INET then
    let* a := read 4 (skipn 4 addr) in Ok (write_text dst (dotted a), [])
  else if unle family =? AF_INET6 then
    let* a := read 16 (skipn 8 addr) in Ok (write_text dst (ntop6 a), [])
  else Ok (dst, [(LOG_DEBUG, codes "Don't know how to convert sa_family " ++ show (unle family) ++ codes " to string")]).

(* src/server.c:2064-2073; [peer]: the address getpeername answers, None if it fails;
   [level]: messages above it are not formatted (src/logging.c:105-108); [pointer]: "%p" of
   the client *)
Definition announce (level : Z) (peer : option (list Z)) (pointer : list Z) : res (list (Z * list Z)) :=
  let addr := match peer with Some a => write (fresh 128) a | None => fresh 128 end in
  let* (ip_address, lines) := sockaddr_to_string (fresh 256) addr in
  let lines := filter (fun m => fst m <=? level) lines in
  if LOG_INFO <=? level then
    let* s := read_string ip_address in
    Ok (lines ++ [(LOG_INFO, codes "New client connection from " ++ s ++ codes ": " ++ pointer)])
  else Ok lines.
End Peer.
