(** Listening sockets: src/server.c:2106-2343 and the part of nvnc_del that closes them.

    The kernel is a record of the open descriptors and of the names of Unix sockets in the
    file system.  Whether a call that may fail does is read from a list of answers, so the
    theorems hold for all patterns of failure.  Allocation failure of the socket structure
    is one of the answers.  Accepting connections is in Auth_Model and Life_Model. *)
From Verif Require Import Common.

(* what a descriptor is bound to; a Unix socket knows its name and which file it made.  A
   Unix address whose name is empty is in the abstract name space (unix(7); the address is
   filled at src/server.c:2162-2170 and passed in full length at 2176) *)
Inductive addr := Unbound | Inet (a : Z) | Path (name : list Z) (file : Z) | Abstract.

(* include/neatvnc.h:79-82 *)
Inductive stream_type := NORMAL | WEBSOCKET.

(* the kernel as far as src/server.c:2106-2355 uses it; [w_bad] counts descriptors that
   were closed without being open *)
Record world := mk_world {
  w_fds : list (Z * addr); w_files : list (list Z * Z); w_next : Z; w_bad : Z; w_ans : list bool }.

(* struct nvnc__socket: include/common.h:160-169; whether aml_start took the handler *)
Record lsock := mk_lsock { k_fd : Z; k_type : stream_type; k_ext : bool; k_watched : bool }.

(* any call that may fail: its answer, and the world with the answer used up
   (src/server.c:2133, 2140, 2145, 2172, 2176, 2187, 2191, 2199, 2204) *)
Definition ask (w : world) : bool * world :=
  match w_ans w with
  | [] => (true, w)
  | b :: l => (b, mk_world (w_fds w) (w_files w) (w_next w) (w_bad w) l)
  end.

(* the lowest number that is not in use, as POSIX has it for socket() (src/server.c:2133,
   2172); [n] counts up *)
Fixpoint lowest (fuel : nat) (n : Z) (l : list Z) : Z :=
  match fuel with
  | O => n
  | S f => if existsb (Z.eqb n) l then lowest f (n + 1) l else n
  end.

(* socket(): src/server.c:2133, 2172 *)
Definition sys_socket (w : world) : Z * world :=
  let '(ok, w) := ask w in
  if ok then
    let used := map fst (w_fds w) in
    let fd := lowest (length used) 0 used in
    (fd, mk_world ((fd, Unbound) :: w_fds w) (w_files w) (w_next w) (w_bad w) (w_ans w))
  else (-1, w).

(* what [fd] is bound to, as getsockname at src/server.c:2350 tells *)
Definition lookup (fd : Z) (w : world) : option addr :=
  match find (fun p => fst p =? fd) (w_fds w) with Some p => Some (snd p) | None => None end.

(* close(): src/server.c:2152, 2177, 2249, 2276, 2391 *)
Definition sys_close (fd : Z) (w : world) : world :=
  match lookup fd w with
  | None => mk_world (w_fds w) (w_files w) (w_next w) (w_bad w + 1) (w_ans w)
  | Some _ => mk_world (filter (fun p => negb (fst p =? fd)) (w_fds w)) (w_files w) (w_next w) (w_bad w) (w_ans w)
  end.

(* names are equal, for unlink and bind: src/server.c:2176, 2274, 2352 *)
Definition same (a b : list Z) : bool := if list_eq_dec Z.eq_dec a b then true else false.

(* unlink(): src/server.c:2274, 2352 *)
Definition sys_unlink (name : list Z) (w : world) : world :=
  mk_world (w_fds w) (filter (fun p => negb (same (fst p) name)) (w_files w)) (w_next w) (w_bad w) (w_ans w).

(* a descriptor gets an address: src/server.c:2145, 2176 *)
Definition set_addr (fd : Z) (a : addr) (w : world) : world :=
  mk_world (map (fun p => if fst p =? fd then (fd, a) else p) (w_fds w)) (w_files w) (w_next w) (w_bad w) (w_ans w).

(* bind() to an Internet address: src/server.c:2145 *)
Definition bind_inet (fd a : Z) (w : world) : bool * world :=
  let '(ok, w) := ask w in if ok then (true, set_addr fd (Inet a) w) else (false, w).

(* bind() to a Unix address: src/server.c:2176.  A name that exists is refused. *)
Definition bind_unix (fd : Z) (name : list Z) (w : world) : bool * world :=
  let '(ok, w) := ask w in
  if negb ok then (false, w)
  else match name with
       | [] => (true, set_addr fd Abstract w)
       | _ => if existsb (fun p => same (fst p) name) (w_files w) then (false, w)
              else let w' := set_addr fd (Path name (w_next w)) w in
                   (true, mk_world (w_fds w') ((name, w_next w) :: w_files w') (w_next w + 1) (w_bad w') (w_ans w'))
       end.

(* src/server.c:2126-2154, the addresses getaddrinfo gave *)
Fixpoint try_addresses (l : list Z) (w : world) : Z * world :=
  match l with
  | [] => (-1, w)
  | a :: l =>
      let '(fd, w) := sys_socket w in
      if fd <? 0 then try_addresses l w
      else
        let '(reuse, w) := ask w in
        if negb reuse then try_addresses l (sys_close fd w)
        else
          let '(bound, w) := bind_inet fd a w in
          if bound then (fd, w) else try_addresses l (sys_close fd w)
  end.

(* src/server.c:2106-2158; None: getaddrinfo failed *)
Definition bind_address_tcp (l : option (list Z)) (w : world) : Z * world :=
  match l with None => (-1, w) | Some l => try_addresses l w end.

(* src/server.c:2160-2182; sun_path has 108 bytes.  [name] is the string. *)
Definition bind_address_unix (name : list Z) (w : world) : Z * world :=
  if 108 <=? zlen name then (-1, w)
  else
    let '(fd, w) := sys_socket w in
    if fd <? 0 then (-1, w)
    else
      let '(bound, w) := bind_unix fd name w in
      if bound then (fd, w) else (-1, sys_close fd w).

(* src/server.c:2184-2212; the socket with is_external set, or None *)
Definition nvnc__listen (fd : Z) (t : stream_type) (w : world) : option lsock * world :=
  let '(mem, w) := ask w in
  if negb mem then (None, w)
  else
    let '(ok, w) := ask w in
    if negb ok then (None, w)
    else
      let '(handler, w) := ask w in
      if negb handler then (None, w)
      else let '(started, w) := ask w in (Some (mk_lsock fd t true started), w).

(* the sockets of the server: include/common.h:171-211 *)
Definition sockets := list lsock.

(* src/server.c:2233-2237 *)
Definition nvnc_listen (s : sockets) (fd : Z) (t : stream_type) (w : world) : Z * sockets * world :=
  match nvnc__listen fd t w with
  | (Some k, w) => (0, k :: s, w)
  | (None, w) => (-1, s, w)
  end.

(* src/server.c:2240-2255 *)
Definition nvnc_listen_tcp (s : sockets) (l : option (list Z)) (t : stream_type) (w : world) : Z * sockets * world :=
  let '(fd, w) := bind_address_tcp l w in
  if fd <? 0 then (-1, s, w)
  else match nvnc__listen fd t w with
       | (Some k, w) => (0, mk_lsock (k_fd k) (k_type k) false (k_watched k) :: s, w)
       | (None, w) => (-1, s, sys_close fd w)
       end.

(* src/server.c:2258-2279 *)
Definition nvnc_listen_unix (s : sockets) (name : list Z) (t : stream_type) (w : world) : Z * sockets * world :=
  let '(fd, w) := bind_address_unix name w in
  if fd <? 0 then (-1, s, w)
  else match nvnc__listen fd t w with
       | (Some k, w) => (0, mk_lsock (k_fd k) (k_type k) false (k_watched k) :: s, w)
       | (None, w) =>
           let w := match t with WEBSOCKET => sys_unlink name w | NORMAL => w end in
           (-1, s, sys_close fd w)
       end.

(* src/server.c:2345-2355 *)
Definition unlink_fd_path (fd : Z) (w : world) : world :=
  match lookup fd w with
  | Some (Path name _) => sys_unlink name w
  | _ => w
  end.

(* src/server.c:2381-2394 *)
Fixpoint close_sockets (s : sockets) (w : world) : world :=
  match s with
  | [] => w
  | k :: s =>
      let w := if k_ext k then w else unlink_fd_path (k_fd k) w in
      close_sockets s (sys_close (k_fd k) w)
  end.

(* src/server.c:2215-2230 and 2282-2313, nvnc_open and nvnc_open_websocket: None is NULL; the server has no clients yet when it is deleted *)
Definition nvnc_open (l : option (list Z)) (t : stream_type) (w : world) : option sockets * world :=
  match nvnc_listen_tcp [] l t w with
  | (rc, s, w) => if rc <? 0 then (None, close_sockets s w) else (Some s, w)
  end.
(* src/server.c:2316-2328 *)
Definition nvnc_open_unix (name : list Z) (w : world) : option sockets * world :=
  match nvnc_listen_unix [] name NORMAL w with
  | (rc, s, w) => if rc <? 0 then (None, close_sockets s w) else (Some s, w)
  end.
(* src/server.c:2331-2343 *)
Definition nvnc_open_from_fd (fd : Z) (w : world) : option sockets * world :=
  match nvnc_listen [] fd NORMAL w with
  | (rc, s, w) => if rc <? 0 then (None, close_sockets s w) else (Some s, w)
  end.
