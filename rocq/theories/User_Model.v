(** The name an application can ask for: security_handshake_ok of src/auth/common.c and
    nvnc_client_get_auth_username of src/server.c, on top of the handshake of Auth_Model.

    The name is set where the handshake model notes that the application said yes
    (src/auth/vencrypt.c:130-131, apple-dh.c:101-102, rsa-aes.c:297-298); there is no
    other place. *)
From Verif Require Import Common Auth_Model.

(* include/common.h:91, username[256] *)
Definition NAME : nat := 256.

(* strncpy and the terminator, src/auth/common.c:58-59: the array; [name] is a string
   without its terminator *)
Definition copy_name (name : list Z) : list Z :=
  firstn (NAME - 1) (firstn NAME (name ++ repeat 0 NAME)) ++ [0].

(* the array when the events have happened; calloc at src/server.c:2003 *)
(* src/auth/common.c:53-60 *)
Definition username (l : list event) : list Z :=
  fold_left (fun a x => match x with AuthCalled _ _ user _ true => copy_name user | _ => a end) l (repeat 0 NAME).

(* src/server.c:2735-2740, nvnc_client_get_auth_username *)
Definition get_auth_username (c : conn) : option (list Z) :=
  let a := username (log c) in
  if hd 0 a =? 0 then None else Some (cstr a).
