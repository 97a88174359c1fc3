(** The server's name and the ServerInit message: src/server.c. *)
From Verif Require Import Common Pixels_Model.

(* src/server.c:2826-2830, nvnc_set_name: the array name[256] afterwards; [name] is
   the string without its NUL *)
Definition nvnc_set_name (name : list Z) : list Z :=
  let copied := firstn 256 (name ++ repeat 0 256) (* strncpy pads with NUL *) in
  firstn 255 copied ++ [0].

(* include/rfb-proto.h:171-183: the 16 bytes of a pixel format, after htons at
   src/server.c:465-467 *)
Definition pixel_format_bytes (f : pixfmt) : list Z :=
  [bits_per_pixel f mod 256; depth f mod 256; big_endian_flag f mod 256; true_colour_flag f mod 256] ++
  be 2 (red_max f) ++ be 2 (green_max f) ++ be 2 (blue_max f) ++
  [red_shift f mod 256; green_shift f mod 256; blue_shift f mod 256; 0; 0; 0].

(* src/server.c:420-478, send_server_init_message; [buffer] is the displayed
   framebuffer's width, height and format, None without display or buffer.
   The message and the client's new pixel format; None if the client is closed. *)
Definition send_server_init_message (name : list Z) (buffer : option (Z * Z * Z)) : option (list Z * pixfmt) :=
  let name := cstr name in
  match buffer with
  | None => None
  | Some (width, height, code) =>
      match pixfmt_from_fourcc code with
      | None => None
      | Some f =>
          let f := if bits_per_pixel f =? 24
                   then mk_fmt 32 (depth f) (big_endian_flag f) (true_colour_flag f) (red_max f) (green_max f) (blue_max f)
                               (red_shift f) (green_shift f) (blue_shift f)
                   else f in
          Some (be 2 width ++ be 2 height ++ pixel_format_bytes f ++ be 4 (zlen name) ++ name, f)
      end
  end.
