(** The rating of buffer formats: the end of src/pixels.c and of src/server.c.

    Doubles are exact: a rating is a fraction.  The constants of libdrm are those of
    drm_fourcc.h. *)
From Verif Require Import Common Pixels_Model.

(* src/pixels.c:692-698, get_format_depth *)
Definition get_format_depth (format : Z) : Z :=
  match pixfmt_from_fourcc format with Some f => depth f | None => 0 end.

(* src/pixels.c:717-731, rate_format_by_depth, in thirtieths *)
Definition rate_format_by_depth (format target_depth : Z) : Z :=
  let d := get_format_depth format in
  if d =? 0 then 0
  else if d >=? target_depth then target_depth + 30 - d
  else d.

(* src/pixels.c:733-751, format_has_alpha; nothing is masked *)
Definition format_has_alpha (format : Z) : bool :=
  existsb (fun n => format =? fourcc n)
    ["RA30"; "BA30"; "AR30"; "AB30"; "RA24"; "BA24"; "AR24"; "AB24"; "RA12"; "BA12"; "AR12"; "AB12"]%string.

(* src/pixels.c:755-762, rfb_pixfmt_depth *)
Definition rfb_pixfmt_depth (f : pixfmt) : Z := popcount (red_max f) + popcount (green_max f) + popcount (blue_max f).

(* src/pixels.c:30-33, fourcc_mod_get_vendor *)
Definition vendor (modifier : Z) : Z := Z.land (Z.shiftr modifier 56) 255.

(* src/pixels.c:765-769, amd_format_modifier_is_allowed: AMD_FMT_MOD_GET(DCC), bit 13,
   and DCC_RETILE, bit 14 *)
Definition amd_format_modifier_is_allowed (modifier : Z) : bool :=
  negb (Z.testbit modifier 13) && negb (Z.testbit modifier 14).

(* src/pixels.c:771-779, format_modifier_allow_list: linear, and vendor 1's tilings *)
Definition format_modifier_allow_list : list Z := [0; 2 ^ 56 + 1; 2 ^ 56 + 2; 2 ^ 56 + 3].

(* src/pixels.c:781-791, format_modifier_is_allowed; AMD is vendor 2 *)
Definition format_modifier_is_allowed (modifier : Z) : bool :=
  if vendor modifier =? 2 then amd_format_modifier_is_allowed modifier
  else existsb (Z.eqb modifier) format_modifier_allow_list.

(* include/pixels.h:24-27, enum format_rating_flags *)
Record rating_flags := mk_flags { need_alpha : bool; prefer_linear : bool }.

(* what is returned: src/pixels.c:821-824 *)
Record fraction := mk_frac { num : Z; den : Z }.

(* src/pixels.c:793-825, rate_pixel_format *)
Definition rate_pixel_format (format modifier : Z) (flags : rating_flags) (target_depth : Z) : fraction :=
  let depth_rating := rate_format_by_depth format target_depth in
  if depth_rating =? 0 then mk_frac 0 1
  else if negb (format_modifier_is_allowed modifier) then mk_frac 0 1
  else
    let linear_rating := if modifier =? 0 then 1 else 0 in
    let alpha := format_has_alpha format in
    if need_alpha flags && negb alpha then mk_frac 0 1
    else
      let alpha_rating := if need_alpha flags then (if alpha then 1 else 0) else if alpha then 0 else 1 in
      let linear_weight := if prefer_linear flags then 10 else 0 in
      mk_frac (100 * depth_rating + linear_weight * linear_rating * 30 + alpha_rating * 30)
              ((100 + linear_weight + 1) * 30).

(* src/server.c:2951-2963, find_highest_client_depth: the clients' pixel formats *)
Definition find_highest_client_depth (clients : list pixfmt) : Z :=
  let m := fold_left (fun m f => if rfb_pixfmt_depth f >? m then rfb_pixfmt_depth f else m) clients 0 in
  if negb (m =? 0) then m else 24.

(* src/server.c:2969-2980, nvnc_rate_pixel_format; [simple] is for NVNC_FB_SIMPLE *)
Definition nvnc_rate_pixel_format (clients : list pixfmt) (simple : bool) (format modifier : Z) : fraction :=
  if simple && negb (modifier =? 0) then mk_frac 0 1
  else rate_pixel_format format modifier (mk_flags false false) (find_highest_client_depth clients).

(* src/server.c:2982-2993, nvnc_rate_cursor_pixel_format *)
Definition nvnc_rate_cursor_pixel_format (clients : list pixfmt) (simple : bool) (format modifier : Z) : fraction :=
  if simple && negb (modifier =? 0) then mk_frac 0 1
  else rate_pixel_format format modifier (mk_flags true false) (find_highest_client_depth clients).
