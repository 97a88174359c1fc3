(** Model of src/stream/ws/http.c and src/stream/ws/handshake.c.

    Strings are the bytes before the terminating NUL; a position in the input is
    represented by the bytes from there to the end, so the end of the list is
    the NUL.  Allocation does not fail. *)
From Verif Require Import Common Base64_Model.

(* src/stream/ws/http.c:128 *)
Definition SPACE : Z := 32.
(* src/stream/ws/http.c:128 *)
Definition TAB : Z := 9.
(* src/stream/ws/http.c:81-83 *)
Definition CR : Z := 13.
(* src/stream/ws/http.c:81-83 *)
Definition LF : Z := 10.
(* src/stream/ws/http.c:81-83 *)
Definition SLASH : Z := 47.
(* src/stream/ws/http.c:81-83 *)
Definition QUESTION : Z := 63.
(* src/stream/ws/http.c:81-83 *)
Definition AMP : Z := 38.
(* src/stream/ws/http.c:81-83 *)
Definition EQSIGN : Z := 61.
(* src/stream/ws/http.c:176 *)
Definition COLON : Z := 58.
(* src/stream/ws/http.c:147 *)
Definition DASH : Z := 45.

(* <ctype.h> in the C locale.  [char] is signed, so bytes above 127 reach these
   functions as negative values, which the C standard leaves undefined and
   glibc answers with 0; modelled as glibc does. *)
(* src/stream/ws/http.c:87 *)
Definition isprint (c : Z) : bool := (32 <=? c) && (c <=? 126).
(* part of isalnum, src/stream/ws/http.c:147 *)
Definition isupper (c : Z) : bool := (65 <=? c) && (c <=? 90).
(* part of isalnum, src/stream/ws/http.c:147 *)
Definition islower (c : Z) : bool := (97 <=? c) && (c <=? 122).
(* part of isalnum, src/stream/ws/http.c:147 *)
Definition isdigit (c : Z) : bool := (48 <=? c) && (c <=? 57).
(* src/stream/ws/http.c:147 *)
Definition isalnum (c : Z) : bool := isupper c || islower c || isdigit c.
(* src/stream/ws/handshake.c:33 *)
Definition isspace (c : Z) : bool := (c =? 32) || ((9 <=? c) && (c <=? 13)).
(* src/stream/ws/handshake.c:34 *)
Definition tolower (c : Z) : Z := if isupper c then c + 32 else c.

(* strcasecmp(a, b) == 0 *)
(* src/stream/ws/http.c:257, 350, src/stream/ws/handshake.c:52-60 *)
Fixpoint strcaseeq (a b : list Z) : bool :=
  match a, b with
  | [], [] => true
  | x :: a, y :: b => (tolower x =? tolower y) && strcaseeq a b
  | _, _ => false
  end.

(* the longest prefix whose characters satisfy [p], and the rest (strspn and
   the counting loops of http.c) *)
(* src/stream/ws/http.c:90-96, 103, 128, 150-156, 182 *)
Fixpoint span (p : Z -> bool) (l : list Z) : list Z * list Z :=
  match l with
  | [] => ([], [])
  | c :: t => if p c then let (a, b) := span p t in (c :: a, b) else ([], l)
  end.

(* src/stream/ws/http.c:24-36, enum httplex_token_type, with the token's value;
   HTTPLEX_END is never produced *)
Inductive token :=
| T_SOLIDUS | T_CR | T_LF | T_WS | T_LITERAL (v : list Z) | T_KEY (v : list Z)
| T_VALUE (v : list Z) | T_QUERY | T_AMPERSAND | T_EQ.

(* src/stream/ws/http.c:43-47 *)
Inductive lex_state := LS_REQUEST | LS_KEY | LS_VALUE.

(* src/stream/ws/http.c:49-58, struct httplex; [cur] is the current token (the
   zeroed one before the first is a solidus), [nxt] is next_pos (NULL before the
   first token) *)
Record lexer := mk_lex {
  lstate : lex_state;
  cur : token;
  lpos : list Z;
  nxt : option (list Z);
  accepted : bool }.

(* src/stream/ws/http.c:60-72, httplex_init *)
Definition httplex_init (input : list Z) : lexer :=
  mk_lex LS_REQUEST T_SOLIDUS input None true.

(* src/stream/ws/http.c:79-88 *)
Definition is_literal (c : Z) : bool :=
  if (c =? SLASH) || (c =? CR) || (c =? LF) || (c =? SPACE) || (c =? TAB)
     || (c =? QUESTION) || (c =? AMP) || (c =? EQSIGN)
  then false else isprint c.

(* src/stream/ws/http.c:128, 182 *)
Definition is_blank (c : Z) : bool := (c =? SPACE) || (c =? TAB).

(* src/stream/ws/http.c:98-143, httplex__classify_request_token (with
   httplex__literal_length, 90-96): the token and next_pos *)
Definition classify_request (pos : list Z) : option (token * list Z) :=
  match pos with
  | [] => None (* NUL is not a literal *)
  | c :: t =>
      if c =? SLASH then Some (T_SOLIDUS, snd (span (Z.eqb SLASH) pos))
      else if c =? CR then Some (T_CR, t)
      else if c =? LF then Some (T_LF, t)
      else if c =? QUESTION then Some (T_QUERY, t)
      else if c =? AMP then Some (T_AMPERSAND, t)
      else if c =? EQSIGN then Some (T_EQ, t)
      else if is_blank c then Some (T_WS, snd (span is_blank pos))
      else if is_literal c then
        let (v, r) := span is_literal pos in Some (T_LITERAL v, r)
      else None
  end.

(* src/stream/ws/http.c:145-148 *)
Definition is_key_char (c : Z) : bool := isalnum c || (c =? DASH).

(* src/stream/ws/http.c:158-190, httplex__classify_key_token (with
   httplex__key_length, 150-156) *)
Definition classify_key (pos : list Z) : option (token * list Z) :=
  match pos with
  | [] => None
  | c :: t =>
      if c =? CR then Some (T_CR, t)
      else if c =? LF then Some (T_LF, t)
      else if is_key_char c then
        let (k, r) := span is_key_char pos in
        match r with
        | d :: r' => if d =? COLON then Some (T_KEY k, snd (span is_blank r')) else None
        | [] => None
        end
      else None
  end.

(* src/stream/ws/http.c:192-206, httplex__classify_value_token *)
Definition classify_value (pos : list Z) : option (token * list Z) :=
  let (v, r) := span (fun c => negb (c =? CR)) pos in
  match r with
  | a :: b :: r' => if (a =? CR) && (b =? LF) then Some (T_VALUE v, r') else None
  | _ => None
  end.

(* src/stream/ws/http.c:208-221 *)
Definition classify (s : lex_state) (pos : list Z) : option (token * list Z) :=
  match s with
  | LS_REQUEST => classify_request pos
  | LS_KEY => classify_key pos
  | LS_VALUE => classify_value pos
  end.

(* src/stream/ws/http.c:223-240, httplex_next_token *)
Definition next_token (l : lexer) : lexer * option token :=
  if negb (accepted l) then (l, Some (cur l))
  else
    let pos := match nxt l with None => lpos l | Some p => p end in
    match classify (lstate l) pos with
    | None => (mk_lex (lstate l) (cur l) pos (nxt l) (accepted l), None)
    | Some (t, n) => (mk_lex (lstate l) t pos (Some n) false, Some t)
    end.

(* src/stream/ws/http.c:242-246 *)
Definition accept (l : lexer) : lexer := mk_lex (lstate l) (cur l) (lpos l) (nxt l) true.

(* lex->state = s, src/stream/ws/http.c:358, 362, 377, 381, 396, 412, 443 *)
Definition set_state (s : lex_state) (l : lexer) : lexer :=
  mk_lex s (cur l) (lpos l) (nxt l) (accepted l).

(* src/stream/ws/http.c:248-261, http__literal *)
Definition http_literal (str : list Z) (l : lexer) : lexer * bool :=
  match next_token l with
  | (l, Some (T_LITERAL v)) => if strcaseeq str v then (accept l, true) else (l, false)
  | (l, _) => (l, false)
  end.

(* src/stream/ws/http.c:24-36, those a parser asks for *)
Inductive ttype := K_SOLIDUS | K_CR | K_LF | K_WS | K_LITERAL | K_QUERY | K_AMPERSAND | K_EQ.
(* tok->type == type, src/stream/ws/http.c:279 *)
Definition has_type (k : ttype) (t : token) : bool :=
  match k, t with
  | K_SOLIDUS, T_SOLIDUS | K_CR, T_CR | K_LF, T_LF | K_WS, T_WS
  | K_LITERAL, T_LITERAL _ | K_QUERY, T_QUERY | K_AMPERSAND, T_AMPERSAND | K_EQ, T_EQ => true
  | _, _ => false
  end.

(* src/stream/ws/http.c:273-283, http__peek *)
Definition http_peek (k : ttype) (l : lexer) : lexer * bool :=
  match next_token l with
  | (l, None) => (l, false)
  | (l, Some t) => (l, has_type k t)
  end.

(* src/stream/ws/http.c:285-288, http__expect *)
Definition http_expect (k : ttype) (l : lexer) : lexer * bool :=
  let (l, ok) := http_peek k l in if ok then (accept l, true) else (l, false).

(* C's && on parser steps *)
(* e.g. src/stream/ws/http.c:326-327 *)
Definition andthen (a b : lexer -> lexer * bool) (l : lexer) : lexer * bool :=
  let (l, ok) := a l in if ok then b l else (l, false).
Infix ">&" := andthen (at level 58, left associativity).

(* src/stream/ws/http.c:290-295, http__version *)
Definition http_version : lexer -> lexer * bool :=
  http_literal (codes "HTTP"%string) >& http_expect K_SOLIDUS >& http_literal (codes "1.1"%string).

(* src/stream/ws/http.c:297-313, http__url_path.  [fuel] bounds the recursion;
   every level consumes at least one byte, and the fuel given below is more than
   the length of the input. *)
Fixpoint http_url_path (fuel : nat) (l : lexer) : res (lexer * bool) :=
  match fuel with
  | O => Fault Diverges
  | S fuel =>
      let (l, ok) := http_expect K_SOLIDUS l in
      if negb ok then Ok (l, false)
      else
        match next_token l with
        | (l, None) => Ok (l, false)
        | (l, Some (T_LITERAL _)) =>
            let (l, more) := http_peek K_SOLIDUS (accept l) in
            if more then http_url_path fuel l else Ok (l, true)
        | (l, Some t) => Ok (l, has_type K_WS t)
        end
  end.

(* src/stream/ws/http.c:315-322, http__url_query ( && binds tighter than ?: ) *)
Fixpoint http_url_query (fuel : nat) (l : lexer) : res (lexer * bool) :=
  match fuel with
  | O => Fault Diverges
  | S fuel =>
      let (l, ok) := (http_expect K_LITERAL >& http_expect K_EQ >& http_expect K_LITERAL
                      >& http_expect K_AMPERSAND) l in
      if ok then http_url_query fuel l else Ok (l, true)
  end.

(* src/stream/ws/http.c:324-328, http__url ( (path && query) ? .. : 1 ) *)
Definition http_url (fuel : nat) (l : lexer) : res (lexer * bool) :=
  let* (l, ok) := http_url_path fuel l in
  let (l, ok) := if ok then http_expect K_QUERY l else (l, false) in
  if ok then http_url_query fuel l else Ok (l, true).

(* src/stream/ws/http.c:330-339, http__request (http__method/http__get 263-271) *)
Definition http_request (fuel : nat) (l : lexer) : res (lexer * bool) :=
  let (l, ok) := (http_literal (codes "GET"%string) >& http_expect K_WS) l in
  if negb ok then Ok (l, false)
  else
    let* (l, ok) := http_url fuel l in
    if negb ok then Ok (l, false)
    else Ok ((http_expect K_WS >& http_version >& http_expect K_CR >& http_expect K_LF) l).

(* include/stream/http.h:19-34, struct http_req; [fields] the completed entries
   of field[], so field_index is its length.  content_length is stored but never
   used; it is not modelled. *)
Definition HTTP_FIELD_INDEX_MAX : nat := 32.
(* include/stream/http.h:28-34 *)
Record http_req := mk_req {
  fields : list (list Z * list Z);
  content_type : option (list Z);
  req_header_length : nat }.

(* src/stream/ws/http.c:341-354, http__expect_key *)
Definition http_expect_key (key : list Z) (l : lexer) : lexer * bool :=
  match next_token l with
  | (l, Some (T_KEY v)) => if strcaseeq v key then (accept l, true) else (l, false)
  | (l, _) => (l, false)
  end.

(* next token must be a value: the shared part of 362-368, 381-387, 412-419 *)
(* src/stream/ws/http.c:362-368 *)
Definition next_value (l : lexer) : lexer * option (list Z) :=
  match next_token (set_state LS_VALUE l) with
  | (l, Some (T_VALUE v)) => (l, Some v)
  | (l, _) => (l, None)
  end.

(* src/stream/ws/http.c:356-373, http__content_length *)
Definition http_content_length (l : lexer) : lexer * bool :=
  let (l, ok) := http_expect_key (codes "Content-Length"%string) (set_state LS_KEY l) in
  if negb ok then (l, false)
  else match next_value l with
       | (l, Some _) => (accept l, true)
       | (l, None) => (l, false)
       end.

(* src/stream/ws/http.c:375-392, http__content_type *)
Definition http_content_type (r : http_req) (l : lexer) : http_req * lexer * bool :=
  let (l, ok) := http_expect_key (codes "Content-Type"%string) (set_state LS_KEY l) in
  if negb ok then (r, l, false)
  else match next_value l with
       | (l, Some v) => (mk_req (fields r) (Some v) (req_header_length r), accept l, true)
       | (l, None) => (r, l, false)
       end.

(* src/stream/ws/http.c:394-430, http__field_key, http__field_value,
   http__field_kv.  field[field_index].key is stored without a check; a key
   whose value is missing stays behind in the table (and is freed later), which
   the model does not keep. *)
Definition http_field_kv (r : http_req) (l : lexer) : res (http_req * lexer * bool) :=
  match next_token (set_state LS_KEY l) with
  | (l, Some (T_KEY k)) =>
      if (length (fields r) <? HTTP_FIELD_INDEX_MAX)%nat then
        match next_value (accept l) with
        | (l, Some v) => Ok (mk_req (fields r ++ [(k, v)]) (content_type r) (req_header_length r), accept l, true)
        | (l, None) => Ok (r, l, false)
        end
      else Fault OobWrite
  | (l, _) => Ok (r, l, false)
  end.

(* src/stream/ws/http.c:432-437, http__header_kv *)
Definition http_header_kv (r : http_req) (l : lexer) : res (http_req * lexer * bool) :=
  let (l, ok) := http_content_length l in
  if ok then Ok (r, l, true)
  else
    let '(r, l, ok) := http_content_type r l in
    if ok then Ok (r, l, true) else http_field_kv r l.

(* src/stream/ws/http.c:441, the while loop *)
Fixpoint http_header_loop (fuel : nat) (r : http_req) (l : lexer) : res (http_req * lexer) :=
  match fuel with
  | O => Fault Diverges
  | S fuel =>
      let* x := http_header_kv r l in
      let '(r, l, ok) := x in
      if ok then http_header_loop fuel r l else Ok (r, l)
  end.

(* src/stream/ws/http.c:439-448, http__header *)
Definition http_header (fuel : nat) (r : http_req) (l : lexer) : res (http_req * lexer * bool) :=
  let* (r, l) := http_header_loop fuel r l in
  let (l, cr) := http_expect K_CR (set_state LS_KEY l) in
  if cr then let (l, lf) := http_expect K_LF l in Ok (r, l, lf)
  else Ok (r, l, true).

(* src/stream/ws/http.c:450-473, http_req_parse: [None] for -1 *)
Definition http_req_parse (input : list Z) : res (option http_req) :=
  let fuel := S (length input) in
  let* (l, ok) := http_request fuel (httplex_init input) in
  if negb ok then Ok None
  else
    let* x := http_header fuel (mk_req [] None 0) l in
    let '(r, l, ok) := x in
    if negb ok then Ok None
    else match nxt l with
         | None => Fault NullDeref
         | Some n => Ok (Some (mk_req (fields r) (content_type r) (length input - length n)%nat))
         end.

(** ** handshake.c *)

(* src/stream/ws/handshake.c:30-36, tolower_and_remove_ws.  On a white-space
   character neither pointer moves and the loop never ends. *)
Fixpoint tolower_and_remove_ws (src : list Z) : res (list Z) :=
  match src with
  | [] => Ok []
  | c :: t =>
      if isspace c then Fault Diverges
      else let* r := tolower_and_remove_ws t in Ok (tolower c :: r)
  end.

(* part of strstr, src/stream/ws/handshake.c:73 *)
Fixpoint starts_with (needle hay : list Z) : bool :=
  match needle, hay with
  | [], _ => true
  | x :: n, y :: h => (x =? y) && starts_with n h
  | _, [] => false
  end.

(* strstr(hay, needle) != NULL *)
(* src/stream/ws/handshake.c:73, 76 *)
Fixpoint strstr (hay needle : list Z) : bool :=
  starts_with needle hay ||
  match hay with [] => false | _ :: t => strstr t needle end.

(* snprintf into a buffer of [n] bytes: the string stored *)
(* src/stream/ws/handshake.c:56, 61, 90 *)
Definition snprintf_trunc (n : nat) (s : list Z) : list Z := firstn (n - 1) s.

(* src/stream/ws/handshake.c:28 *)
Definition magic_uuid : list Z := codes "258EAFA5-E914-47DA-95CA-C5AB0DC85B11"%string.
(* src/stream/ws/handshake.c:91-96 *)
Definition CRLF : list Z := [CR; LF].
(* src/stream/ws/handshake.c:56, 61 *)
Definition COMMA : Z := 44.

(* src/stream/ws/handshake.c:46-65: scan of the fields; (challenge, protocols,
   versions) *)
Fixpoint scan_fields (fs : list (list Z * list Z)) (ch : option (list Z)) (pr ve : list Z)
  : res (option (list Z) * list Z * list Z) :=
  match fs with
  | [] => Ok (ch, pr, ve)
  | (k, v) :: fs =>
      let ch := if strcaseeq k (codes "Sec-WebSocket-Key"%string) then Some v else ch in
      let* pr := if strcaseeq k (codes "Sec-WebSocket-Protocol"%string)
                 then tolower_and_remove_ws (snprintf_trunc 256 (pr ++ v ++ [COMMA]))
                 else Ok pr in
      let* ve := if strcaseeq k (codes "Sec-WebSocket-Version"%string)
                 then tolower_and_remove_ws (snprintf_trunc 256 (ve ++ v ++ [COMMA]))
                 else Ok ve in
      scan_fields fs ch pr ve
  end.

Section Sha1.
(* SHA-1 is provided by nettle *)
Variable sha1 : list Z -> list Z.

(* src/crypto/nettle/hash.c:92-100, crypto_hash_many: stops at the first empty
   entry *)
Fixpoint hash_input (entries : list (list Z)) : list Z :=
  match entries with
  | [] => []
  | [] :: _ => []
  | e :: t => e ++ hash_input t
  end.

(* src/stream/ws/handshake.c:87-99: the reply text *)
Definition handshake_reply (challenge : list Z) (have_protocols have_versions : bool) : list Z :=
  codes "HTTP/1.1 101 Switching Protocols"%string ++ CRLF ++
  codes "Upgrade: websocket"%string ++ CRLF ++
  codes "Connection: Upgrade"%string ++ CRLF ++
  codes "Sec-WebSocket-Accept: "%string ++
    cstr (base64_encode (sha1 (hash_input [challenge; magic_uuid]))) ++ CRLF ++
  (if have_protocols then codes "Sec-WebSocket-Protocol: char"%string ++ CRLF else []) ++
  (if have_versions then codes "Sec-WebSocket-Version: 13"%string ++ CRLF else []) ++
  CRLF.

(* src/stream/ws/handshake.c:39-106, ws_handshake with output_maxlen 512 *)
Definition ws_handshake (input : list Z) : res (option (Z * list Z)) :=
  let* r := http_req_parse input in
  match r with
  | None => Ok None
  | Some req =>
      let* x := scan_fields (fields req) None [COMMA] [COMMA] in
      let '(ch, pr, ve) := x in
      match ch with
      | None => Ok None
      | Some challenge =>
          let hp := negb (length pr =? 1)%nat in
          let hv := negb (length ve =? 1)%nat in
          if hp && negb (strstr pr (codes ",chat,"%string)) then Ok None
          else if hv && negb (strstr ve (codes ",13,"%string)) then Ok None
          else
            let out := handshake_reply challenge hp hv in
            if (length out <? 512)%nat
            then Ok (Some (Z.of_nat (req_header_length req), out))
            else Ok None
      end
  end.
End Sha1.
