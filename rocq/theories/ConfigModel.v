(** Model of proxy/common/src/config.c and proxy/http_coap/src/param.c: reading the configuration of the
    proxy.  No proofs in this file.

    Simplifications: a linked list with pointers to its first and last element is a list; freeing is not
    modelled; several allocations of one function that fail in the same way count as one.
    CONFIG_ENOMEM is [ENOMEM], CONFIG_ELEXICAL is [EBADMSG], CONFIG_ESYNTAX is [EPROTO]. *)
From Verif Require Import Base UriModel HttpModel ClientModel CrossModel.

(** ** Sections and entries *)

(** config_entry_t and config_section_t, config.h 55-70: a name and a value; a name and entries.  The value may be null. *)
Definition entry : Type := (list N * option (list N))%type.
Definition section : Type := (list N * list entry)%type.
Definition config : Type := list section.

(** config_section_find_entry, config.c 804-817. *)
Fixpoint find_entry (es : list entry) (name : list N) : option entry :=
  match es with
  | [] => None
  | e :: es => if str_eq (fst e) name then Some e else find_entry es name
  end.
(** config_find_section, config.c 859-872. *)
Fixpoint find_section (c : config) (name : list N) : option section :=
  match c with
  | [] => None
  | s :: c => if str_eq (fst s) name then Some s else find_section c name
  end.
(** Assignments through the pointers that these return: the first entry of this name, the first section of this name. *)
Fixpoint put_value (es : list entry) (name : list N) (v : option (list N)) : list entry :=
  match es with
  | [] => []
  | e :: es => if str_eq (fst e) name then (fst e, v) :: es else e :: put_value es name v
  end.
Fixpoint put_section (c : config) (name : list N) (es : list entry) : config :=
  match c with
  | [] => []
  | s :: c => if str_eq (fst s) name then (fst s, es) :: c else s :: put_section c name es
  end.

(** config_set, config.c 895-930, with config_add_section, 874-893, config_section_new, 787-802, config_section_add_entry, 819-838, and
    config_entry_new, 747-766.  [m1]: whether the allocations for a section succeed, [m2]: those for an entry, or strdup for the value.
    If the value cannot be replaced, the old one is gone. *)
Definition config_set (m1 m2 : bool) (c : config) (s n v : list N) : config * res unit :=
  match find_section c s with
  | None =>
    if negb m1 then (c, Err ENOMEM) else
    if negb m2 then (c ++ [(s, [])], Err ENOMEM) else
    (c ++ [(s, [(n, Some v)])], Ok tt)
  | Some (_, es) =>
    match find_entry es n with
    | Some _ => if m2 then (put_section c s (put_value es n (Some v)), Ok tt) else (put_section c s (put_value es n None), Err ENOMEM)
    | None => if m2 then (put_section c s (es ++ [(n, Some v)]), Ok tt) else (c, Err ENOMEM)
    end
  end.

(** config_get, config.c 932-947. *)
Definition config_get (c : config) (s n : list N) : option (list N) :=
  match find_section c s with
  | None => None
  | Some (_, es) => match find_entry es n with None => None | Some (_, v) => v end
  end.

(** ** The lexical analyser *)

(** config_parser_token_t, config.c 45-57. *)
Inductive token := TEof | TNone | TEol | TAssign | TLeft | TRight | TId | TNum | TQuote.

(** config_parser_str_t, config.c 72-78: the characters [buf[0]] to [buf[idx - 1]], and [len].  The block has [len] + 1
    bytes, those from [buf[idx]] on are 0. *)
Definition str : Type := (list N * N)%type.

(** config_parser_t, config.c 83-102.  [token_str] is [None] if its buffer is null; the stack begins with its top.
    [p_n] is the number of allocations so far. *)
Record pst := mkpst {
  p_idx : N;
  p_line : N; p_col : N;
  p_pline : N; p_pcol : N;
  p_tline : N; p_tcol : N;
  p_stack : list (list N);
  p_token : token;
  p_str : option str;
  p_section : str;
  p_config : config;
  p_n : N
}.

Definition with_pos (p : pst) (idx line col pline pcol : N) : pst :=
  mkpst idx line col pline pcol (p_tline p) (p_tcol p) (p_stack p) (p_token p) (p_str p) (p_section p) (p_config p) (p_n p).
Definition with_tpos (p : pst) (line col : N) : pst :=
  mkpst (p_idx p) (p_line p) (p_col p) (p_pline p) (p_pcol p) line col (p_stack p) (p_token p) (p_str p) (p_section p) (p_config p) (p_n p).
Definition with_stack (p : pst) (s : list (list N)) : pst :=
  mkpst (p_idx p) (p_line p) (p_col p) (p_pline p) (p_pcol p) (p_tline p) (p_tcol p) s (p_token p) (p_str p) (p_section p) (p_config p) (p_n p).
Definition with_token (p : pst) (t : token) (s : option str) : pst :=
  mkpst (p_idx p) (p_line p) (p_col p) (p_pline p) (p_pcol p) (p_tline p) (p_tcol p) (p_stack p) t s (p_section p) (p_config p) (p_n p).
Definition with_section (p : pst) (s : str) : pst :=
  mkpst (p_idx p) (p_line p) (p_col p) (p_pline p) (p_pcol p) (p_tline p) (p_tcol p) (p_stack p) (p_token p) (p_str p) s (p_config p) (p_n p).
Definition with_config (p : pst) (c : config) : pst :=
  mkpst (p_idx p) (p_line p) (p_col p) (p_pline p) (p_pcol p) (p_tline p) (p_tcol p) (p_stack p) (p_token p) (p_str p) (p_section p) c (p_n p).
Definition count (p : pst) (n : N) : pst :=
  mkpst (p_idx p) (p_line p) (p_col p) (p_pline p) (p_pcol p) (p_tline p) (p_tcol p) (p_stack p) (p_token p) (p_str p) (p_section p) (p_config p) (p_n p + n).

(** Functions on the parser that may fail. *)
Definition mm (A : Type) : Type := pst -> pst * res A.
Definition mret {A} (a : A) : mm A := fun p => (p, Ok a).
Definition mfail {A} (r : res A) : mm A := fun p => (p, r).
Definition mbind {A B} (m : mm A) (k : A -> mm B) : mm B := fun p =>
  let (p, r) := m p in
  match r with Ok a => k a p | Err e => (p, Err e) | UB u => (p, UB u) | OutOfFuel => (p, OutOfFuel) end.
Notation "'let!' x ':=' m 'in' k" := (mbind m (fun x => k)) (at level 200, x pattern, m at level 100, k at level 200, only parsing).
Definition mget : mm pst := fun p => (p, Ok p).
Definition mput (f : pst -> pst) : mm unit := fun p => (f p, Ok tt).

(** CONFIG_PARSER_INIT_STR_LEN and CONFIG_PARSER_DEF_TAB_WIDTH, config.c 43 and 42. *)
Definition INIT_STR_LEN : N := 64.
Definition TAB_WIDTH : N := 4.

Section Parser.
(** [inp]: the block that [in] points to, the characters and a NUL; [mem]: which allocations succeed, by number. *)
Context (inp : list N) (mem : N -> bool).
(** [in_len], an unsigned, config.c 674. *)
Definition in_len : N := (lenN inp - 1) mod two32.

Definition alloc : mm unit := fun p => (count p 1, if mem (p_n p) then Ok tt else Err ENOMEM).

(** config_parser_str_create, config.c 201-212. *)
Definition str_create : mm str := let! _ := alloc in mret ([], INIT_STR_LEN).

(** config_parser_str_append, config.c 225-245: if the buffer is full, it is copied to one of twice the size. *)
Definition str_append (s : str) (c : N) : mm str :=
  let (b, len) := s in
  if len <=? lenN b then
    let new_len := mul32 2 len in
    let! _ := alloc in
    if new_len + 1 <? len then mfail (UB OobWrite) else
    if new_len <? lenN b then mfail (UB OobWrite) else
    mret (b ++ [c], new_len)
  else mret (b ++ [c], len).

(** config_parser_str_copy, config.c 247-265. *)
Fixpoint append_all (s : str) (cs : list N) : mm str :=
  match cs with
  | [] => mret s
  | c :: cs => let! s := str_append s c in append_all s cs
  end.
Definition str_copy (s : str) (cs : list N) : mm str := append_all ([], snd s) cs.

(** config_parser_next, config.c 267-296. *)
Definition p_next : mm N := fun p =>
  match (if p_idx p =? in_len then Ok 0 else rd inp (p_idx p)) with
  | Ok c =>
    let (line, col) :=
      if c =? 10 then (add32 (p_line p) 1, 0)
      else if c =? 9 then (p_line p, mul32 (add32 (p_col p) TAB_WIDTH / TAB_WIDTH) TAB_WIDTH)
      else (p_line p, add32 (p_col p) 1) in
    (with_pos p (add32 (p_idx p) 1) line col (p_line p) (p_col p), Ok c)
  | Err e => (p, Err e)
  | UB u => (p, UB u)
  | OutOfFuel => (p, OutOfFuel)
  end.

(** config_parser_next_skip_ws, config.c 298-315. *)
Fixpoint skip_ws (fuel : nat) : mm N :=
  match fuel with
  | O => mfail OutOfFuel
  | S fuel => let! c := p_next in if c =? 10 then mret c else if is_space c then skip_ws fuel else mret c
  end.

(** config_parser_put_back, config.c 317-325. *)
Definition put_back : mm unit :=
  mput (fun p => if 0 <? p_idx p then with_pos p (p_idx p - 1) (p_pline p) (p_pcol p) (p_pline p) (p_pcol p) else p).

(** config_parser_set_token_pos, config.c 327-339. *)
Definition set_token_pos (c : N) : mm unit :=
  mput (fun p => if c =? 10 then with_tpos p (p_pline p) (add32 (p_pcol p) 1) else with_tpos p (p_line p) (p_col p)).

Definition set_token (t : token) (s : option str) : mm unit := mput (fun p => with_token p t s).

(** The loop for a comment, config.c 363-377. *)
Fixpoint lex_comment (fuel : nat) : mm unit :=
  match fuel with
  | O => mfail OutOfFuel
  | S fuel =>
    let! c := p_next in
    if c =? 10 then set_token TEol None else
    if c =? 0 then set_token TEof None else lex_comment fuel
  end.

(** The loops for identifiers, config.c 401-410, and numbers, 421-430; [ok] is the condition.  The string is in [p_str]. *)
Fixpoint lex_word (ok : N -> bool) (t : token) (fuel : nat) (s : str) (c : N) : mm unit :=
  match fuel with
  | O => mfail OutOfFuel
  | S fuel =>
    if ok c then
      let! s := str_append s c in
      let! _ := set_token t (Some s) in
      let! c := p_next in
      lex_word ok t fuel s c
    else put_back
  end.
Definition id_char (c : N) : bool := is_alpha c || is_digit c || (c =? 95).

(** The loop for a quoted string, config.c 443-461. *)
Fixpoint lex_quote (fuel : nat) (s : str) (pc c : N) : mm unit :=
  match fuel with
  | O => mfail OutOfFuel
  | S fuel =>
    if (c =? 34) && negb (pc =? 92) then mret tt else
    if ((c =? 10) && negb (pc =? 92)) || (c =? 0) then mfail (Err EBADMSG) else
    let! s := str_append s c in
    let! _ := set_token TQuote (Some s) in
    let! c' := p_next in
    lex_quote fuel s c c'
  end.

(** config_parser_lex, config.c 341-464. *)
Definition lex (fuel : nat) : mm unit :=
  let! _ := set_token TNone None in
  let! c := skip_ws fuel in
  let! _ := set_token_pos c in
  if c =? 0 then set_token TEof None else
  if c =? 10 then set_token TEol None else
  if c =? 59 then lex_comment fuel else
  if c =? 61 then set_token TAssign None else
  if c =? 91 then set_token TLeft None else
  if c =? 93 then set_token TRight None else
  if is_alpha c then
    let! _ := set_token TId None in
    let! s := str_create in let! _ := set_token TId (Some s) in lex_word id_char TId fuel s c
  else if is_digit c then
    let! _ := set_token TNum None in
    let! s := str_create in let! _ := set_token TNum (Some s) in lex_word is_digit TNum fuel s c
  else if c =? 34 then
    let! _ := set_token TQuote None in
    let! s := str_create in
    let! _ := set_token TQuote (Some s) in
    let! c := p_next in lex_quote fuel s 0 c
  else mfail (Err EBADMSG).

(** ** The parser *)

Definition is_token (a b : token) : bool :=
  match a, b with
  | TEof, TEof | TNone, TNone | TEol, TEol | TAssign, TAssign | TLeft, TLeft | TRight, TRight | TId, TId | TNum, TNum | TQuote, TQuote => true
  | _, _ => false
  end.
Definition peek (t : token) : mm bool := fun p => (p, Ok (is_token (p_token p) t)).

(** config_parser_stack_push, config.c 171-183, of the token's string; strdup stops at the NUL behind it. *)
Definition push : mm unit := fun p =>
  match p_str p with
  | None => (p, UB NullDeref)
  | Some (b, _) => (let! _ := alloc in mput (fun p => with_stack p (b :: p_stack p))) p
  end.
(** config_parser_stack_pop, config.c 186-199. *)
Definition pop : mm (option (list N)) := fun p =>
  match p_stack p with [] => (p, Ok None) | x :: s => (with_stack p s, Ok (Some x)) end.

(** config_parser_id, _num and _quote, config.c 466-512. *)
Definition parse_word (fuel : nat) (t : token) : mm unit :=
  let! b := peek t in
  if negb b then mfail (Err EPROTO) else
  let! _ := push in lex fuel.

(** config_parser_value, config.c 519-534. *)
Definition parse_value (fuel : nat) : mm unit :=
  let! b := peek TId in if b then parse_word fuel TId else
  let! b := peek TNum in if b then parse_word fuel TNum else
  let! b := peek TQuote in if b then parse_word fuel TQuote else
  mfail (Err EPROTO).

(** config_cb_func, config.c 950-953, which is called with the name and the value, config.c 563: config_set. *)
Definition callback (n v : option (list N)) : mm unit := fun p =>
  match n, v with
  | Some n, Some v =>
    let (c, r) := config_set (mem (p_n p)) (mem (p_n p + 1)) (p_config p) (fst (p_section p)) n v in
    (count (with_config p c) 2, r)
  | _, _ => (p, UB NullDeref)
  end.

(** config_parser_assignment, config.c 536-571. *)
Definition parse_assignment (fuel : nat) : mm unit :=
  let! _ := parse_word fuel TId in
  let! b := peek TAssign in
  if negb b then mfail (Err EPROTO) else
  let! _ := lex fuel in
  let! _ := parse_value fuel in
  let! v := pop in
  let! n := pop in
  callback n v.

(** config_parser_section, config.c 573-609. *)
Definition parse_section (fuel : nat) : mm unit :=
  let! b := peek TLeft in
  if negb b then mfail (Err EPROTO) else
  let! _ := lex fuel in
  let! _ := parse_word fuel TId in
  let! b := peek TRight in
  if negb b then mfail (Err EPROTO) else
  let! n := pop in
  match n with
  | None => mfail (UB NullDeref)
  | Some n =>
    let! p := mget in
    let! s := str_copy (p_section p) n in
    let! _ := mput (fun p => with_section p s) in
    lex fuel
  end.

(** config_parser_expression, config.c 611-641. *)
Definition parse_expression (fuel : nat) : mm unit :=
  let! i := peek TId in
  let! l := peek TLeft in
  let! _ := (if i then parse_assignment fuel else if l then parse_section fuel else mret tt) in
  let! eof := peek TEof in
  let! eol := peek TEol in
  if eof || eol then mret tt else mfail (Err EPROTO).

(** config_parser_statement, config.c 643-654: whether it returns CONFIG_DONE. *)
Definition parse_statement (fuel : nat) : mm bool :=
  let! b := peek TEol in if b then mret false else
  let! b := peek TEof in if b then mret true else
  let! _ := parse_expression fuel in mret false.

(** The loop of config_parser_exec, config.c 681-702. *)
Fixpoint parse_loop (n fuel : nat) : mm unit :=
  match n with
  | O => mfail OutOfFuel
  | S n =>
    let! _ := lex fuel in
    let! done := parse_statement fuel in
    if done then mret tt else parse_loop n fuel
  end.
End Parser.

(** config_parse, config.c 955-967, with config_parser_create, 705-720, and config_parser_exec, 656-703.  [text] is the string, without the
    NUL.  Also returns the configuration, and [line] and [col], if the functions set them. *)
Definition config_parse (mem : N -> bool) (fuel : nat) (c : config) (text : list N) : config * N * N * res unit :=
  if negb (mem 0) then (c, 0, 0, Err ENOMEM) else
  if negb (mem 1) then (c, 0, 0, Err ENOMEM) else
  let (p, r) := parse_loop (text ++ [0]) mem fuel fuel (mkpst 0 1 0 1 0 0 0 [] TNone None ([], INIT_STR_LEN) c 2) in
  match r with
  | Ok _ => (p_config p, 0, 0, r)
  | _ => (p_config p, p_tline p, p_tcol p, r)
  end.

(** ** The parameters of the proxy *)

(** coap_log_level_t, lib/include/coap_log.h 42-50. *)
Inductive log_level := LogError | LogWarn | LogNotice | LogInfo | LogDebug.

(** param_t, param.h 57-68: port, max_log_level, and the names of key, certificate and trust file of the HTTP server and of the CoAP client. *)
Record param := mkparam {
  pa_port : list N;
  pa_level : log_level;
  pa_http_key : list N; pa_http_cert : list N; pa_http_trust : list N;
  pa_coap_key : list N; pa_coap_cert : list N; pa_coap_trust : list N
}.

(** The words of param.c, and the defaults, param.h 39-46. *)
Definition w_port : list N := [112; 111; 114; 116].   (* port *)
Definition w_log_level : list N := [108; 111; 103; 95; 108; 101; 118; 101; 108].   (* log_level *)
Definition w_http_server : list N := [104; 116; 116; 112; 95; 115; 101; 114; 118; 101; 114].   (* http_server *)
Definition w_coap_client : list N := [99; 111; 97; 112; 95; 99; 108; 105; 101; 110; 116].   (* coap_client *)
Definition w_key_file : list N := [107; 101; 121; 95; 102; 105; 108; 101].   (* key_file *)
Definition w_cert_file : list N := [99; 101; 114; 116; 95; 102; 105; 108; 101].   (* cert_file *)
Definition w_trust_file : list N := [116; 114; 117; 115; 116; 95; 102; 105; 108; 101].   (* trust_file *)
Definition w_error : list N := [101; 114; 114; 111; 114].   (* error *)
Definition w_warning : list N := [119; 97; 114; 110; 105; 110; 103].   (* warning *)
Definition w_notice : list N := [110; 111; 116; 105; 99; 101].   (* notice *)
Definition w_info : list N := [105; 110; 102; 111].   (* info *)
Definition w_debug : list N := [100; 101; 98; 117; 103].   (* debug *)
Definition DEF_PORT : list N := [52; 52; 51; 48].   (* 4430 *)
Definition DEF_MAX_LOG_LEVEL : list N := [105; 110; 102; 111].   (* info *)
Definition DEF_HTTP_KEY : list N := [104; 116; 116; 112; 95; 115; 101; 114; 118; 101; 114; 95; 112; 114; 105; 118; 107; 101; 121; 46; 112; 101; 109].   (* http_server_privkey.pem *)
Definition DEF_HTTP_CERT : list N := [104; 116; 116; 112; 95; 115; 101; 114; 118; 101; 114; 95; 99; 101; 114; 116; 46; 112; 101; 109].   (* http_server_cert.pem *)
Definition DEF_HTTP_TRUST : list N := [104; 116; 116; 112; 95; 115; 101; 114; 118; 101; 114; 95; 116; 114; 117; 115; 116; 46; 112; 101; 109].   (* http_server_trust.pem *)
Definition DEF_COAP_KEY : list N := [99; 111; 97; 112; 95; 99; 108; 105; 101; 110; 116; 95; 112; 114; 105; 118; 107; 101; 121; 46; 112; 101; 109].   (* coap_client_privkey.pem *)
Definition DEF_COAP_CERT : list N := [99; 111; 97; 112; 95; 99; 108; 105; 101; 110; 116; 95; 99; 101; 114; 116; 46; 112; 101; 109].   (* coap_client_cert.pem *)
Definition DEF_COAP_TRUST : list N := [99; 111; 97; 112; 95; 99; 108; 105; 101; 110; 116; 95; 116; 114; 117; 115; 116; 46; 112; 101; 109].   (* coap_client_trust.pem *)

(** param_parse_key_val, param.c 51-68.  [m]: whether strdup succeeds. *)
Definition param_key_val (m : bool) (c : config) (s key def : list N) : res (list N) :=
  let v := match config_get c s key with None => def | Some v => v end in
  if m then Ok v else Err EOTHER.

(** param_parse_log_level, param.c 70-108. *)
Definition param_log_level (c : config) : res log_level :=
  let v := match config_get c [] w_log_level with None => DEF_MAX_LOG_LEVEL | Some v => v end in
  if str_eq v w_error then Ok LogError else
  if str_eq v w_warning then Ok LogWarn else
  if str_eq v w_notice then Ok LogNotice else
  if str_eq v w_info then Ok LogInfo else
  if str_eq v w_debug then Ok LogDebug else Err EOTHER.

(** param_parse, param.c 110-200.  [pm]: which of its own calls of strdup succeed. *)
Definition param_parse (mem : N -> bool) (fuel : nat) (pm : N -> bool) (text : list N) : res param :=
  let '(c, _, _, r) := config_parse mem fuel [] text in
  match r with
  | Ok _ =>
    let* port := param_key_val (pm 0) c [] w_port DEF_PORT in
    let* level := param_log_level c in
    let* hk := param_key_val (pm 1) c w_http_server w_key_file DEF_HTTP_KEY in
    let* hc := param_key_val (pm 2) c w_http_server w_cert_file DEF_HTTP_CERT in
    let* ht := param_key_val (pm 3) c w_http_server w_trust_file DEF_HTTP_TRUST in
    let* ck := param_key_val (pm 4) c w_coap_client w_key_file DEF_COAP_KEY in
    let* cc := param_key_val (pm 5) c w_coap_client w_cert_file DEF_COAP_CERT in
    let* ct := param_key_val (pm 6) c w_coap_client w_trust_file DEF_COAP_TRUST in
    Ok (mkparam port level hk hc ht ck cc ct)
  | Err _ => Err EOTHER
  | UB u => UB u
  | OutOfFuel => OutOfFuel
  end.

(** param_create, param.c 202-239, with util_load_txt_file, util.c 117-151: [file] are the bytes of the file, if it can be read and loaded.  The string ends at
    the first NUL.  On failure *param is cleared by param_destroy, param.c 241-272. *)
Definition param_create (mem : N -> bool) (fuel : nat) (pm : N -> bool) (file : option (list N)) : res param :=
  match file with
  | None => Err EOTHER
  | Some f => let* text := cstr (f ++ [0]) in param_parse mem fuel pm text
  end.

(** config_str, config.c 104-113, and config_strerr, config.c 115-121, for the number of an error; -error overflows for
    INT_MIN. *)
Inductive config_text := XOk | XInvalid | XMemory | XIo | XLexical | XSyntax | XUnknown.
Definition config_str : list config_text := [XOk; XInvalid; XMemory; XIo; XLexical; XSyntax; XUnknown].
Definition config_strerr (e : Z) : res config_text :=
  if (e =? -2147483648)%Z then UB BadArith else
  let e := (- e)%Z in
  if (e <? 0)%Z || (6 <? e)%Z then Ok XUnknown else
  match nth_error config_str (Z.to_nat e) with Some t => Ok t | None => UB OobRead end.
