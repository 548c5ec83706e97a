(** Model of proxy/common/src/cross.c.  No proofs in this file.

    The HTTP messages given are those of http_msg_parse: start line, names and values are there
    and have no NUL.  The memory allocations of the HTTP library succeed.  Those of the URI
    library and of the CoAP library may fail, as [xmem] says. *)
From Verif Require Import Base BufModel UriModel HttpModel MsgModel ClientModel.

(** Which allocations succeed: those of a call of uri_parse; that of an option, given the options
    there are; that of a payload. *)
Record xmem := mkxmem { x_uri : N -> bool; x_op : list op -> op -> bool; x_payload : list N -> bool }.

(** Results of functions that also set [*code], the status of the HTTP response. *)
Inductive cres (A : Type) := COk (a : A) | CErr (code : N) (e : errno) | CUB (u : ubkind) | CFuel.
Arguments COk {A}. Arguments CErr {A}. Arguments CUB {A}. Arguments CFuel {A}.
Definition cbind {A B} (r : cres A) (k : A -> cres B) : cres B :=
  match r with COk a => k a | CErr c e => CErr c e | CUB u => CUB u | CFuel => CFuel end.
Definition coded {A} (code : N) (r : res A) : cres A :=
  match r with Ok a => COk a | Err e => CErr code e | UB u => CUB u | OutOfFuel => CFuel end.

(** Option numbers and codes, lib/include/coap_msg.h 100-190. *)
Definition OP_URI_HOST : N := 3.
Definition OP_ETAG : N := 4.
Definition OP_URI_PORT : N := 7.
Definition OP_MAX_AGE : N := 14.
Definition OP_URI_QUERY : N := 15.
Definition OP_ACCEPT : N := 17.
Definition M_DELETE : N := 4.
Definition MAX_PAYLOAD_LEN : N := 1024.

(** Strings. *)
Definition s_GET : list N := [71; 69; 84].
Definition s_POST : list N := [80; 79; 83; 84].
Definition s_PUT : list N := [80; 85; 84].
Definition s_DELETE : list N := [68; 69; 76; 69; 84; 69].
Definition s_coap : list N := [99; 111; 97; 112].
Definition s_coaps : list N := [99; 111; 97; 112; 115].
Definition s_etag : list N := [69; 116; 97; 103].
Definition s_cache_control : list N := [67; 97; 99; 104; 101; 45; 67; 111; 110; 116; 114; 111; 108].
Definition s_accept : list N := [65; 99; 99; 101; 112; 116].
Definition s_text_plain : list N := [116; 101; 120; 116; 47; 112; 108; 97; 105; 110].
Definition s_max_age : list N := [109; 97; 120; 45; 97; 103; 101; 61].
Definition s_http11 : list N := [72; 84; 84; 80; 47; 49; 46; 49].

(** The text of %u and %zu. *)
Fixpoint dec_from (fuel : nat) (n : N) : list N :=
  match fuel with
  | O => []
  | S fuel => if n <? 10 then [48 + n] else dec_from fuel (n / 10) ++ [48 + n mod 10]
  end.
Definition dec_text (n : N) : list N := dec_from 20 n.

(** sscanf(s, "%u", &val) as glibc has it: white space, a sign, digits; strtoul, limited to the range
    of unsigned long, and stored as 32 bits.  [None] if nothing is stored. *)
Definition scan_dec (s : list N) : option N :=
  let (neg, s) := sign_of (drop_ws s) in
  match digits_of dec_digit s with
  | [] => None
  | ds =>
    let v := value_of 10 ds in
    Some (Z.to_N ((if (18446744073709551615 <? v)%Z then 18446744073709551615 else if neg then - v else v) mod 4294967296)%Z)
  end.

(** strcmp(a, b) == 0. *)
Definition str_eq (a b : list N) : bool := if list_eq_dec N.eq_dec a b then true else false.

(** A prefix: what follows it. *)
Fixpoint strip_prefix (p s : list N) : option (list N) :=
  match p, s with
  | [], _ => Some s
  | a :: p, b :: s => if a =? b then strip_prefix p s else None
  | _ :: _, [] => None
  end.
(** strstr: what follows the first occurrence of [p] in [s]. *)
Fixpoint str_str (p s : list N) : option (list N) :=
  match strip_prefix p s with
  | Some t => Some t
  | None => match s with [] => None | _ :: s => str_str p s end
  end.

(** cross_http_resp_code_to_str, cross.c 57-73. *)
Definition cross_http_resp_code_to_str (code : N) : list N :=
  if code =? 400 then [66; 97; 100; 32; 82; 101; 113; 117; 101; 115; 116] else                                          (* Bad Request *)
  if code =? 406 then [78; 111; 116; 32; 65; 99; 99; 101; 112; 116; 97; 98; 108; 101] else                              (* Not Acceptable *)
  if code =? 500 then [73; 110; 116; 101; 114; 110; 97; 108; 32; 83; 101; 114; 118; 101; 114; 32; 69; 114; 114; 111; 114] else (* Internal Server Error *)
  if code =? 501 then [78; 111; 116; 32; 73; 109; 112; 108; 101; 109; 101; 110; 116; 101; 100] else                      (* Not Implemented *)
  if code =? 502 then [66; 97; 100; 32; 71; 97; 116; 101; 119; 97; 121] else                                            (* Bad Gateway *)
  [40; 85; 110; 107; 110; 111; 119; 110; 41].                                                                           (* (Unknown) *)

(** cross_method_http_to_coap, cross.c 86-118. *)
Definition cross_method (m : msg) (str : list N) : cres msg :=
  if str_eq str s_GET then coded 0 (set_code m CL_REQ M_GET) else
  if str_eq str s_POST then coded 0 (set_code m CL_REQ M_POST) else
  if str_eq str s_PUT then coded 0 (set_code m CL_REQ M_PUT) else
  if str_eq str s_DELETE then coded 0 (set_code m CL_REQ M_DELETE) else
  CErr 501 EBADMSG.

(** cross_status_coap_to_http, cross.c 130-193: the second and third field of the start
    line; the first is "HTTP/1.1".  The cases fall through. *)
Definition status_server (d : N) : option (list N * list N) :=
  if d =? 0 then Some ([53; 48; 48], [73; 110; 116; 101; 114; 110; 97; 108; 32; 83; 101; 114; 118; 101; 114; 32; 69; 114; 114; 111; 114]) else
  if d =? 1 then Some ([53; 48; 49], [78; 111; 116; 32; 73; 109; 112; 108; 101; 109; 101; 110; 116; 101; 100]) else
  if d =? 2 then Some ([53; 48; 50], [66; 97; 100; 32; 71; 97; 116; 101; 119; 97; 121]) else
  if d =? 3 then Some ([53; 48; 51], [83; 101; 114; 118; 105; 99; 101; 32; 85; 110; 97; 118; 97; 105; 108; 97; 98; 108; 101]) else
  if d =? 4 then Some ([53; 48; 52], [71; 97; 116; 101; 119; 97; 121; 32; 84; 105; 109; 101; 111; 117; 116]) else
  if d =? 5 then Some ([53; 48; 49], [78; 111; 116; 32; 73; 109; 112; 108; 101; 109; 101; 110; 116; 101; 100]) else
  None.
Definition status_client (d : N) : option (list N * list N) :=
  if d =? 0 then Some ([52; 48; 48], [66; 97; 100; 32; 82; 101; 113; 117; 101; 115; 116]) else
  if d =? 1 then Some ([52; 48; 49], [85; 110; 97; 117; 116; 104; 111; 114; 105; 122; 101; 100]) else
  if d =? 2 then Some ([52; 48; 48], [66; 97; 100; 32; 82; 101; 113; 117; 101; 115; 116]) else
  if d =? 3 then Some ([52; 48; 51], [70; 111; 114; 98; 105; 100; 100; 101; 110]) else
  if d =? 4 then Some ([52; 48; 52], [78; 111; 116; 32; 70; 111; 117; 110; 100]) else
  if d =? 5 then Some ([52; 48; 53], [77; 101; 116; 104; 111; 100; 32; 78; 111; 116; 32; 65; 108; 108; 111; 119; 101; 100]) else
  if d =? 6 then Some ([52; 48; 54], [78; 111; 116; 32; 65; 99; 99; 101; 112; 116; 97; 98; 108; 101]) else
  if d =? 12 then Some ([52; 49; 50], [80; 114; 101; 99; 111; 110; 100; 105; 116; 105; 111; 110; 32; 70; 97; 105; 108; 101; 100]) else
  if d =? 13 then Some ([52; 49; 51], [82; 101; 113; 117; 101; 115; 116; 32; 69; 110; 116; 105; 116; 121; 32; 84; 111; 111; 32; 76; 97; 114; 103; 101]) else
  if d =? 15 then Some ([52; 49; 53], [85; 110; 115; 117; 112; 112; 111; 114; 116; 101; 100; 32; 77; 101; 100; 105; 97; 32; 84; 121; 112; 101]) else
  status_server d.
Definition status_success (d : N) : option (list N * list N) :=
  if (d =? 1) || (d =? 2) then Some ([50; 48; 48], [79; 75]) else
  if d =? 3 then Some ([51; 48; 52], [78; 111; 116; 32; 77; 111; 100; 105; 102; 105; 101; 100]) else
  if (d =? 4) || (d =? 5) then Some ([50; 48; 48], [79; 75]) else
  status_client d.
Definition cross_status (m : msg) : res (list N * list N * list N) :=
  let s :=
    if m_class m =? CL_SUCCESS then status_success (m_detail m) else
    if m_class m =? CL_CLIENT_ERR then status_client (m_detail m) else
    if m_class m =? CL_SERVER_ERR then status_server (m_detail m) else None in
  match s with Some (b, c) => Ok (s_http11, b, c) | None => Err EBADMSG end.

(** coap_msg_add_op, coap_msg.c 802-813, with its allocation. *)
Definition x_add_op (X : xmem) (m : msg) (num : N) (val : list N) : res msg :=
  if x_op X (m_ops m) (mkop num val) then add_op m num val else Err ENOMEM.

(** The loops over the segments of the path, cross.c 277-309, and over the arguments of the
    query, 321-353.  [len] is unsigned. *)
Fixpoint cross_split (fuel : nat) (X : xmem) (m : msg) (num sep : N) (str : list N) : res msg :=
  match fuel with
  | O => OutOfFuel
  | S fuel =>
    let add m s :=
      let len := lenN s mod two32 in
      if 0 <? len then x_add_op X m num (firstn (N.to_nat len) s) else Ok m in
    match str_cut sep str with
    | None => add m str
    | Some (a, b) => let* m := add m a in cross_split fuel X m num sep b
    end
  end.

(** cross_uri_http_to_coap, cross.c 195-358. *)
Definition cross_uri_http_to_coap (sg : signedness) (X : xmem) (m : msg) (str : list N) : res msg :=
  let* u := uri_parse sg (x_uri X) str in
  if negb (is_null (u_fragment u)) then Err EBADMSG else
  match u_scheme u with
  | None => Err EBADMSG
  | Some s =>
    if negb (same_word s s_coap) && negb (same_word s s_coaps) then Err EBADMSG else
    let add m num (s : option (list N)) :=
      match s with
      | Some s => x_add_op X m num (firstn (N.to_nat (lenN s mod two32)) s)
      | None => Ok m
      end in
    let* m := add m OP_URI_HOST (u_host u) in
    let* m := add m OP_URI_PORT (u_port u) in
    let* m :=
      match u_path u with
      | None => Ok m
      | Some [] => Err EBADMSG
      | Some (c :: str) =>
        if negb (c =? 47) then Err EBADMSG else cross_split (S (length str)) X m OP_URI_PATH 47 str
      end in
    match u_query u with
    | None => Ok m
    | Some str => cross_split (S (length str)) X m OP_URI_QUERY 38 str
    end
  end.

(** cross_headers_http_to_coap, cross.c 510-596. *)
Fixpoint cross_headers_http_to_coap (X : xmem) (m : msg) (hs : list (list N * list N)) : cres msg :=
  match hs with
  | [] => COk m
  | (name, value) :: hs =>
    let next m := cross_headers_http_to_coap X m hs in
    if same_word name s_etag then cbind (coded 502 (x_add_op X m OP_ETAG value)) next
    else if same_word name s_cache_control then
      match str_str s_max_age value with
      | None => next m
      | Some t =>
        match scan_dec t with
        | None => next m
        | Some val => cbind (coded 502 (x_add_op X m OP_MAX_AGE (dec_text val))) next
        end
      end
    else if same_word name s_accept then
      if same_word (firstn 10 value) s_text_plain
      then cbind (coded 502 (x_add_op X m OP_ACCEPT [48])) next
      else CErr 406 EBADMSG
    else next m
  end.

(** Copying a value and a NUL to the buffer of 256 bytes, cross.c 641-642: the string there. *)
Definition tmp_str (o : op) : res (list N) := if 256 <? o_len o + 1 then UB OobWrite else cstr (o_val o ++ [0]).

(** cross_headers_coap_to_http, cross.c 608-686, with its buffer of 256 bytes: the headers added,
    and the error, if any.  Values are never NULL (coap_msg_op_new allocates them). *)
Fixpoint cross_headers_coap_to_http (ops : list op) : list (list N * list N) * res unit :=
  match ops with
  | [] => ([], Ok tt)
  | o :: ops =>
    if 256 <=? o_len o then ([], Err ENOSPC) else
    match tmp_str o with
    | Ok tmp =>
      let h :=
        if o_num o =? OP_ETAG then [(s_etag, tmp)] else
        if o_num o =? OP_MAX_AGE then
          match scan_dec tmp with Some val => [(s_cache_control, s_max_age ++ dec_text val)] | None => [] end
        else if o_num o =? OP_ACCEPT then
          if (o_len o =? 1) && (nth 0 (o_val o) 0 =? 48) then [(s_accept, s_text_plain)] else []
        else [] in
      let (hs, r) := cross_headers_coap_to_http ops in (h ++ hs, r)
    | Err e => ([], Err e)
    | UB u => ([], UB u)
    | OutOfFuel => ([], OutOfFuel)
    end
  end.

(** cross_req_http_to_coap, cross.c 742-789.  [body] are all bytes of the buffer for bodies,
    [body_end] the variable: the request, and both afterwards. *)
Definition cross_req_http_to_coap (sg : signedness) (X : xmem) (h : hmsg) (body : list N) (body_end : N)
  : cres (msg * list N * N) :=
  let '(a, b, _) := hm_start h in
  let hbody := match hm_body h with Some b => b | None => [] end in
  cbind (coded 0 (set_type msg_create T_CON)) (fun m =>
  cbind (cross_method m a) (fun m =>
  cbind (coded 400 (cross_uri_http_to_coap sg X m b)) (fun m =>
  cbind (cross_headers_http_to_coap X m (hm_headers h)) (fun m =>
  if MAX_PAYLOAD_LEN <? lenN hbody then
    if lenN body <? lenN hbody then CErr 502 ENOSPC else
    cbind (coded 0 (put body 0 hbody)) (fun body => COk (m, body, lenN hbody))
  else
    if (lenN hbody =? 0) || x_payload X hbody
    then cbind (coded 502 (set_payload m hbody)) (fun m => COk (m, body, body_end))
    else CErr 502 ENOMEM)))).

(** cross_resp_coap_to_http, cross.c 791-833, with cross_body_coap_to_http, 724-740: the
    message, and [*code] and the error, if any.  [body] are all bytes of the buffer, [body_len]
    is the argument coap_body_len.  Before a start line is set, its fields are NULL; no field
    is empty otherwise. *)
Definition cross_resp_coap_to_http (m : msg) (body : list N) (body_len : N) : res (hmsg * option (N * errno)) :=
  match cross_status m with
  | Ok start =>
    let (hs, r) := cross_headers_coap_to_http (m_ops m) in
    match r with
    | Ok _ =>
      let* b :=
        if 0 <? body_len then (if lenN body <? body_len then UB OobRead else Ok (Some (firstn (N.to_nat body_len) body)))
        else if 0 <? lenN (m_payload m) then Ok (Some (m_payload m)) else Ok None in
      match b with
      | Some b => Ok (mkhmsg start (hs ++ [(s_content_length, dec_text (lenN b))]) (Some b), None)
      | None => Ok (mkhmsg start hs None, None)
      end
    | Err e => Ok (mkhmsg start hs None, Some (502, e))
    | UB u => UB u
    | OutOfFuel => OutOfFuel
    end
  | Err e => Ok (mkhmsg ([], [], []) [] None, Some (502, e))
  | UB u => UB u
  | OutOfFuel => OutOfFuel
  end.

(** ** cross_uri_coap_to_http, cross.c 360-497 *)

(** The first option with a number, as in cross.c 379-400. *)
Fixpoint first_op (num : N) (ops : list op) : option op :=
  match ops with
  | [] => None
  | o :: ops => if o_num o =? num then Some o else first_op num ops
  end.

(** Copying a value to the start of [tmp], and the string there, cross.c 384-390 and 408-414. *)
Definition tmp_copy (tmp : list N) (o : op) : res (list N * list N) :=
  if 256 <=? o_len o then Err ENOSPC else
  let* tmp := put tmp 0 (o_val o) in
  let* tmp := store tmp (o_len o) 0 in
  let* s := cstr tmp in
  Ok (tmp, s).

(** The loop over the segments, cross.c 427-444, and over the arguments, 458-478; [first]: whether
    the character is also written before the first value. *)
Fixpoint tmp_join (opt sep : N) (first : bool) (ops : list op) (tmp : list N) (num : N) : res (list N * N) :=
  match ops with
  | [] => Ok (tmp, num)
  | o :: ops =>
    if o_num o =? opt then
      if sub64 255 num <? add32 (o_len o) 1 then Err ENOSPC else
      let* (tmp, num) := if first || (0 <? num) then let* tmp := store tmp num sep in Ok (tmp, add64 num 1) else Ok (tmp, num) in
      let* tmp := put tmp num (o_val o) in
      let num := add64 num (o_len o) in
      let* tmp := store tmp num 0 in
      tmp_join opt sep first ops tmp num
    else tmp_join opt sep first ops tmp num
  end.

(** cross.c 360-497: the buffer afterwards and the value returned.  [mem]: which of the
    allocations of the setters succeed. *)
Definition cross_uri_coap_to_http (sg : signedness) (mem : N -> bool) (ops : list op) (buf : list N) (len : N)
  : res (list N * option errno) :=
  let r :=
    let tmp := repeat 0 256 in
    let* scheme := uri_set sg (mem 1) s_coaps in
    let* (tmp, host) :=
      match first_op OP_URI_HOST ops with
      | Some o => let* (tmp, s) := tmp_copy tmp o in let* h := uri_set sg (mem 3) s in Ok (tmp, Some h)
      | None => Ok (tmp, None)
      end in
    let* (tmp, port) :=
      match first_op OP_URI_PORT ops with
      | Some o => let* (tmp, s) := tmp_copy tmp o in let* h := uri_set sg (mem 4) s in Ok (tmp, Some h)
      | None => Ok (tmp, None)
      end in
    let* (tmp, num) := tmp_join OP_URI_PATH 47 true ops tmp 0 in
    let* tmp := if num =? 0 then let* tmp := store tmp 0 47 in store tmp 1 0 else Ok tmp in
    let* s := cstr tmp in
    let* path := uri_set_path sg (mem 5) s in
    let* (tmp, num) := tmp_join OP_URI_QUERY 38 false ops tmp 0 in
    let* query :=
      if 0 <? num then let* s := cstr tmp in let* q := uri_set sg (mem 6) s in Ok (Some q) else Ok None in
    Ok (mkuri (Some scheme) None host port (Some path) query None) in
  match r with
  | Ok u =>
    let* (buf, num) := uri_generate u buf len in
    Ok (buf, if sub64 len 1 <? num then Some ENOSPC else None)
  | Err e => Ok (buf, Some e)
  | UB u => UB u
  | OutOfFuel => OutOfFuel
  end.
