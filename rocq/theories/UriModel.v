(** Model of proxy/common/src/uri.c.  No proofs in this file.

    Strings are lists of bytes that are not NUL, without the terminator; blocks of memory that are
    written to are lists of cells.  Pointers are not NULL.  Each memory allocation has a number
    and [mem] says which succeed. *)
From Verif Require Import Base BufModel.

(** isalpha, isdigit and toupper in the C locale; the tables of glibc have entries for
    negative arguments, which bytes from 128 are if char is signed. *)
Definition is_alpha (c : N) : bool := ((65 <=? c) && (c <=? 90)) || ((97 <=? c) && (c <=? 122)).
Definition is_digit (c : N) : bool := (48 <=? c) && (c <=? 57).
Definition to_upper (c : N) : N := if (97 <=? c) && (c <=? 122) then c - 32 else c.
Definition in_str (c : N) (s : list N) : bool := existsb (N.eqb c) s.

(** URI_SUB_DELIMS, uri.c 57: "!$&'()*+,;=". *)
Definition URI_SUB_DELIMS : list N := [33; 36; 38; 39; 40; 41; 42; 43; 44; 59; 61].

(** uri_is_unreserved, uri.c 73-76. *)
Definition uri_is_unreserved (c : N) : bool :=
  is_alpha c || is_digit c || (c =? 45) || (c =? 46) || (c =? 95) || (c =? 126).

(** uri_is_allowed, uri.c 87-90, for a character that is not NUL. *)
Definition uri_is_allowed (c : N) : bool := uri_is_unreserved c || in_str c URI_SUB_DELIMS.

(** uri_hex_to_int, uri.c 101-109; [None] is -1. *)
Definition uri_hex_to_int (h : N) : option N :=
  let c := to_upper h in
  if (65 <=? c) && (c <=? 70) then Some (c - 65 + 10) else
  if (48 <=? c) && (c <=? 57) then Some (c - 48) else None.

(** uri_2_hex_to_int, uri.c 120-136. *)
Definition uri_2_hex_to_int (a b : N) : option N :=
  match uri_hex_to_int a with
  | None => None
  | Some i0 =>
    match uri_hex_to_int b with
    | None => None
    | Some i1 => Some (N.lor (N.shiftl i0 4) i1)
    end
  end.

(** uri_hex, uri.c 62. *)
Definition uri_hex (d : N) : N := if d <? 10 then 48 + d else 65 + (d - 10).

(** uri_encode_octet, uri.c 144-152: the three characters. *)
Definition uri_encode_octet (val : N) : list N :=
  [37; uri_hex (N.land (N.shiftr val 4) 15); uri_hex (N.land val 15)].

(** uri_decode_octet, uri.c 161-186, for a string that is not empty: the value, [None]
    if it is -1, and what follows.  A byte 255 is -1 if char is signed. *)
Definition uri_decode_octet (sg : signedness) (str : list N) : option N * list N :=
  match str with
  | [] => (Some 0, [])
  | c :: str =>
    if c =? 37 then
      let num := firstn 2 str ++ [0; 0; 0] in
      (uri_2_hex_to_int (nth 0 num 0) (nth 1 num 0), skipn 2 str)
    else
      (match sg with SignedChar => if c =? 255 then None else Some c | UnsignedChar => Some c end, str)
  end.

(** uri_encode_str, uri.c 199-224. *)
Fixpoint uri_encode_str (dest src : list N) (n dest_len : N) (except : list N) {struct src} : res (list N * N) :=
  match src with
  | [] => Ok (dest, n)
  | c :: src =>
    if uri_is_allowed c || in_str c except then
      let* dest := if add64 n 1 <? dest_len then store dest n c else Ok dest in
      uri_encode_str dest src (add64 n 1) dest_len except
    else
      let* dest :=
        if add64 n 3 <? dest_len then
          let o := uri_encode_octet c in
          let* dest := store dest n (nth 0 o 0) in
          let* dest := store dest (n + 1) (nth 1 o 0) in
          store dest (n + 2) (nth 2 o 0)
        else Ok dest in
      uri_encode_str dest src (add64 n 3) dest_len except
  end.

(** uri_copy_str, uri.c 236-250. *)
Fixpoint uri_copy_str (dest src : list N) (n dest_len : N) {struct src} : res (list N * N) :=
  match src with
  | [] => Ok (dest, n)
  | c :: src =>
    let* dest := if add64 n 1 <? dest_len then store dest n c else Ok dest in
    uri_copy_str dest src (add64 n 1) dest_len
  end.

(** uri_decode_str, uri.c 262-280.  -1 is [EBADMSG], which is what all callers make of it.
    Each round takes at least one character, so that there are no more rounds than
    characters. *)
Fixpoint uri_decode_from (fuel : nat) (sg : signedness) (dest src : list N) (n dest_len : N) : res (list N * N) :=
  match src with
  | [] => Ok (dest, n)
  | _ =>
    match fuel with
    | O => OutOfFuel
    | S fuel =>
      match uri_decode_octet sg src with
      | (None, _) => Err EBADMSG
      | (Some c, src) =>
        let* dest := if add64 n 1 <? dest_len then store dest n c else Ok dest in
        uri_decode_from fuel sg dest src (add64 n 1) dest_len
      end
    end
  end.
Definition uri_decode_str (sg : signedness) (dest src : list N) (n dest_len : N) : res (list N * N) :=
  uri_decode_from (length src) sg dest src n dest_len.

(** uri_t, uri.h 45-55; [None] is NULL. *)
Record uri := mkuri {
  u_scheme : option (list N);
  u_userinfo : option (list N);
  u_host : option (list N);
  u_port : option (list N);
  u_path : option (list N);
  u_query : option (list N);
  u_fragment : option (list N)
}.

(** uri_create, uri.c 326-329, and what uri_destroy leaves, uri.c 331-348. *)
Definition uri_create : uri := mkuri None None None None None None None.

(** The string in a block of memory. *)
Fixpoint cstr (m : list N) : res (list N) :=
  match m with
  | [] => UB OobRead
  | b :: m => if b =? 0 then Ok [] else let* s := cstr m in Ok (b :: s)
  end.

(** What the parsing functions do for each component, e.g. uri.c 376-390 (and 809-821):
    allocation of a block of the length of the string and one more, filled with 0; decoding;
    and the check of the length. *)
Definition uri_component (sg : signedness) (mem : bool) (p : list N) : res (list N) :=
  let len := add64 (lenN p) 1 in
  if negb mem then Err ENOMEM else
  let* (d, num) := uri_decode_str sg (repeat 0 (N.to_nat len)) p 0 len in
  if len <=? num then Err EBADMSG else cstr d.

(** The same for a path after an authority, uri.c 519-534: the block has one byte more, of which the first
    is the slash. *)
Definition uri_component_path (sg : signedness) (mem : bool) (p : list N) : res (list N) :=
  let len := add64 (lenN p) 1 in
  if negb mem then Err ENOMEM else
  let* (d, num) := uri_decode_str sg (repeat 0 (N.to_nat len)) p 0 len in
  if len <=? num then Err EBADMSG else cstr (47 :: d).

(** strchr, and the two parts the string is cut into when the character found is made
    NUL. *)
Fixpoint str_cut (c : N) (s : list N) : option (list N * list N) :=
  match s with
  | [] => None
  | x :: s => if x =? c then Some ([], s) else match str_cut c s with Some (a, b) => Some (x :: a, b) | None => None end
  end.

(** strsep: the token, and the delimiter and what follows it, [None] if there is none. *)
Fixpoint str_sep (delim s : list N) : list N * option (N * list N) :=
  match s with
  | [] => ([], None)
  | x :: s => if in_str x delim then ([], Some (x, s)) else let (a, b) := str_sep delim s in (x :: a, b)
  end.

(** uri_find_port, uri.c 296-324: the string before the colon found, and after it. *)
Fixpoint uri_find_port (inside : bool) (s : list N) : option (list N * list N) :=
  match s with
  | [] => None
  | x :: s =>
    let inside := if negb inside then x =? 91 else negb (x =? 93) in
    if negb inside && (x =? 58) then Some ([], s)
    else match uri_find_port inside s with Some (a, b) => Some (x :: a, b) | None => None end
  end.

(** uri_parse_scheme, uri.c 360-395, for a structure without scheme: the scheme and what
    follows. *)
Definition uri_parse_scheme (sg : signedness) (mem : N -> bool) (q : list N) : res (option (list N) * list N) :=
  match str_cut 58 q with
  | Some (p, q') =>
    let* scheme := if 1 <? add64 (lenN p) 1 then let* s := uri_component sg (mem 1) p in Ok (Some s) else Ok None in
    Ok (scheme, q')
  | None => Ok (None, q)
  end.

(** uri_parse_hier_part, uri.c 407-556, for a structure without these components, after
    strsep has taken the token [p] (uri.c 423-428): userinfo, host, port and path. *)
Definition uri_parse_hier_part (sg : signedness) (mem : N -> bool) (p : list N) :
  res (option (list N) * option (list N) * option (list N) * option (list N)) :=
  let len := lenN p in
  if (2 <=? len) && (nth 0 p 0 =? 47) && (nth 1 p 0 =? 47) then
    let p := skipn 2 p in
    let* (userinfo, p) :=
      match str_cut 64 p with
      | Some (u, p) => let* u := uri_component sg (mem 2) u in Ok (Some u, p)
      | None => Ok (None, p)
      end in
    (* check for port and path *)
    let '(p, port, path) :=
      match uri_find_port false p with
      | Some (p, port) =>
        match str_cut 47 port with
        | Some (port, path) => (p, Some port, Some path)
        | None => (p, Some port, None)
        end
      | None =>
        match str_cut 47 p with
        | Some (p, path) => (p, None, Some path)
        | None => (p, None, None)
        end
      end in
    (* strip the brackets of an IPv6 address *)
    let len := add64 (lenN p) 1 in
    let '(p, len) :=
      if (2 <? len) && (nth 0 p 0 =? 91) && (nth (N.to_nat (len - 2)) p 0 =? 93)
      then (removelast (tl p), len - 2) else (p, len) in
    let* host := if 1 <? len then let* h := uri_component sg (mem 3) p in Ok (Some h) else Ok None in
    let* port := match port with Some port => let* c := uri_component sg (mem 4) port in Ok (Some c) | None => Ok None end in
    let* path := match path with Some path => let* c := uri_component_path sg (mem 5) path in Ok (Some c) | None => Ok None end in
    Ok (userinfo, host, port, path)
  else if 0 <? len then
    let* path := uri_component sg (mem 5) p in Ok (None, None, None, Some path)
  else Ok (None, None, None, None).

(** uri_parse, uri.c 642-719, with uri_parse_query, 568-598, and uri_parse_fragment,
    610-640.  The character of the original string before [q] is the delimiter that
    strsep found.  After an error the structure is destroyed, except if there are
    characters left (uri.c 714-717). *)
Definition uri_parse (sg : signedness) (mem : N -> bool) (str : list N) : res uri :=
  if negb (mem 0) then Err ENOMEM else
  let* (scheme, q) := if negb (nth 0 str 0 =? 47) then uri_parse_scheme sg mem str else Ok (None, str) in
  let (p, q) := str_sep [63; 35] q in
  let* (userinfo, host, port, path) := uri_parse_hier_part sg mem p in
  let* (query, q) :=
    match q with
    | Some (c, s) =>
      if c =? 63 then
        let (p, q) := str_sep [35] s in
        let* c := uri_component sg (mem 6) p in Ok (Some c, q)
      else Ok (None, q)
    | None => Ok (None, q)
    end in
  let* (fragment, q) :=
    match q with
    | Some (c, s) =>
      if c =? 35 then
        let (p, q) := str_sep [] s in
        let* c := uri_component sg (mem 7) p in Ok (Some c, q)
      else Ok (None, q)
    | None => Ok (None, q)
    end in
  match q with
  | Some _ => Err EBADMSG
  | None => Ok (mkuri scheme userinfo host port path query fragment)
  end.

(** uri_copy, uri.c 721-794, for distinct structures: what becomes of [dest]. *)
Definition str_dup (mem : bool) (s : option (list N)) : option (list N) := if mem then s else None.
Definition is_null {A} (s : option A) : bool := match s with Some _ => false | None => true end.
Definition uri_copy (mem : N -> bool) (src : uri) : res uri :=
  let scheme := str_dup (mem 1) (u_scheme src) in
  if negb (is_null (u_scheme src)) && is_null scheme then Err ENOMEM else
  let userinfo := str_dup (mem 2) (u_userinfo src) in
  if negb (is_null (u_userinfo src)) && is_null userinfo then Err ENOMEM else
  let host := str_dup (mem 3) (u_host src) in
  if negb (is_null (u_host src)) && is_null scheme then Err ENOMEM else
  let port := str_dup (mem 4) (u_port src) in
  if negb (is_null (u_port src)) && is_null scheme then Err ENOMEM else
  let path := str_dup (mem 5) (u_path src) in
  if negb (is_null (u_path src)) && is_null path then Err ENOMEM else
  let query := str_dup (mem 6) (u_query src) in
  if negb (is_null (u_query src)) && is_null query then Err ENOMEM else
  let fragment := str_dup (mem 7) (u_fragment src) in
  if negb (is_null (u_fragment src)) && is_null fragment then Err ENOMEM else
  Ok (mkuri scheme userinfo host port path query fragment).

(** uri_set_scheme, uri_set_userinfo, uri_set_host, uri_set_port, uri_set_query and
    uri_set_fragment, uri.c 796-910 and 949-1005: what becomes of the component;
    after an error it is NULL. *)
Definition uri_set (sg : signedness) (mem : bool) (str : list N) : res (list N) := uri_component sg mem str.

(** uri_set_path, uri.c 912-947. *)
Definition uri_set_path (sg : signedness) (mem : bool) (str : list N) : res (list N) :=
  let slash := negb (nth 0 str 0 =? 47) in
  let len := add64 (add64 (lenN str) 1) (if slash then 1 else 0) in
  if negb mem then Err ENOMEM else
  let d := repeat 0 (N.to_nat len) in
  let* (d, num) := if slash then uri_decode_str sg d [47] 0 len else Ok (d, 0) in
  let* (d, num) := uri_decode_str sg d str num len in
  if len <=? num then Err EBADMSG else cstr d.

(** uri_generate, uri.c 1007-1064, for a buffer [buf]: what is in it afterwards, and the
    number returned. *)
Definition opt_str (s : option (list N)) (f : list N -> list N * N -> res (list N * N)) (b : list N * N) : res (list N * N) :=
  match s with Some s => f s b | None => Ok b end.
Definition uri_generate (u : uri) (buf : list N) (len : N) : res (list N * N) :=
  let enc s except (b : list N * N) := uri_encode_str (fst b) s (snd b) len except in
  let cpy s (b : list N * N) := uri_copy_str (fst b) s (snd b) len in
  if lenN buf <? len then UB OobWrite else
  let b := (repeat 0 (N.to_nat len) ++ skipn (N.to_nat len) buf, 0) in
  let* b := opt_str (u_scheme u) (fun s b => let* b := enc s [] b in cpy [58] b) b in
  let* b := if negb (is_null (u_userinfo u)) || negb (is_null (u_host u)) || negb (is_null (u_port u))
            then cpy [47; 47] b else Ok b in
  let* b := opt_str (u_userinfo u) (fun s b => let* b := enc s [58] b in cpy [64] b) b in
  let* b := opt_str (u_host u) (fun s b =>
              if in_str 58 s then let* b := cpy [91] b in let* b := enc s [58] b in cpy [93] b
              else enc s [] b) b in
  let* b := opt_str (u_port u) (fun s b => let* b := cpy [58] b in enc s [] b) b in
  let* b := opt_str (u_path u) (fun s b => enc s [47; 58; 64] b) b in
  let* b := opt_str (u_query u) (fun s b => let* b := cpy [63] b in enc s [63; 47; 58; 64] b) b in
  opt_str (u_fragment u) (fun s b => let* b := cpy [35] b in enc s [63; 47; 58; 64] b) b.
