(** Model of proxy/common/src/http_msg.c.  No proofs in this file.

    The memory allocations succeed, except of a size of 2^63 or more.  Of a message that could not be parsed
    nothing is kept: the next call resets the structure (http_msg.c 557).  Pointers are
    positions in the block, and may be anywhere outside it as long as they are not
    dereferenced. *)
From Verif Require Import Base BufModel UriModel.

Notation CR := 13 (only parsing).
Notation LF := 10 (only parsing).

(** isspace in the C locale. *)
Definition is_space (c : N) : bool := ((9 <=? c) && (c <=? 13)) || (c =? 32).

Definition lenZ {A} (l : list A) : Z := Z.of_nat (length l).

(** The memory from a position on; a byte of it. *)
Definition from (m : list N) (p : Z) : res (list N) :=
  if (0 <=? p)%Z && (p <=? lenZ m)%Z then Ok (skipn (Z.to_nat p) m) else UB OobRead.
Definition byte_at (m : list N) (p : Z) : res N :=
  let* s := from m p in match s with c :: _ => Ok c | [] => UB OobRead end.

(** strstr(s, "\r\n"): what is before and after it in memory, [None] if there is none
    before the NUL. *)
Fixpoint find_crlf (m : list N) : res (option (list N * list N)) :=
  match m with
  | [] => UB OobRead
  | c :: m =>
    if c =? 0 then Ok None else
    match m with
    | d :: m' =>
      if (c =? CR) && (d =? LF) then Ok (Some ([], m')) else
      let* r := find_crlf m in
      match r with Some (a, b) => Ok (Some (c :: a, b)) | None => Ok None end
    | [] => UB OobRead
    end
  end.

(** http_msg_trim_ws, http_msg.c 180-214: the string returned, and the memory of the
    whole string afterwards. *)
Fixpoint drop_ws (s : list N) : list N :=
  match s with c :: t => if is_space c then drop_ws t else s | [] => [] end.
Fixpoint squash (sp : bool) (s : list N) : list N :=
  match s with
  | [] => []
  | c :: s => if is_space c then squash true s else (if sp then [32] else []) ++ c :: squash false s
  end.
Definition trim_ws (s : list N) : list N := squash false (drop_ws s).
Definition trim_mem (s : list N) : list N :=
  let t := drop_ws s in
  repeat 0 (length s - length t) ++ trim_ws s ++ repeat 0 (length t - length (trim_ws s)).

(** http_msg_t, http_msg.h 69-76, and its headers. *)
Record hmsg := mkhmsg {
  hm_start : list N * list N * list N;
  hm_headers : list (list N * list N);
  hm_body : option (list N)
}.

(** http_msg_parse_start, http_msg.c 257-299, on the memory from [str]: the fields, the
    memory up to [end] as it is left, and the memory from there. *)
Definition http_parse_start (m : list N) : res (list N * list N * list N * list N * list N) :=
  let* f := find_crlf m in
  match f with
  | None => Err EAGAIN
  | Some (line, rest) =>
    match str_cut 32 line with
    | None => Err EBADMSG
    | Some (a, l) =>
      if lenN a =? 0 then Err EBADMSG else
      match str_cut 32 l with
      | None => Err EBADMSG
      | Some (b, c) =>
        if lenN b =? 0 then Err EBADMSG else
        if lenN c =? 0 then Err EBADMSG else
        Ok (a, b, c, a ++ [0] ++ b ++ [0] ++ c ++ [0; 0], rest)
      end
    end
  end.

(** The inner loop of http_msg_parse_headers, http_msg.c 321-343: [pre] is what is between
    [name] and [next], [m] the memory from [next].  The line, without the end, and the memory
    after the end; [None] for a blank line. *)
Fixpoint http_header_line (fuel : nat) (pre m : list N) : res (option (list N) * list N) :=
  match fuel with
  | O => OutOfFuel
  | S fuel =>
    let* f := find_crlf m in
    match f with
    | None => Err EAGAIN
    | Some (a, rest) =>
      if lenN (pre ++ a) =? 0 then Ok (None, rest) else
      match rest with
      | [] => UB OobRead
      | c :: rest' =>
        if (c =? 32) || (c =? 9) then http_header_line fuel (pre ++ a ++ [CR; LF; c]) rest'
        else Ok (Some (pre ++ a), rest)
      end
    end
  end.

(** http_msg_parse_headers, http_msg.c 311-357: the headers added, the memory parsed as it is
    left, and the memory from there. *)
Fixpoint http_parse_headers (fuel : nat) (m : list N) : res (list (list N * list N) * list N * list N) :=
  match fuel with
  | O => OutOfFuel
  | S fuel =>
    let* (line, rest) := http_header_line (S (length m)) [] m in
    match line with
    | None => Ok ([], [CR; LF], rest)
    | Some line =>
      match str_cut 58 line with
      | None => Err EBADMSG
      | Some (name, value) =>
        let* (hs, mem, rest) := http_parse_headers fuel rest in
        Ok ((trim_ws name, trim_ws value) :: hs, trim_mem name ++ [0] ++ trim_mem value ++ [0; 0] ++ mem, rest)
      end
    end
  end.

(** strcasecmp(a, b) == 0 in the C locale. *)
Definition same_word (a b : list N) : bool :=
  if list_eq_dec N.eq_dec (map to_upper a) (map to_upper b) then true else false.

Definition s_transfer_encoding : list N := [84; 114; 97; 110; 115; 102; 101; 114; 45; 69; 110; 99; 111; 100; 105; 110; 103].
Definition s_chunked : list N := [99; 104; 117; 110; 107; 101; 100].
Definition s_content_length : list N := [67; 111; 110; 116; 101; 110; 116; 45; 76; 101; 110; 103; 116; 104].

(** The low 32 bits as an int. *)
Definition to_int (z : Z) : Z := let v := (z mod 4294967296)%Z in if (v <? 2147483648)%Z then v else (v - 4294967296)%Z.

(** The digits at the start of a string. *)
Fixpoint digits_of (digit : N -> option N) (s : list N) : list N :=
  match s with c :: s => match digit c with Some d => d :: digits_of digit s | None => [] end | [] => [] end.
Definition dec_digit (c : N) : option N := if is_digit c then Some (c - 48) else None.
Definition value_of (base : Z) (ds : list N) : Z := fold_left (fun v d => (v * base + Z.of_N d)%Z) ds 0%Z.

(** A sign. *)
Definition sign_of (s : list N) : bool * list N :=
  match s with c :: t => if c =? 45 then (true, t) else if c =? 43 then (false, t) else (false, s) | [] => (false, []) end.

(** atoi as glibc has it: strtol to base 10, limited to the range of long, and converted
    to int. *)
Definition atoi (s : list N) : Z :=
  let (neg, s) := sign_of (drop_ws s) in
  let v := value_of 10 (digits_of dec_digit s) in
  to_int (if neg then Z.max (- v) (-9223372036854775808) else Z.min v 9223372036854775807).

(** sscanf(s, "%x", &i) as glibc has it: white space, a sign, 0x, digits; strtoul, limited to
    the range of unsigned long, and stored as 32 bits.  [None] if nothing is stored. *)
Definition scan_hex (s : list N) : option Z :=
  let (neg, s) := sign_of (drop_ws s) in
  let ds :=
    match s with
    | 48 :: c :: t => if (c =? 120) || (c =? 88) then 0 :: digits_of uri_hex_to_int t else digits_of uri_hex_to_int s
    | _ => digits_of uri_hex_to_int s
    end in
  match ds with
  | [] => None
  | _ =>
    let v := value_of 16 ds in
    Some (to_int (if (18446744073709551615 <? v)%Z then 18446744073709551615 else if neg then - v else v)%Z)
  end.

(** The loop over the headers, http_msg.c 389-402: [chunked] and [content_len]. *)
Definition http_framing (hs : list (list N * list N)) : bool * N :=
  fold_left (fun (st : bool * N) (h : list N * list N) =>
    let (chunked, len) := st in
    (chunked || (same_word (fst h) s_transfer_encoding && same_word (snd h) s_chunked),
     if same_word (fst h) s_content_length then Z.to_N (atoi (snd h) mod 18446744073709551616)%Z else len)) hs (false, 0).

Definition INT_MAX : Z := 2147483647.
Definition INT_MIN : Z := -2147483648.

(** The loop over the chunks, http_msg.c 414-470.  [second]: the second pass; [lim]: the
    position [str + str_len]; [dest]: the bytes copied so far to a block of [total + 1]. *)
Fixpoint http_chunks (fuel : nat) (second : bool) (lim : Z) (m : list N) (next total : Z) (dest : list N) :
  res (list N * Z * Z * list N) :=
  match fuel with
  | O => OutOfFuel
  | S fuel =>
    let chunk_size := next in
    let* s := from m next in
    let* f := find_crlf s in
    match f with
    | None => Err EAGAIN
    | Some (line, rest) =>
      let next := (next + lenZ line + 2)%Z in
      let line := match str_cut 59 line with Some (a, b) => a ++ 32 :: b | None => line end in
      let m := firstn (Z.to_nat chunk_size) m ++ line ++ [CR; LF] ++ rest in
      match scan_hex (line ++ [CR; LF] ++ rest) with
      | None => Err EBADMSG
      | Some chunk_len =>
        if (chunk_len =? 0)%Z then Ok (m, next, total, dest) else
        let* total :=
          if second then Ok total
          else if ((total + chunk_len <? INT_MIN)%Z || (INT_MAX <? total + chunk_len)%Z) then UB BadArith
          else Ok (total + chunk_len)%Z in
        let chunk_data := next in
        let next := (next + chunk_len)%Z in
        if (lim <? next + 2)%Z then Err EAGAIN else
        let* c := byte_at m next in
        if negb (c =? CR) then Err EBADMSG else
        let* d := byte_at m (next + 1) in
        if negb (d =? LF) then Err EBADMSG else
        let next := (next + 2)%Z in
        let* dest :=
          if second then
            if (chunk_len <? 0)%Z || (total + 1 <? lenZ dest + chunk_len)%Z then UB OobWrite else
            let* data := from m chunk_data in
            Ok (dest ++ firstn (Z.to_nat chunk_len) data)
          else Ok dest in
        http_chunks fuel second lim m next total dest
      end
    end
  end.

(** http_msg_parse_body, http_msg.c 369-514, for a body at position [base]: the headers added, the
    body, and the number of bytes parsed.  The passes see the same chunks, so that all bytes of the
    body are copied. *)
Definition http_parse_body (fuel : nat) (hs : list (list N * list N)) (m : list N) (base : Z) :
  res (list (list N * list N) * option (list N) * Z) :=
  let* s := from m base in
  let* str := cstr s in
  let '(chunked, content_len) := http_framing hs in
  if chunked then
    let lim := (base + lenZ str)%Z in
    let* (m, next, total, dest) := http_chunks fuel false lim m base 0 [] in
    if (total =? INT_MAX)%Z then UB BadArith else
    if (total + 1 <? 0)%Z then Err ENOMEM else
    if (total <? 0)%Z then UB OobWrite else
    let* (m, next, total, dest) := http_chunks fuel true lim m base total [] in
    if negb (lenZ dest =? total)%Z then UB Uninit else
    let* t := from m next in
    let* (trailers, mem, rest) := http_parse_headers (S (length t)) t in
    Ok (trailers, Some dest, (next + lenZ mem - base)%Z)
  else if negb (content_len =? 0) then
    if lenN str <? content_len then Err EAGAIN else
    Ok ([], Some (firstn (N.to_nat content_len) s), Z.of_N content_len)
  else Ok ([], None, 0%Z).

(** http_msg_parse, http_msg.c 552-573, with __http_msg_parse, 528-550: the message and
    the number of bytes parsed.  [fuel] is the number of rounds for each pass over the chunks. *)
Definition http_msg_parse (fuel : nat) (buf : list N) : res (hmsg * Z) :=
  let* (a, b, c, mem1, rest) := http_parse_start (buf ++ [0]) in
  let* (hs, mem2, rest) := http_parse_headers (S (length rest)) rest in
  let base := lenZ (mem1 ++ mem2) in
  let* (ts, body, num) := http_parse_body fuel hs (mem1 ++ mem2 ++ rest) base in
  Ok (mkhmsg (a, b, c) (hs ++ ts) body, (base + num)%Z).

(** http_msg_generate, http_msg.c 612-651, for a block [buf]: its contents afterwards, and the
    number returned.  [util_strncat] is that of BufModel; the strings end with NUL. *)
Fixpoint http_cat (buf : list N) (strs : list (list N)) (n len : N) : res (list N * N) :=
  match strs with
  | [] => Ok (buf, n)
  | s :: strs => let* (buf, n) := util_strncat buf (s ++ [0]) n len in http_cat buf strs n len
  end.
Definition http_msg_generate (m : hmsg) (buf : list N) (len : N) : res (list N * N) :=
  if lenN buf <? len then UB OobWrite else
  let buf := repeat 0 (N.to_nat len) ++ skipn (N.to_nat len) buf in
  let '(a, b, c) := hm_start m in
  let* (buf, n) := http_cat buf [a; [32]; b; [32]; c; [CR; LF]] 0 len in
  let* (buf, n) := http_cat buf (flat_map (fun h => [fst h; [58; 32]; snd h; [CR; LF]]) (hm_headers m)) n len in
  let* (buf, n) := http_cat buf [[CR; LF]] n len in
  match hm_body m with
  | None => Ok (buf, n)
  | Some body =>
    let copy k :=
      if lenN body <? k then UB OobRead else
      if lenN buf <? n + k then UB OobWrite else
      Ok (firstn (N.to_nat n) buf ++ firstn (N.to_nat k) body ++ skipn (N.to_nat (n + k)) buf) in
    let* buf :=
      if add64 n (lenN body) <? len then copy (lenN body)
      else if n <? sub64 len 1 then copy (sub64 (sub64 len 1) n)
      else Ok buf in
    Ok (buf, add64 n (lenN body))
  end.

(** snprintf(out, len, ...) of a text, for the block from [out] on. *)
Definition snprintf (out : list N) (len : N) (text : list N) : res (list N * N) :=
  if len =? 0 then Ok (out, lenN text) else
  let t := firstn (N.to_nat (len - 1)) text ++ [0] in
  if lenN out <? lenN t then UB OobWrite else Ok (t ++ skipn (length t) out, lenN text).

(** The text of %zx. *)
Definition hex_digit (d : N) : N := if d <? 10 then 48 + d else 97 + (d - 10).
Fixpoint hex_from (fuel : nat) (n : N) : list N :=
  match fuel with
  | O => []
  | S fuel => if n <? 16 then [hex_digit n] else hex_from fuel (n / 16) ++ [hex_digit (n mod 16)]
  end.
Definition hex_text (n : N) : list N := hex_from 16 n.

(** http_msg_generate_chunk, http_msg.c 653-681, for a block [out]: its contents
    afterwards, and the number returned. *)
Definition http_msg_generate_chunk (out : list N) (out_len : N) (data : list N) : res (list N * N) :=
  if lenN out <? out_len then UB OobWrite else
  let out := repeat 0 (N.to_nat out_len) ++ skipn (N.to_nat out_len) out in
  let* (out, target) := snprintf out out_len (hex_text (lenN data) ++ [CR; LF]) in
  let actual := if target <=? out_len then target else out_len in
  let done := firstn (N.to_nat actual) out in
  let out := skipn (N.to_nat actual) out in
  let out_len := out_len - actual in
  let num := target in
  let actual := if lenN data <=? sub64 out_len 1 then lenN data else sub64 out_len 1 in
  if lenN out <? actual then UB OobWrite else
  let done := done ++ firstn (N.to_nat actual) data in
  let out := skipn (N.to_nat actual) out in
  let out_len := sub64 out_len actual in
  let num := add64 num (lenN data) in
  let* (out, target) := snprintf out out_len [CR; LF] in
  Ok (done ++ out, add64 num target).

(** http_msg_generate_last_chunk, http_msg_generate_trailer and http_msg_generate_blank_line,
    http_msg.c 683-696. *)
Definition http_msg_generate_last_chunk (buf : list N) (len : N) : res (list N * N) := snprintf buf len [48; CR; LF].
Definition http_msg_generate_trailer (buf : list N) (len : N) (name value : list N) : res (list N * N) :=
  snprintf buf len (name ++ [58; 32] ++ value ++ [CR; LF]).
Definition http_msg_generate_blank_line (buf : list N) (len : N) : res (list N * N) := snprintf buf len [CR; LF].
