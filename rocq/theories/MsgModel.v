(** Model of lib/src/coap_msg.c and lib/include/coap_msg.h: message codec.
    Memory allocation is assumed to succeed here (MsgMemModel.v threads the
    buffer pools).  No proofs in this file. *)
From Verif Require Import Base.

(** ** Types and constants (lib/include/coap_msg.h 40-190) *)

Definition COAP_VER : N := 1.
Definition MAX_TOKEN_LEN : N := 8.
Definition MAX_CODE_CLASS : N := 7.
Definition MAX_CODE_DETAIL : N := 31.
Definition MAX_MSG_ID : N := 65535.
Definition MAX_BLOCK_SIZE : N := 1024.
Definition MAX_BUF_LEN : N := 1152.
Definition T_CON : N := 0.
Definition T_NON : N := 1.
Definition T_ACK : N := 2.
Definition T_RST : N := 3.
Definition CL_REQ : N := 0.
Definition CL_SUCCESS : N := 2.
Definition CL_CLIENT_ERR : N := 4.
Definition CL_SERVER_ERR : N := 5.
Definition OP_URI_PATH : N := 11.
Definition OP_BLOCK2 : N := 23.
Definition OP_BLOCK1 : N := 27.

(** coap_msg_op_t.  The code stores the length beside a copy of the value
    (coap_msg_op_new, coap_msg.c 195-215); here the list carries its length. *)
Record op := mkop { o_num : N; o_val : list N }.
Definition o_len (o : op) : N := lenN (o_val o).

(** coap_msg_t.  [token_len]/[token] and [payload_len]/[payload] are lists; the
    payload pointer is NULL exactly when [payload_len] is 0 (coap_msg.c 692-720,
    815-835), so the empty list stands for both. *)
Record msg := mkmsg {
  m_ver : N; m_type : N; m_class : N; m_detail : N; m_id : N;
  m_token : list N; m_ops : list op; m_payload : list N
}.

(** coap_msg_create, coap_msg.c 348-353. *)
Definition msg_create : msg := mkmsg COAP_VER 0 0 0 0 [] [] [].

(** coap_msg_destroy, coap_msg.c 355-363: all fields zero. *)
Definition msg_zero : msg := mkmsg 0 0 0 0 0 [] [] [].

(** coap_msg_op_num_is_recognized, coap_msg.c 64-89. *)
Definition op_num_is_recognized (num : N) : bool :=
  existsb (N.eqb num) [1; 3; 4; 5; 7; 8; 11; 12; 14; 15; 17; 20; 23; 27; 28; 35; 39; 60].

(** coap_msg_op_num_is_critical / _is_unsafe, coap_msg.h 56-57. *)
Definition op_num_is_critical (num : N) : bool := negb (N.land num 1 =? 0).
Definition op_num_is_unsafe (num : N) : bool := negb (N.land num 2 =? 0).

(** coap_msg_is_empty, coap_msg.h. *)
Definition msg_is_empty (m : msg) : bool := (m_class m =? 0) && (m_detail m =? 0).

(** ** Option list *)

(** coap_msg_op_list_add_last, coap_msg.c 270-290 (allocation succeeds). *)
Definition op_list_add_last (l : list op) (o : op) : list op := l ++ [o].

(** The loop of coap_msg_op_list_add, coap_msg.c 329-341, from [prev] on: insert
    before the first later element whose predecessor is <= and which is itself
    greater, else at the end. *)
Fixpoint op_list_add_loop (prev : op) (rest : list op) (o : op) : list op :=
  match rest with
  | [] => [prev; o]
  | next :: rest' =>
    if (o_num prev <=? o_num o) && (o_num o <? o_num next)
    then prev :: o :: rest
    else prev :: op_list_add_loop next rest' o
  end.

(** coap_msg_op_list_add, coap_msg.c 306-346 (allocation succeeds). *)
Definition op_list_add (l : list op) (o : op) : list op :=
  match l with
  | [] => [o]
  | first :: rest =>
    if o_num o <? o_num first then o :: l
    else op_list_add_loop first rest o
  end.

(** ** Checks *)

(** coap_msg_check, coap_msg.c 392-414. *)
Definition msg_check (m : msg) : res unit :=
  if (m_class m =? 0) && (m_detail m =? 0)
  then if (m_type m =? T_NON) || negb (lenN (m_token m) =? 0)
          || negb (lenN (m_ops m) =? 0) || negb (lenN (m_payload m) =? 0)
       then Err EBADMSG else Ok tt
  else if m_type m =? T_RST then Err EBADMSG else Ok tt.

(** coap_msg_check_critical_ops, coap_msg.c 416-433. *)
Fixpoint check_critical_ops (l : list op) : N :=
  match l with
  | [] => 0
  | o :: l' =>
    if op_num_is_critical (o_num o) && negb (op_num_is_recognized (o_num o))
    then o_num o else check_critical_ops l'
  end.

(** coap_msg_check_unsafe_ops, coap_msg.c 435-452. *)
Fixpoint check_unsafe_ops (l : list op) : N :=
  match l with
  | [] => 0
  | o :: l' =>
    if op_num_is_unsafe (o_num o) && negb (op_num_is_recognized (o_num o))
    then o_num o else check_unsafe_ops l'
  end.

(** ** Parsing

    [p] is the memory from the current pointer to the end of the object that
    holds the datagram, [len] the C variable with the number of bytes of the
    datagram that remain.  Reads go through [rd], so a read outside the object
    is [UB OobRead].  Shifts and masks of a [char] such as [(p[0] >> 4) & 0x0f]
    give the same bits for both signednesses. *)

(** coap_msg_parse_type_msg_id, coap_msg.c 454-463. *)
Definition parse_type_msg_id (p : list N) (len : N) : res (N * N) :=
  if len <? 4 then Err EBADMSG else
  let* b0 := rd p 0 in
  let* b2 := rd p 2 in
  let* b3 := rd p 3 in
  Ok (N.land (N.shiftr b0 4) 3, N.lor (N.shiftl b2 8) b3).

(** Fields of the header, before the token is read. *)
Record hdr := mkhdr { h_type : N; h_tkl : N; h_class : N; h_detail : N; h_id : N }.

(** coap_msg_parse_hdr, coap_msg.c 476-508; the caller advances by 4. *)
Definition parse_hdr (p : list N) (len : N) : res hdr :=
  if len <? 4 then Err EBADMSG else
  let* b0 := rd p 0 in
  if negb (N.land (N.shiftr b0 6) 3 =? COAP_VER) then Err EINVAL else
  let typ := N.land (N.shiftr b0 4) 3 in
  let tkl := N.land b0 15 in
  if MAX_TOKEN_LEN <? tkl then Err EBADMSG else
  let* b1 := rd p 1 in
  let detail := N.land b1 31 in
  let class := N.land (N.shiftr b1 5) 7 in
  if negb (class =? CL_REQ) && negb (class =? CL_SUCCESS)
     && negb (class =? CL_CLIENT_ERR) && negb (class =? CL_SERVER_ERR)
  then Err EBADMSG else
  let* b2 := rd p 2 in
  let* b3 := rd p 3 in
  Ok (mkhdr typ tkl class detail (N.lor (N.shiftl b2 8) b3)).

(** coap_msg_parse_token, coap_msg.c 521-529. *)
Definition parse_token (tkl : N) (p : list N) (len : N) : res (list N) :=
  if len <? tkl then Err EBADMSG else rdn p tkl.

(** The two extended fields of an option header, coap_msg.c 562-581 (delta) and
    582-601 (length): [v] is the nibble; returns the value, the pointer and
    the remaining length. *)
Definition parse_ext (sg : signedness) (v : N) (p : list N) (len : N)
  : res (N * list N * N) :=
  if v =? 13 then
    if len <? 1 then Err EBADMSG else
    let* b := rd p 0 in
    let* p' := adv p 1 in
    Ok (add32 v (char_to_unsigned sg b), p', len - 1)
  else if v =? 14 then
    if len <? 2 then Err EBADMSG else
    let* b0 := rd p 0 in
    let* b1 := rd p 1 in
    let* p' := adv p 2 in
    Ok (269 + N.lor (N.shiftl b0 8) b1, p', len - 2)
  else Ok (v, p, len).

(** coap_msg_parse_op up to the length check, coap_msg.c 542-605: returns the
    delta, the option length, the pointer to the value and the bytes left. *)
Definition parse_op_hdr (sg : signedness) (p : list N) (len : N)
  : res (N * N * list N * N) :=
  if len <? 1 then Err EBADMSG else
  let* b0 := rd p 0 in
  let delta := N.land (N.shiftr b0 4) 15 in
  let olen := N.land b0 15 in
  if (delta =? 15) || (olen =? 15) then Err EBADMSG else
  let* p1 := adv p 1 in
  let* (delta', p2, len2) := parse_ext sg delta p1 (len - 1) in
  let* (olen', p3, len3) := parse_ext sg olen p2 len2 in
  if len3 <? olen' then Err EBADMSG else Ok (delta', olen', p3, len3).

(** Number of the last option in the list, 0 if there is none: coap_msg.c
    606-614 adds the delta to it in [unsigned] arithmetic. *)
Definition last_num (l : list op) : N :=
  match rev l with [] => 0 | o :: _ => o_num o end.

(** coap_msg_parse_op, coap_msg.c 542-623: new option list, new pointer, bytes
    left ([len -= num] in the caller). *)
Definition parse_op (sg : signedness) (ops : list op) (p : list N) (len : N)
  : res (list op * list N * N) :=
  let* (delta, olen, p1, len1) := parse_op_hdr sg p len in
  let* val := rdn p1 olen in
  let* p2 := adv p1 olen in
  let num := add32 (last_num ops) delta in
  Ok (op_list_add_last ops (mkop num val), p2, len1 - olen).

(** coap_msg_parse_ops, coap_msg.c 636-656.  The test reads [p[0]] before it
    looks at [len].  Every iteration consumes at least one byte; [fuel] bounds
    the iterations. *)
Fixpoint parse_ops (sg : signedness) (fuel : nat) (ops : list op) (p : list N) (len : N)
  : res (list op * list N * N) :=
  match fuel with
  | O => OutOfFuel
  | S fuel' =>
    let* b := rd p 0 in
    if (N.land b 255 =? 255) || (len =? 0) then Ok (ops, p, len)
    else
      let* (ops', p', len') := parse_op sg ops p len in
      parse_ops sg fuel' ops' p' len'
  end.

(** coap_msg_parse_payload, coap_msg.c 692-720. *)
Definition parse_payload (p : list N) (len : N) : res (list N) :=
  if len =? 0 then Ok [] else
  let* b := rd p 0 in
  if negb (N.land b 255 =? 255) then Err EBADMSG else
  let* p1 := adv p 1 in
  if len - 1 =? 0 then Err EBADMSG else rdn p1 (len - 1).

(** coap_msg_parse without the final check, coap_msg.c 722-757.  [p] is the
    object that holds the datagram, [len] the datagram length. *)
Definition msg_parse_raw (sg : signedness) (p : list N) (len : N) : res msg :=
  let* h := parse_hdr p len in
  let* p1 := adv p 4 in
  let len1 := len - 4 in
  let* tok := parse_token (h_tkl h) p1 len1 in
  let* p2 := adv p1 (h_tkl h) in
  let len2 := len1 - h_tkl h in
  let* (ops, p3, len3) := parse_ops sg (S (N.to_nat len2)) [] p2 len2 in
  let* pl := parse_payload p3 len3 in
  Ok (mkmsg COAP_VER (h_type h) (h_class h) (h_detail h) (h_id h) tok ops pl).

(** coap_msg_parse, coap_msg.c 722-759. *)
Definition msg_parse (sg : signedness) (p : list N) (len : N) : res msg :=
  let* m := msg_parse_raw sg p len in
  let* _ := msg_check m in
  Ok m.

(** The message structure that coap_msg_parse leaves behind: destroyed if one
    of the parts fails (coap_msg.c 729-757), but left filled in if only the
    final check fails (coap_msg.c 758). *)
Definition msg_parse_left (sg : signedness) (p : list N) (len : N) : msg :=
  match msg_parse_raw sg p len with Ok m => m | _ => msg_zero end.

(** ** Setters *)

(** coap_msg_set_type, coap_msg.c 761-772. *)
Definition set_type (m : msg) (t : N) : res msg :=
  if negb (t =? T_CON) && negb (t =? T_NON) && negb (t =? T_ACK) && negb (t =? T_RST)
  then Err EINVAL
  else Ok (mkmsg (m_ver m) t (m_class m) (m_detail m) (m_id m) (m_token m) (m_ops m) (m_payload m)).

(** coap_msg_set_code, coap_msg.c 774-787. *)
Definition set_code (m : msg) (c d : N) : res msg :=
  if MAX_CODE_CLASS <? c then Err EINVAL else
  if MAX_CODE_DETAIL <? d then Err EINVAL else
  Ok (mkmsg (m_ver m) (m_type m) c d (m_id m) (m_token m) (m_ops m) (m_payload m)).

(** coap_msg_set_msg_id, coap_msg.c 789-797. *)
Definition set_msg_id (m : msg) (i : N) : res msg :=
  if MAX_MSG_ID <? i then Err EINVAL else
  Ok (mkmsg (m_ver m) (m_type m) (m_class m) (m_detail m) i (m_token m) (m_ops m) (m_payload m)).

(** coap_msg_set_token, coap_msg.c 799-808. *)
Definition set_token (m : msg) (t : list N) : res msg :=
  if MAX_TOKEN_LEN <? lenN t then Err EINVAL else
  Ok (mkmsg (m_ver m) (m_type m) (m_class m) (m_detail m) (m_id m) t (m_ops m) (m_payload m)).

(** coap_msg_add_op, coap_msg.c 810-813. *)
Definition add_op (m : msg) (num : N) (val : list N) : res msg :=
  Ok (mkmsg (m_ver m) (m_type m) (m_class m) (m_detail m) (m_id m) (m_token m)
            (op_list_add (m_ops m) (mkop num val)) (m_payload m)).

(** coap_msg_set_payload, coap_msg.c 815-835. *)
Definition set_payload (m : msg) (pl : list N) : res msg :=
  Ok (mkmsg (m_ver m) (m_type m) (m_class m) (m_detail m) (m_id m) (m_token m) (m_ops m) pl).

(** coap_msg_clear_payload, coap_msg.c 837-845. *)
Definition clear_payload (m : msg) : msg :=
  mkmsg (m_ver m) (m_type m) (m_class m) (m_detail m) (m_id m) (m_token m) (m_ops m) [].

(** A call of one of the setters, to speak about every way to build a message.
    A failing setter leaves the message unchanged. *)
Inductive setter :=
| SetType (t : N) | SetCode (c d : N) | SetMsgId (i : N) | SetToken (t : list N)
| AddOp (num : N) (val : list N) | SetPayload (pl : list N) | ClearPayload.

Definition run_setter (m : msg) (s : setter) : msg :=
  let r := match s with
           | SetType t => set_type m t
           | SetCode c d => set_code m c d
           | SetMsgId i => set_msg_id m i
           | SetToken t => set_token m t
           | AddOp n v => add_op m n v
           | SetPayload pl => set_payload m pl
           | ClearPayload => Ok (clear_payload m)
           end in
  match r with Ok m' => m' | _ => m end.

Definition msg_build (l : list setter) : msg := fold_left run_setter l msg_create.

(** ** Formatting

    [out] is what has been written so far and [cap] the size of the buffer
    object: since all writes are sequential, the write position is the length
    of [out].  [len] is the C variable with the remaining space. *)

(** Write bytes at the current position. *)
Definition wr (cap : N) (out bs : list N) : res (list N) :=
  if lenN out + lenN bs <=? cap then Ok (out ++ bs) else UB OobWrite.

(** The low 8 bits kept by an assignment to a [char]. *)
Definition lo8 (v : N) : N := v mod 256.

(** [htons] of a value converted to uint16_t, as stored in memory. *)
Definition be16 (v : N) : list N := [N.shiftr (v mod two16) 8; (v mod two16) mod 256].

(** coap_msg_format_hdr, coap_msg.c 858-874. *)
Definition format_hdr (cap : N) (m : msg) (out : list N) (len : N) : res (list N) :=
  if len <? 4 then Err ENOSPC else
  let b0 := lo8 (N.lor (N.lor (N.shiftl COAP_VER 6) (N.shiftl (N.land (m_type m) 3) 4))
                       (N.land (lenN (m_token m)) 15)) in
  let b1 := lo8 (N.lor (N.shiftl (N.land (m_class m) 7) 5) (N.land (m_detail m) 31)) in
  wr cap out (b0 :: b1 :: be16 (m_id m)).

(** coap_msg_format_token, coap_msg.c 887-895. *)
Definition format_token (cap : N) (m : msg) (out : list N) (len : N) : res (list N) :=
  if len <? lenN (m_token m) then Err ENOSPC else wr cap out (m_token m).

(** Bytes needed by an option as computed at coap_msg.c 916-940; [num] is
    [unsigned].  Line 934 tests the option number where the length is meant. *)
Definition format_op_need (delta : N) (o : op) : N :=
  let n := 1 in
  let n := if 269 <=? delta then n + 2 else if 13 <=? delta then n + 1 else n in
  let n := if 269 <=? o_len o then n + 2 else if 13 <=? o_num o then n + 1 else n in
  add32 n (o_len o).

(** Nibble for a delta or length, coap_msg.c 946-972. *)
Definition nibble (v : N) : N := if 269 <=? v then 14 else if 13 <=? v then 13 else v.

(** Extension bytes for a delta or length, coap_msg.c 976-1004. *)
Definition ext_bytes (v : N) : list N :=
  if 269 <=? v then be16 (v - 269) else if 13 <=? v then [lo8 (v - 13)] else [].

(** coap_msg_format_op, coap_msg.c 909-1011. *)
Definition format_op (cap : N) (o : op) (prev_num : N) (out : list N) (len : N)
  : res (list N) :=
  let delta := sub32 (o_num o) prev_num in
  if len <? format_op_need delta o then Err ENOSPC else
  let* out1 := wr cap out [lo8 (N.lor (N.shiftl (nibble delta) 4) (nibble (o_len o)))] in
  let* out2 := wr cap out1 (ext_bytes delta) in
  let* out3 := wr cap out2 (ext_bytes (o_len o)) in
  wr cap out3 (o_val o).

(** coap_msg_format_ops, coap_msg.c 1024-1045; [len -= num] is size_t. *)
Fixpoint format_ops (cap : N) (l : list op) (prev_num : N) (out : list N) (len : N)
  : res (list N) :=
  match l with
  | [] => Ok out
  | o :: l' =>
    let* out' := format_op cap o prev_num out len in
    format_ops cap l' (o_num o) out' (sub64 len (lenN out' - lenN out))
  end.

(** coap_msg_format_payload, coap_msg.c 1058-1071. *)
Definition format_payload (cap : N) (m : msg) (out : list N) (len : N) : res (list N) :=
  if lenN (m_payload m) =? 0 then Ok out else
  if len <? lenN (m_payload m) + 1 then Err ENOSPC else
  wr cap out (255 :: m_payload m).

(** coap_msg_format, coap_msg.c 1073-1112, called with a buffer of [cap] bytes
    and [len = cap].  The result is the bytes written; the C function returns
    their number. *)
Definition msg_format (m : msg) (cap : N) : res (list N) :=
  let* _ := msg_check m in
  let* o1 := format_hdr cap m [] cap in
  let* o2 := format_token cap m o1 (sub64 cap (lenN o1)) in
  let* o3 := format_ops cap (m_ops m) 0 o2 (sub64 cap (lenN o2)) in
  format_payload cap m o3 (sub64 cap (lenN o3)).

(** ** Block options *)

(** coap_msg_op_calc_block_szx, coap_msg.c 91-106. *)
Definition calc_block_szx (size : N) : res N :=
  if size =? 16 then Ok 0 else if size =? 32 then Ok 1 else if size =? 64 then Ok 2
  else if size =? 128 then Ok 3 else if size =? 256 then Ok 4
  else if size =? 512 then Ok 5 else if size =? 1024 then Ok 6 else Err EINVAL.

(** A decoded block option. *)
Record blk := mkblk { b_num : N; b_more : bool; b_size : N }.

(** coap_msg_op_parse_block_val, coap_msg.c 108-135.  [val] is the memory at the
    value pointer; [len] the option length.  Any length other than 1 and 2
    takes the three-byte branch. *)
Definition parse_block_val (val : list N) (len : N) : res blk :=
  let fin num last :=
    let size := N.shiftl 1 (N.land last 7 + 4) in
    if MAX_BLOCK_SIZE <? size then Err EINVAL
    else Ok (mkblk num (negb (N.land last 8 =? 0)) size) in
  if len =? 1 then
    let* v0 := rd val 0 in
    fin (N.shiftr (N.land v0 240) 4) v0
  else if len =? 2 then
    let* v0 := rd val 0 in
    let* v1 := rd val 1 in
    fin (N.lor (N.shiftl v0 4) (N.shiftr (N.land v1 240) 4)) v1
  else
    let* v0 := rd val 0 in
    let* v1 := rd val 1 in
    let* v2 := rd val 2 in
    fin (N.lor (N.lor (N.shiftl v0 12) (N.shiftl v1 4)) (N.shiftr (N.land v2 240) 4)) v2.

(** coap_msg_op_format_block_val, coap_msg.c 137-183, for a value buffer of at
    least [len] bytes. *)
Definition format_block_val (len num : N) (more : bool) (size : N) : res (list N) :=
  let* szx := calc_block_szx size in
  let mb := N.shiftl (if more then 1 else 0) 3 in
  let last := lo8 (N.lor (N.lor (lo8 (N.shiftl num 4)) mb) szx) in
  if len =? 1 then
    if N.shiftl 1 4 <? num then Err EINVAL else Ok [last]
  else if len =? 2 then
    if N.shiftl 1 12 <? num then Err EINVAL else Ok [lo8 (N.shiftr num 4); last]
  else if len =? 3 then
    if N.shiftl 1 20 <? num then Err EINVAL
    else Ok [lo8 (N.shiftr num 12); lo8 (N.shiftr num 4); last]
  else Err EINVAL.

(** coap_msg_parse_block_op, coap_msg.c 658-679: the first option of the wanted
    kind; [Ok None] stands for the return value 1 (not found).  The value buffer
    holds exactly the option value; bytes after it in the pool buffer are
    indeterminate, so reading them is [UB]. *)
Fixpoint parse_block_op (l : list op) (type : N) : res (option blk) :=
  match l with
  | [] => Ok None
  | o :: l' =>
    if ((o_num o =? OP_BLOCK1) && (type =? OP_BLOCK1))
       || ((o_num o =? OP_BLOCK2) && (type =? OP_BLOCK2))
    then let* b := parse_block_val (o_val o) (o_len o) in Ok (Some b)
    else parse_block_op l' type
  end.

(** ** Copy and path *)

(** coap_msg_copy, coap_msg.c 1114-1156 (allocation succeeds): the new state of
    [dst].  Options are added to those that [dst] already has. *)
Definition msg_copy (dst src : msg) : res msg :=
  let dst := mkmsg (m_ver src) (m_type dst) (m_class dst) (m_detail dst) (m_id dst)
                   (m_token dst) (m_ops dst) (m_payload dst) in
  let* d1 := set_type dst (m_type src) in
  let* d2 := set_code d1 (m_class src) (m_detail src) in
  let* d3 := set_msg_id d2 (m_id src) in
  let* d4 := set_token d3 (m_token src) in
  let d5 := mkmsg (m_ver d4) (m_type d4) (m_class d4) (m_detail d4) (m_id d4) (m_token d4)
                  (fold_left op_list_add (m_ops src) (m_ops d4)) (m_payload d4) in
  set_payload d5 (m_payload src).

(** One option in the loop of coap_msg_uri_path_to_str, coap_msg.c 1176-1195.
    State: bytes written, space left [n], count [c]. *)
Definition path_step (st : list N * N * N) (o : op) : list N * N * N :=
  let '(out, n, c) := st in
  if o_num o =? OP_URI_PATH then
    let m := 1 in
    let c := c + m in
    let m := if n <? m then n else m in
    let out := out ++ firstn (N.to_nat m) [47] in
    let n := n - m in
    let m := o_len o in
    let c := c + m in
    let m := if n <? m then n else m in
    (out ++ firstn (N.to_nat m) (o_val o), n - m, c)
  else st.

(** coap_msg_uri_path_to_str, coap_msg.c 1158-1202: the final content of the
    [len]-byte buffer ([None] if it is not touched) and the value returned.
    The buffer is first filled with zeros. *)
Definition uri_path_to_str (l : list op) (len : N) : res (option (list N) * N) :=
  if len =? 0 then Ok (None, 0) else
  let '(out, n, c) := fold_left path_step l ([], len - 1, 0) in
  let pad o := o ++ repeat 0 (N.to_nat (len - lenN o)) in
  if len <? lenN out then UB OobWrite else
  if (lenN out =? 0) && (1 <? len) then Ok (Some (pad [47]), 1)
  else Ok (Some (pad out), c).
