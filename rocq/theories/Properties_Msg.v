(** Property theorems for the message codec (C01-C12). *)
From Coq Require Import Permutation.
From Verif Require Import Base BaseLemmas MsgModel MsgSpec MsgLemmas MsgFormatLemmas MsgBlockLemmas.

(** C01, full statement: for both signednesses of [char], every message built by
    the setters that can be represented on the wire is read back unchanged from
    what coap_msg_format wrote.  False with signed [char]: an option number
    difference of 200 is written with an extension byte above 127. *)
Theorem C01_decode_encode_refuted :
  exists l cap b past,
  Forall setter_ok l /\ representable (msg_build l) /\ cap < two64 /\
  msg_format (msg_build l) cap = Ok b /\ lenN b < two16 /\ past <> [] /\
  msg_parse SignedChar (b ++ past) (lenN b) <> Ok (msg_build l).
Proof.
  exists [SetCode 0 1; AddOp 200 [65]], 64, [64; 1; 0; 0; 209; 187; 65], [0].
  repeat split; try discriminate.
  - repeat constructor.
  - left. reflexivity.
Qed.
Print Assumptions C01_decode_encode_refuted.

(** C01 for unsigned [char], and for signed [char] if no option number
    difference or length lies in 141..268.  Missing: signed [char] beyond that,
    where the statement is false. *)
Theorem C01_decode_encode_partial :
  forall l sg cap b past,
  Forall setter_ok l ->
  representable (msg_build l) ->
  (sg = UnsignedChar \/ exts_low 0 (m_ops (msg_build l))) ->
  cap < two64 ->
  msg_format (msg_build l) cap = Ok b ->
  lenN b < two16 -> past <> [] ->
  msg_parse sg (b ++ past) (lenN b) = Ok (msg_build l).
Proof. exact decode_encode. Qed.
Print Assumptions C01_decode_encode_partial.

Definition C01_msg : list setter :=
  [SetType 1; SetCode 2 5; SetMsgId 48879; SetToken [1; 2; 3]; AddOp 500 (repeat 7 20);
   AddOp 11 [97]; AddOp 11 [98; 99]; AddOp 4 []; SetPayload [255; 0; 255]].
Example C01_example :
  Forall setter_ok C01_msg /\ representable (msg_build C01_msg) /\ exts_low 0 (m_ops (msg_build C01_msg)) /\
  exists b, msg_format (msg_build C01_msg) 100 = Ok b /\
            msg_parse SignedChar (b ++ [9]) (lenN b) = Ok (msg_build C01_msg).
Proof.
  split.
  { unfold C01_msg. repeat (apply Forall_cons; [first [exact I | apply bytes_okb_spec; reflexivity
      | split; [reflexivity|split; [apply bytes_okb_spec; reflexivity|reflexivity]]]|]). constructor. }
  split; [vm_compute; repeat split; auto; intro; discriminate|].
  split; [vm_compute; repeat split; (left; reflexivity) || (right; discriminate)|].
  eexists. split; vm_compute; reflexivity.
Qed.

(** C02, full statement: for both signednesses, formatting a parsed message into
    a large enough buffer gives the datagram back.  False with signed [char]. *)
Theorem C02_encode_decode_refuted :
  exists b past m cap,
  bytes_ok b /\ lenN b < two16 /\ past <> [] /\
  msg_parse SignedChar (b ++ past) (lenN b) = Ok m /\ lenN b + 100 < cap /\ cap < two64 /\
  msg_format m cap <> Ok b.
Proof.
  exists [64; 1; 0; 0; 208; 200], [0], (mkmsg 1 0 0 1 0 [] [mkop 4294967253 []] []), 200.
  repeat split; try discriminate. repeat constructor.
Qed.
Print Assumptions C02_encode_decode_refuted.

(** C02 for unsigned [char], for every buffer at least one byte longer than the
    datagram. *)
Theorem C02_encode_decode_partial :
  forall b past m cap,
  bytes_ok b -> lenN b < two16 -> past <> [] ->
  msg_parse UnsignedChar (b ++ past) (lenN b) = Ok m ->
  lenN b < cap -> cap < two64 -> msg_format m cap = Ok b.
Proof. exact encode_decode. Qed.
Print Assumptions C02_encode_decode_partial.

Example C02_example :
  let b := [82; 69; 190; 239; 1; 2; 64; 113; 97; 224; 0; 220; 0; 255; 104; 105] in
  bytes_ok b /\ exists m, msg_parse UnsignedChar (b ++ [0]) (lenN b) = Ok m /\ msg_format m 17 = Ok b.
Proof.
  split; [apply bytes_okb_spec; vm_compute; reflexivity|]. eexists. split; vm_compute; reflexivity.
Qed.

(** C03, full statement: for both signednesses the parser accepts exactly the
    datagrams of the grammar.  False with signed [char]: this datagram encodes a
    message with option 213, the parser reports option 4294967253. *)
Theorem C03_parser_is_grammar_refuted :
  exists b past m,
  bytes_ok b /\ lenN b < two16 /\ past <> [] /\ encodes m b /\
  msg_parse SignedChar (b ++ past) (lenN b) <> Ok m.
Proof.
  exists [64; 1; 0; 0; 208; 200], [0], (mkmsg 1 0 0 1 0 [] [mkop 213 []] []).
  split; [repeat constructor|]. split; [reflexivity|]. split; [discriminate|]. split; [|discriminate].
  apply (parse_sound _ [0]); [repeat constructor|reflexivity|reflexivity].
Qed.
Print Assumptions C03_parser_is_grammar_refuted.

(** C03 for unsigned [char]. *)
Theorem C03_parser_is_grammar_partial :
  forall b past m,
  bytes_ok b -> lenN b < two16 -> past <> [] ->
  (msg_parse UnsignedChar (b ++ past) (lenN b) = Ok m <-> encodes m b).
Proof. exact parse_iff. Qed.
Print Assumptions C03_parser_is_grammar_partial.

(** C03 for signed [char], one direction: datagrams without a large extension
    byte are read as the grammar says. *)
Theorem C03_parser_complete_partial :
  forall sg b past m,
  encodes m b -> lenN b < two16 -> (sg = UnsignedChar \/ exts_low 0 (m_ops m)) ->
  past <> [] \/ m_payload m <> [] ->
  msg_parse sg (b ++ past) (lenN b) = Ok m.
Proof. exact parse_complete. Qed.
Print Assumptions C03_parser_complete_partial.

Example C03_example :
  encodes (mkmsg 1 0 0 1 7 [9] [mkop 11 [97; 98]] [33]) [65; 1; 0; 7; 9; 178; 97; 98; 255; 33].
Proof.
  apply (parse_sound _ [0]); [apply bytes_okb_spec; vm_compute; reflexivity|reflexivity|reflexivity].
Qed.

(** C04, full statement: the parser reads only buf[0..len-1].  False: with the
    datagram at the end of its object it reads the byte after it. *)
Theorem C04_parser_in_bounds_refuted :
  exists sg b, bytes_ok b /\ msg_parse sg b (lenN b) = UB OobRead.
Proof.
  exists UnsignedChar, [64; 1; 0; 0]. split; [repeat constructor|reflexivity].
Qed.
Print Assumptions C04_parser_in_bounds_refuted.

(** C04 with one readable byte after the datagram: no access beyond that byte,
    and neither its value nor anything after it matters. *)
Theorem C04_parser_in_bounds_partial :
  forall sg b x,
  ((exists m, msg_parse sg (b ++ [x]) (lenN b) = Ok m) \/
   msg_parse sg (b ++ [x]) (lenN b) = Err EBADMSG \/
   msg_parse sg (b ++ [x]) (lenN b) = Err EINVAL) /\
  forall y past, msg_parse sg (b ++ y :: past) (lenN b) = msg_parse sg (b ++ [x]) (lenN b).
Proof.
  intros sg b x. split.
  - apply parse_err_or_ok. discriminate.
  - intros y past. apply parse_past_irrelevant; discriminate.
Qed.
Print Assumptions C04_parser_in_bounds_partial.

(** C04 at the end of the object: whatever the parser returns there is also what
    it returns elsewhere, and an accepted datagram with a payload is read within
    bounds. *)
Theorem C04_parser_at_end_partial :
  forall sg b x,
  (msg_parse sg b (lenN b) = UB OobRead \/
   msg_parse sg b (lenN b) = msg_parse sg (b ++ [x]) (lenN b)) /\
  (forall m, msg_parse sg (b ++ [x]) (lenN b) = Ok m -> m_payload m <> [] ->
   msg_parse sg b (lenN b) = Ok m).
Proof.
  intros sg b x. split.
  - apply parse_exact. discriminate.
  - intros m. apply parse_exact_payload. discriminate.
Qed.
Print Assumptions C04_parser_at_end_partial.

Example C04_example :
  msg_parse SignedChar ([64; 1; 0; 0; 255; 7] ++ []) 6 = Ok (mkmsg 1 0 0 1 0 [] [] [7]) /\
  msg_parse SignedChar ([64; 1; 0; 0; 209] ++ [200; 201]) 5 = Err EBADMSG.
Proof. split; reflexivity. Qed.

(** C05, full statement: coap_msg_format never writes outside the buffer.
    False: with an option of number below 13 and length 13 to 268 and a buffer
    one byte too short, it writes one byte too much. *)
Theorem C05_formatter_in_bounds_refuted :
  exists l cap, Forall setter_ok l /\ cap < two64 /\ msg_format (msg_build l) cap = UB OobWrite.
Proof.
  exists [SetCode 0 1; AddOp 11 (repeat 97 13)], 18. split; [|split; reflexivity].
  apply Forall_cons; [exact I|]. apply Forall_cons; [|constructor].
  split; [reflexivity|]. split; [repeat constructor|reflexivity].
Qed.
Print Assumptions C05_formatter_in_bounds_refuted.

(** C05 if the wire form fits, or if no option has number below 13 and length
    13 to 268; option lengths below 2^32 - 5. *)
Theorem C05_formatter_in_bounds_partial :
  forall l cap,
  Forall setter_ok l -> cap < two64 ->
  Forall len_ok (m_ops (msg_build l)) ->
  (wire_size (msg_build l) <= cap \/ Forall no_short (m_ops (msg_build l))) ->
  (exists b, msg_format (msg_build l) cap = Ok b /\ lenN b <= cap) \/
  msg_format (msg_build l) cap = Err ENOSPC \/ msg_format (msg_build l) cap = Err EBADMSG.
Proof. exact format_no_overflow. Qed.
Print Assumptions C05_formatter_in_bounds_partial.

Example C05_example :
  let m := msg_build [SetCode 0 1; AddOp 35 (repeat 97 13); AddOp 11 [1]] in
  Forall no_short (m_ops m) /\ msg_format m 21 = Err ENOSPC /\
  exists b, msg_format m 22 = Ok b /\ lenN b = 22.
Proof.
  split; [|split; [reflexivity|eexists; split; reflexivity]].
  constructor; [right; left; reflexivity|]. constructor; [left; discriminate|constructor].
Qed.

(** C06, full statement: -ENOSPC only if the buffer is shorter than the wire
    form.  False: Uri-Query "a" in a buffer of exactly the right size. *)
Theorem C06_formatter_succeeds_refuted :
  exists l cap, Forall setter_ok l /\ cap < two64 /\ representable (msg_build l) /\
  consistent (msg_build l) /\ wire_size (msg_build l) <= cap /\
  msg_format (msg_build l) cap = Err ENOSPC.
Proof.
  exists [SetCode 0 1; AddOp 15 [97]], 7. split; [repeat constructor|]. split; [reflexivity|].
  split; [split; [left; reflexivity|repeat split; discriminate]|].
  split; [split; [intros [_ C]; discriminate C|intro C; discriminate C]|].
  split; [discriminate|reflexivity].
Qed.
Print Assumptions C06_formatter_succeeds_refuted.

(** C06 with one byte to spare, or at the exact size if no option has number 13
    or above and length below 13. *)
Theorem C06_formatter_succeeds_partial :
  forall l cap,
  Forall setter_ok l -> cap < two64 ->
  Forall len_ok (m_ops (msg_build l)) ->
  consistent (msg_build l) ->
  (wire_size (msg_build l) < cap \/
   wire_size (msg_build l) <= cap /\ Forall no_long (m_ops (msg_build l))) ->
  exists b, msg_format (msg_build l) cap = Ok b /\ lenN b = wire_size (msg_build l).
Proof. exact format_room. Qed.
Print Assumptions C06_formatter_succeeds_partial.

Example C06_example :
  let m := msg_build [SetCode 0 1; AddOp 15 [97]] in
  wire_size m = 7 /\ exists b, msg_format m 8 = Ok b /\ lenN b = 7.
Proof. split; [reflexivity|eexists; split; reflexivity]. Qed.

(** C07: options are sorted by number, a permutation of those added, and for
    every number in the order in which they were added. *)
Theorem C07_options_sorted_stable :
  forall l,
  let r := m_ops (msg_build l) in
  ops_sorted r /\ Permutation r (added l) /\ (forall n, with_num n r = with_num n (added l)).
Proof. exact build_ops_spec. Qed.
Print Assumptions C07_options_sorted_stable.

Example C07_example :
  m_ops (msg_build [AddOp 11 [2]; AddOp 60 []; SetType 9; AddOp 11 [1]; AddOp 3 [0]; AddOp 12 [5]])
  = [mkop 3 [0]; mkop 11 [2]; mkop 11 [1]; mkop 12 [5]; mkop 60 []].
Proof. reflexivity. Qed.

(** C08: the critical check returns 0 exactly when every odd-numbered option is
    recognised, else the number of the first offender. *)
Theorem C08_critical_detected :
  forall l,
  let bad o := N.odd (o_num o) = true /\ op_num_is_recognized (o_num o) = false in
  (check_critical_ops l = 0 <-> forall o, In o l -> ~ bad o) /\
  (check_critical_ops l <> 0 ->
   exists l1 o l2, l = l1 ++ o :: l2 /\ bad o /\ check_critical_ops l = o_num o /\
                   forall x, In x l1 -> ~ bad x).
Proof. exact check_critical_spec. Qed.
Print Assumptions C08_critical_detected.

(** C08: the same for the unsafe check and bit 1. *)
Theorem C08_unsafe_detected :
  forall l,
  let bad o := N.testbit (o_num o) 1 = true /\ op_num_is_recognized (o_num o) = false in
  (check_unsafe_ops l = 0 <-> forall o, In o l -> ~ bad o) /\
  (check_unsafe_ops l <> 0 ->
   exists l1 o l2, l = l1 ++ o :: l2 /\ bad o /\ check_unsafe_ops l = o_num o /\
                   forall x, In x l1 -> ~ bad x).
Proof. exact check_unsafe_spec. Qed.
Print Assumptions C08_unsafe_detected.

(** The recognised options are those of RFC 7252 section 5.10 and RFC 7959. *)
Theorem C08_recognised :
  forall n, op_num_is_recognized n = true <->
  In n [1; 3; 4; 5; 7; 8; 11; 12; 14; 15; 17; 20; 23; 27; 28; 35; 39; 60].
Proof.
  intro n. unfold op_num_is_recognized. rewrite existsb_exists. split.
  - intros (x & Hx & E). apply N.eqb_eq in E. subst. exact Hx.
  - intro H. exists n. split; [exact H|apply N.eqb_refl].
Qed.
Print Assumptions C08_recognised.

Example C08_example :
  check_critical_ops [mkop 11 []; mkop 6 []; mkop 9 []; mkop 13 []] = 9 /\
  check_unsafe_ops [mkop 11 []; mkop 6 []; mkop 9 []] = 6.
Proof. split; reflexivity. Qed.

(** C09, full statement: whatever format_block_val accepts is read back.  False
    at block number 16 in one byte (also 4096 in two and 1048576 in three). *)
Theorem C09_block_round_trip_refuted :
  exists len num more size v,
  format_block_val len num more size = Ok v /\
  parse_block_val v len <> Ok (mkblk num more size).
Proof. exists 1, 16, true, 64, [10]. split; [reflexivity|discriminate]. Qed.
Print Assumptions C09_block_round_trip_refuted.

(** C09 for block numbers that fit in the option; such numbers are accepted for
    every size 16..1024. *)
Theorem C09_block_round_trip_partial :
  forall len num more,
  num < 2 ^ (8 * len - 4) ->
  (forall size v past, format_block_val len num more size = Ok v ->
     lenN v = len /\ parse_block_val (v ++ past) len = Ok (mkblk num more size)) /\
  (1 <= len <= 3 -> forall szx, szx < 7 ->
     exists v, format_block_val len num more (2 ^ (4 + szx)) = Ok v).
Proof.
  intros len num more Hn. split.
  - intros size v past H. split; [exact (proj1 (format_block_val_spec _ _ _ _ _ H Hn))|].
    exact (block_round_trip _ _ _ _ _ past H Hn).
  - intros Hl szx Hs. exact (format_block_val_ok len num more szx Hl Hn Hs).
Qed.
Print Assumptions C09_block_round_trip_partial.

Example C09_example :
  format_block_val 3 1048575 true 1024 = Ok [255; 255; 254] /\
  parse_block_val [255; 255; 254] 3 = Ok (mkblk 1048575 true 1024).
Proof. split; reflexivity. Qed.

(** C10, full statement: block option parsing reads only the value and rejects
    lengths a block option cannot have.  False: a zero-length value is read
    out of bounds, a four-byte value is accepted. *)
Theorem C10_block_parse_refuted :
  parse_block_val [] 0 = UB OobRead /\
  exists v b, lenN v = 4 /\ bytes_ok v /\ parse_block_val v 4 = Ok b.
Proof.
  split; [reflexivity|]. exists [0; 0; 18; 99], (mkblk 1 false 64). split; [reflexivity|].
  split; [repeat constructor|reflexivity].
Qed.
Print Assumptions C10_block_parse_refuted.

(** C10 for values of one to three bytes: only the value is read and the result
    is the one RFC 7959 assigns to it, with -EINVAL for the reserved size. *)
Theorem C10_block_parse_partial :
  forall v past,
  bytes_ok v -> 1 <= lenN v <= 3 ->
  (forall b, parse_block_val (v ++ past) (lenN v) = Ok b <-> block_value (be_val v) b) /\
  ((exists b, parse_block_val (v ++ past) (lenN v) = Ok b) \/
   parse_block_val (v ++ past) (lenN v) = Err EINVAL).
Proof.
  intros v past Hb Hl. split.
  - intro b. exact (parse_block_val_spec v past b Hb Hl).
  - exact (parse_block_val_total v past Hb Hl).
Qed.
Print Assumptions C10_block_parse_partial.

Example C10_example : block_value (be_val [1; 42]) (mkblk 18 true 64).
Proof. exact (block_value_intro 18 true 2 eq_refl). Qed.

(** C11, full statement: copying any message that the setters or the parser can
    produce into a fresh message keeps the wire form.  False with signed [char],
    where the parser can produce an unsorted option list. *)
Theorem C11_copy_refuted :
  exists b past m m' cap,
  bytes_ok b /\ lenN b < two16 /\ past <> [] /\
  msg_parse SignedChar (b ++ past) (lenN b) = Ok m /\
  msg_copy msg_create m = Ok m' /\ msg_format m' cap <> msg_format m cap.
Proof.
  exists [64; 1; 0; 0; 48; 208; 240], [0].
  eexists. eexists. exists 200. split; [repeat constructor|]. split; [reflexivity|]. split; [discriminate|].
  split; [vm_compute; reflexivity|]. split; [vm_compute; reflexivity|]. vm_compute. discriminate.
Qed.
Print Assumptions C11_copy_refuted.

(** C11 for every message built by setters and every message parsed with
    unsigned [char]: the copy equals the source.  The source is an argument of a
    function in the model, so it cannot change. *)
Theorem C11_copy_partial :
  (forall l, Forall setter_ok l -> msg_copy msg_create (msg_build l) = Ok (msg_build l)) /\
  (forall b past m, bytes_ok b -> lenN b < two16 ->
     msg_parse UnsignedChar (b ++ past) (lenN b) = Ok m -> msg_copy msg_create m = Ok m).
Proof. split; [exact copy_built|exact copy_parsed]. Qed.
Print Assumptions C11_copy_partial.

Example C11_example : msg_copy msg_create (msg_build C01_msg) = Ok (msg_build C01_msg).
Proof. vm_compute. reflexivity. Qed.

(** C12, full statement: the path is written truncated and terminated, and the
    length of the full path is returned.  False for the root path in a one-byte
    buffer: 0 is returned. *)
Theorem C12_uri_path_refuted :
  exists l len, 0 < len /\ path_bytes l = [] /\
  exists buf, uri_path_to_str l len = Ok (buf, 0).
Proof. exists [], 1. split; [reflexivity|]. split; [reflexivity|]. eexists. vm_compute. reflexivity. Qed.
Print Assumptions C12_uri_path_refuted.

(** C12 for buffers of at least two bytes; the root path is "/". *)
Theorem C12_uri_path_partial :
  forall l len, 2 <= len ->
  let full := match path_bytes l with [] => [47] | p => p end in
  let shown := firstn (N.to_nat (len - 1)) full in
  uri_path_to_str l len
  = Ok (Some (shown ++ repeat 0 (N.to_nat (len - lenN shown))), lenN full).
Proof. exact uri_path_spec. Qed.
Print Assumptions C12_uri_path_partial.

(** C12 for every length: no write outside, and the last byte is the
    terminator. *)
Theorem C12_uri_path_safe_partial :
  forall l len, exists buf n, uri_path_to_str l len = Ok (buf, n) /\
  match buf with
  | None => len = 0
  | Some b => lenN b = len /\ exists s, b = s ++ [0]
  end.
Proof. exact uri_path_safe. Qed.
Print Assumptions C12_uri_path_safe_partial.

Example C12_example :
  uri_path_to_str [mkop 3 [120]; mkop 11 [97; 98]; mkop 11 [99]] 5
  = Ok (Some [47; 97; 98; 47; 0], 5) /\
  uri_path_to_str [mkop 3 [120]] 4 = Ok (Some [47; 0; 0; 0], 1).
Proof. split; reflexivity. Qed.

(** C62, full statement: whatever coap_msg_format produces is the wire form of
    the message.  False: an option number of 70000 is written modulo 2^16. *)
Theorem C62_format_faithful_refuted :
  exists l cap b, Forall setter_ok l /\ cap < two64 /\ known_class (m_class (msg_build l)) /\
  msg_format (msg_build l) cap = Ok b /\ ~ encodes (msg_build l) b.
Proof.
  exists [SetCode 0 1; AddOp 70000 []], 64, [64; 1; 0; 0; 224; 16; 99].
  split; [repeat constructor|]. split; [reflexivity|]. split; [left; reflexivity|].
  split; [reflexivity|].
  intro C. apply (parse_complete UnsignedChar _ [0]) in C; try reflexivity; auto; [|left; discriminate].
  vm_compute in C. discriminate.
Qed.
Print Assumptions C62_format_faithful_refuted.

(** C62 for representable messages: code class 0, 2, 4 or 5, option lengths and
    number differences at most 65804. *)
Theorem C62_format_faithful_partial :
  forall l cap b,
  Forall setter_ok l -> cap < two64 -> representable (msg_build l) ->
  msg_format (msg_build l) cap = Ok b -> encodes (msg_build l) b.
Proof. exact format_encodes. Qed.
Print Assumptions C62_format_faithful_partial.

Example C62_example :
  representable (msg_build C01_msg) /\ exists b, msg_format (msg_build C01_msg) 64 = Ok b.
Proof.
  split; [vm_compute; repeat split; auto; intro; discriminate|]. eexists. vm_compute. reflexivity.
Qed.
