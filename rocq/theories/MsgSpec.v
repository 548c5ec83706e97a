(** Specification of the CoAP wire format, written from RFC 7252 section 3 and
    independent of the functions of the model.  [encodes m b] says that the
    byte string [b] is the wire form of message [m]. *)
From Verif Require Import Base MsgModel.

(** Option delta and option length: a nibble and extension bytes
    (RFC 7252, section 3.1). *)
Inductive ext_enc : N -> N -> list N -> Prop :=
| ext_short v : v < 13 -> ext_enc v v []
| ext_8bit b : b < 256 -> ext_enc (13 + b) 13 [b]
| ext_16bit b1 b2 : b1 < 256 -> b2 < 256 -> ext_enc (269 + 256 * b1 + b2) 14 [b1; b2].

(** A sequence of options after an option with number [prev]. *)
Inductive ops_enc : N -> list op -> list N -> Prop :=
| ops_nil prev : ops_enc prev [] []
| ops_cons prev delta dn dext ln lext val os bs :
    ext_enc delta dn dext ->
    ext_enc (lenN val) ln lext ->
    bytes_ok val ->
    ops_enc (prev + delta) os bs ->
    ops_enc prev (mkop (prev + delta) val :: os)
            ((16 * dn + ln) :: dext ++ lext ++ val ++ bs).

(** Payload: absent, or the marker and at least one byte. *)
Inductive payload_enc : list N -> list N -> Prop :=
| pl_none : payload_enc [] []
| pl_some b bs : bytes_ok (b :: bs) -> payload_enc (b :: bs) (255 :: b :: bs).

(** The code classes in use. *)
Definition known_class (c : N) : Prop := c = 0 \/ c = 2 \/ c = 4 \/ c = 5.

(** Empty messages carry nothing and are not NON; only they can be RST
    (RFC 7252, sections 4.1 to 4.3). *)
Definition consistent (m : msg) : Prop :=
  (m_class m = 0 /\ m_detail m = 0 ->
   m_type m <> 1 /\ m_token m = [] /\ m_ops m = [] /\ m_payload m = []) /\
  (m_type m = 3 -> m_class m = 0 /\ m_detail m = 0).

Inductive encodes : msg -> list N -> Prop :=
| encodes_intro m ob pb :
    m_ver m = 1 -> m_type m < 4 -> known_class (m_class m) -> m_detail m < 32 ->
    m_id m < 65536 -> lenN (m_token m) <= 8 -> bytes_ok (m_token m) ->
    consistent m ->
    ops_enc 0 (m_ops m) ob ->
    payload_enc (m_payload m) pb ->
    encodes m ((64 + 16 * m_type m + lenN (m_token m))
               :: (32 * m_class m + m_detail m)
               :: (m_id m / 256) :: (m_id m mod 256)
               :: m_token m ++ ob ++ pb).

(** Well-formed values the C types can hold: byte strings are bytes, numbers are
    [unsigned]. *)
Definition op_ok (o : op) : Prop := o_num o < two32 /\ bytes_ok (o_val o) /\ o_len o < two32.
Definition setter_ok (s : setter) : Prop :=
  match s with
  | SetToken t => bytes_ok t
  | AddOp n v => op_ok (mkop n v)
  | SetPayload pl => bytes_ok pl
  | _ => True
  end.

(** Representable on the wire: code class in use, option lengths and the
    differences between consecutive option numbers at most 65535 + 269. *)
Fixpoint deltas_ok (prev : N) (l : list op) : Prop :=
  match l with
  | [] => True
  | o :: l' => o_num o - prev <= 65804 /\ o_len o <= 65804 /\ deltas_ok (o_num o) l'
  end.
Definition representable (m : msg) : Prop :=
  known_class (m_class m) /\ deltas_ok 0 (m_ops m).

(** No extension byte with the top bit set: what a build with signed [char]
    needs. *)
Definition ext_low (v : N) : Prop := v < 141 \/ 269 <= v.
Fixpoint exts_low (prev : N) (l : list op) : Prop :=
  match l with
  | [] => True
  | o :: l' => ext_low (o_num o - prev) /\ ext_low (o_len o) /\ exts_low (o_num o) l'
  end.

(** Sorted by option number. *)
Fixpoint ops_sorted_from (n : N) (l : list op) : Prop :=
  match l with
  | [] => True
  | o :: l' => n <= o_num o /\ ops_sorted_from (o_num o) l'
  end.
Definition ops_sorted (l : list op) : Prop := ops_sorted_from 0 l.

(** The options with a given number, in list order. *)
Definition with_num (n : N) (l : list op) : list op := filter (fun o => o_num o =? n) l.

(** Length of the wire form of an option and of a message. *)
Definition ext_size (v : N) : N := if 269 <=? v then 2 else if 13 <=? v then 1 else 0.
Fixpoint ops_size (prev : N) (l : list op) : N :=
  match l with
  | [] => 0
  | o :: l' => 1 + ext_size (o_num o - prev) + ext_size (o_len o) + o_len o + ops_size (o_num o) l'
  end.
Definition wire_size (m : msg) : N :=
  4 + lenN (m_token m) + ops_size 0 (m_ops m)
  + (match m_payload m with [] => 0 | pl => 1 + lenN pl end).

(** The path of a message, RFC 7252 section 6.5: every Uri-Path option preceded
    by a slash. *)
Definition path_bytes (l : list op) : list N :=
  concat (map (fun o => 47 :: o_val o) (with_num 11 l)).

(** Options for which coap_msg_format does not ask for too little space, and
    for which it does not ask for too much. *)
Definition no_short (o : op) : Prop := 13 <= o_num o \/ o_len o < 13 \/ 269 <= o_len o.
Definition no_long (o : op) : Prop := o_num o < 13 \/ 13 <= o_len o.

(** Option length at which the needed space does not wrap around 2^32. *)
Definition len_ok (o : op) : Prop := o_len o < two32 - 5.

(** The options of a built message are those added, in call order. *)
Definition added (l : list setter) : list op :=
  concat (map (fun s => match s with AddOp n v => [mkop n v] | _ => [] end) l).

(** Block options, RFC 7959 section 2.2: the value is a number in network byte
    order; block number, more flag and size exponent from the top down. *)
Definition be_val (l : list N) : N := fold_left (fun a b => 256 * a + b) l 0.
Inductive block_value : N -> blk -> Prop :=
| block_value_intro num (more : bool) szx :
    szx < 7 ->
    block_value (16 * num + 8 * (if more then 1 else 0) + szx) (mkblk num more (2 ^ (4 + szx))).
