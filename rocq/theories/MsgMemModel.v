(** Model of the memory behaviour of lib/src/coap_msg.c: which pool buffers a
    message owns.  The values are those of MsgModel.v; here the two pools of
    lib/src/coap_mem.c are threaded through the calls.  No proofs in this
    file. *)
From Verif Require Import Base MemModel MsgModel.

(** coap_mem_small and coap_mem_medium, coap_mem.c 123 and 175. *)
Record pools := mkpools { ps : pool; pm : pool }.

(** sizeof(coap_msg_op_t), coap_msg.h: two [unsigned] and two pointers, 24 bytes
    with 64-bit pointers. *)
Definition SIZEOF_OP : N := 24.

(** A message together with the buffers it owns.  [mm_own] holds for every
    option the address of its structure (small pool) and of its value (medium
    pool); simplification: the list is in allocation order, the code keeps the
    pointers in the option list in option order.  [mm_pl] is [msg->payload]. *)
Record mmsg := mkmmsg { mm_msg : msg; mm_own : list (N * N); mm_pl : option N }.

(** coap_msg_create, coap_msg.c 348-353. *)
Definition mm_create : mmsg := mkmmsg msg_create [] None.

(** coap_msg_op_new, coap_msg.c 195-215: allocate the structure and the value;
    if there is no room for the value the structure is given to
    coap_mem_medium_free (line 209).  [len] is the option length. *)
Definition op_new (P : pools) (len : N) : pools * option (N * N) :=
  match mem_alloc (ps P) SIZEOF_OP with
  | (s', None) => (mkpools s' (pm P), None)
  | (s', Some q) =>
    match mem_alloc (pm P) len with
    | (m', None) => (mkpools s' (mem_free m' q), None)
    | (m', Some v) => (mkpools s' m', Some (q, v))
    end
  end.

(** coap_msg_op_delete, coap_msg.c 222-226. *)
Definition op_delete (P : pools) (o : N * N) : pools :=
  mkpools (mem_free (ps P) (fst o)) (mem_free (pm P) (snd o)).

(** coap_msg_destroy with coap_msg_op_list_destroy, coap_msg.c 243-256 and
    355-363. *)
Definition mm_destroy (P : pools) (m : mmsg) : pools * mmsg :=
  let P1 := fold_left op_delete (mm_own m) P in
  let P2 := match mm_pl m with
            | Some q => mkpools (ps P1) (mem_free (pm P1) q)
            | None => P1
            end in
  (P2, mkmmsg msg_zero [] None).

(** coap_msg_reset, coap_msg.c 365-369. *)
Definition mm_reset (P : pools) (m : mmsg) : pools * mmsg :=
  (fst (mm_destroy P m), mm_create).

Definition with_ops (m : msg) (l : list op) : msg :=
  mkmsg (m_ver m) (m_type m) (m_class m) (m_detail m) (m_id m) (m_token m) l (m_payload m).
Definition with_payload (m : msg) (pl : list N) : msg :=
  mkmsg (m_ver m) (m_type m) (m_class m) (m_detail m) (m_id m) (m_token m) (m_ops m) pl.

(** coap_msg_parse_op, coap_msg.c 542-623: as parse_op, but the option is
    allocated by coap_msg_op_list_add_last (270-290). *)
Definition mparse_op (sg : signedness) (P : pools) (m : mmsg) (p : list N) (len : N)
  : pools * mmsg * res (list N * N) :=
  match parse_op_hdr sg p len with
  | Ok (delta, olen, p1, len1) =>
    match op_new P olen with
    | (P', None) => (P', m, Err ENOMEM)
    | (P', Some own) =>
      match (let* val := rdn p1 olen in let* p2 := adv p1 olen in Ok (val, p2)) with
      | Ok (val, p2) =>
        let l := m_ops (mm_msg m) in
        (P', mkmmsg (with_ops (mm_msg m)
                       (op_list_add_last l (mkop (add32 (last_num l) delta) val)))
                    (mm_own m ++ [own]) (mm_pl m),
         Ok (p2, len1 - olen))
      | Err e => (P', m, Err e)
      | UB u => (P', m, UB u)
      | OutOfFuel => (P', m, OutOfFuel)
      end
    end
  | Err e => (P, m, Err e)
  | UB u => (P, m, UB u)
  | OutOfFuel => (P, m, OutOfFuel)
  end.

(** coap_msg_parse_ops, coap_msg.c 636-656. *)
Fixpoint mparse_ops (sg : signedness) (fuel : nat) (P : pools) (m : mmsg) (p : list N) (len : N)
  : pools * mmsg * res (list N * N) :=
  match fuel with
  | O => (P, m, OutOfFuel)
  | S fuel' =>
    match rd p 0 with
    | Ok b =>
      if (N.land b 255 =? 255) || (len =? 0) then (P, m, Ok (p, len))
      else
        match mparse_op sg P m p len with
        | (P', m', Ok (p', len')) => mparse_ops sg fuel' P' m' p' len'
        | (P', m', Err e) => (P', m', Err e)
        | (P', m', UB u) => (P', m', UB u)
        | (P', m', OutOfFuel) => (P', m', OutOfFuel)
        end
    | Err e => (P, m, Err e)
    | UB u => (P, m, UB u)
    | OutOfFuel => (P, m, OutOfFuel)
    end
  end.

(** coap_msg_parse_payload, coap_msg.c 692-720: the buffer is allocated after
    the format checks. *)
Definition mparse_payload (P : pools) (m : mmsg) (p : list N) (len : N)
  : pools * mmsg * res unit :=
  match parse_payload p len with
  | Ok [] => (P, m, Ok tt)
  | Ok pl =>
    match mem_alloc (pm P) (lenN pl) with
    | (m', None) => (mkpools (ps P) m', m, Err ENOMEM)
    | (m', Some q) => (mkpools (ps P) m', mkmmsg (with_payload (mm_msg m) pl) (mm_own m) (Some q), Ok tt)
    end
  | Err e => (P, m, Err e)
  | UB u => (P, m, UB u)
  | OutOfFuel => (P, m, OutOfFuel)
  end.

(** coap_msg_parse, coap_msg.c 722-759: every failure but that of the last check
    destroys the message. *)
Definition mm_parse (sg : signedness) (P : pools) (m : mmsg) (p : list N) (len : N)
  : pools * mmsg * res unit :=
  let (P, m) := mm_reset P m in
  let fail {A} (P : pools) (m : mmsg) (r : res A) :=
    let (P', m') := mm_destroy P m in
    (P', m', match r with Err e => Err e | UB u => UB u | _ => OutOfFuel end : res unit) in
  let hd := let* h := parse_hdr p len in
            let* p1 := adv p 4 in
            let* tok := parse_token (h_tkl h) p1 (len - 4) in
            let* p2 := adv p1 (h_tkl h) in
            Ok (mkmsg COAP_VER (h_type h) (h_class h) (h_detail h) (h_id h) tok [] [], p2) in
  match hd with
  | Ok (m0, p2) =>
    let len2 := len - 4 - lenN (m_token m0) in
    match mparse_ops sg (S (N.to_nat len2)) P (mkmmsg m0 [] None) p2 len2 with
    | (P1, m1, Ok (p3, len3)) =>
      match mparse_payload P1 m1 p3 len3 with
      | (P2, m2, Ok _) => (P2, m2, msg_check (mm_msg m2))
      | (P2, m2, r) => fail P2 m2 r
      end
    | (P1, m1, r) => fail P1 m1 r
    end
  | r => fail P m r
  end.

(** coap_msg_add_op, coap_msg.c 306-346 and 810-813. *)
Definition mm_add_op (P : pools) (m : mmsg) (num : N) (val : list N) : pools * mmsg * res unit :=
  match op_new P (lenN val) with
  | (P', None) => (P', m, Err ENOMEM)
  | (P', Some own) =>
    (P', mkmmsg (with_ops (mm_msg m) (op_list_add (m_ops (mm_msg m)) (mkop num val)))
                (mm_own m ++ [own]) (mm_pl m), Ok tt)
  end.

(** coap_msg_clear_payload, coap_msg.c 837-845. *)
Definition mm_clear_payload (P : pools) (m : mmsg) : pools * mmsg :=
  (match mm_pl m with
   | Some q => mkpools (ps P) (mem_free (pm P) q)
   | None => P
   end, mkmmsg (with_payload (mm_msg m) []) (mm_own m) None).

(** coap_msg_set_payload, coap_msg.c 815-835. *)
Definition mm_set_payload (P : pools) (m : mmsg) (pl : list N) : pools * mmsg * res unit :=
  let (P, m) := mm_clear_payload P m in
  if lenN pl =? 0 then (P, m, Ok tt) else
  match mem_alloc (pm P) (lenN pl) with
  | (m', None) => (mkpools (ps P) m', m, Err ENOMEM)
  | (m', Some q) => (mkpools (ps P) m', mkmmsg (with_payload (mm_msg m) pl) (mm_own m) (Some q), Ok tt)
  end.

(** The calls that allocate or free, on one message object; [MParse] carries the
    signedness, the object that holds the datagram and the datagram length.
    The other setters touch no pool. *)
Inductive mm_call :=
| MParse (sg : signedness) (p : list N) (len : N)
| MAddOp (num : N) (val : list N)
| MSetPayload (pl : list N)
| MClearPayload
| MReset.

Definition mm_run (st : pools * mmsg) (c : mm_call) : (pools * mmsg) * res unit :=
  let (P, m) := st in
  match c with
  | MParse sg p len => mm_parse sg P m p len
  | MAddOp num val => mm_add_op P m num val
  | MSetPayload pl => mm_set_payload P m pl
  | MClearPayload => (mm_clear_payload P m, Ok tt)
  | MReset => (mm_reset P m, Ok tt)
  end.

(** Run a list of calls and collect the results. *)
Fixpoint mm_runs (st : pools * mmsg) (l : list mm_call) : (pools * mmsg) * list (res unit) :=
  match l with
  | [] => (st, [])
  | c :: l' =>
    let (st1, r) := mm_run st c in
    let (st2, rs) := mm_runs st1 l' in
    (st2, r :: rs)
  end.
