(** Model of lib/src/coap_client.c: one exchange of a request for a response and
    the blockwise transfers built on it.  The socket, the timer descriptor,
    select, rand and the clock are the environment: every answer they can give
    is an input of the model.  Not modelled: DTLS (69-543; its record layer
    delivers and refuses datagrams just as a socket does), coap_client_create and
    coap_client_destroy (549-661), log output.  No proofs in this file. *)
From Verif Require Import Base MsgModel.

(** ** Environment *)

(** What recv (or gnutls_record_recv) gives once select has reported the socket
    readable: a datagram or an error such as EAGAIN. *)
Inductive rx := RxData (b : list N) | RxErr (e : errno).

(** What one call of select gives (coap_client.c 1180-1196, 1222-1238): an error;
    the socket is readable (then the timer is not looked at); only the timer
    is readable. *)
Inductive sel := SelErr (e : errno) | SelRx (r : rx) | SelTimer.

(** A return of select at some time (in nanoseconds). *)
Definition event := (N * sel)%type.

(** Answers of the operating system that are not events: the n-th call of send
    and of timerfd_settime fails with the given errno or succeeds; the n-th
    value of rand. *)
Record env := mkenv {
  e_send : nat -> option errno;
  e_set : nat -> option errno;
  e_rand : nat -> N
}.

(** What can be observed of the client at its descriptors, with the time. *)
Inductive obs :=
| OSend (t : N) (b : list N) (ok : bool)           (* send of a datagram, and whether it succeeded *)
| OArm (t : N) (sec nsec : N) (ok : bool)          (* timerfd_settime *)
| ORecv (t : N) (b : list N)                       (* a datagram was received *)
| OTimer (t : N)                                   (* the timer was seen to have expired *)
| OErr (t : N) (e : errno).                        (* select or recv failed *)

(** Build options: signedness of char, and COAP_PROXY. *)
Record cfg := mkcfg { cf_sg : signedness; cf_proxy : bool }.

(** coap_client_t (coap_client.h 51-67) without descriptors and addresses:
    [timeout] and [num_retrans], with the clock, the number of calls made so far
    and the history of observations. *)
Record cst := mkcst {
  c_trace : list obs;
  c_now : N;
  c_nsend : nat; c_nset : nat; c_nrand : nat;
  c_sec : N; c_nsec : N;
  c_retrans : N
}.

Definition log (s : cst) (o : obs) : cst :=
  mkcst (c_trace s ++ [o]) (c_now s) (c_nsend s) (c_nset s) (c_nrand s) (c_sec s) (c_nsec s) (c_retrans s).
Definition at_time (s : cst) (t : N) : cst :=
  mkcst (c_trace s) t (c_nsend s) (c_nset s) (c_nrand s) (c_sec s) (c_nsec s) (c_retrans s).
Definition set_timeout (s : cst) (sec nsec : N) : cst :=
  mkcst (c_trace s) (c_now s) (c_nsend s) (c_nset s) (c_nrand s) sec nsec (c_retrans s).
Definition set_retrans (s : cst) (n : N) : cst :=
  mkcst (c_trace s) (c_now s) (c_nsend s) (c_nset s) (c_nrand s) (c_sec s) (c_nsec s) n.

(** rand(). *)
Definition do_rand (E : env) (s : cst) : cst * N :=
  (mkcst (c_trace s) (c_now s) (c_nsend s) (c_nset s) (S (c_nrand s)) (c_sec s) (c_nsec s) (c_retrans s),
   e_rand E (c_nrand s)).

(** ** Timers *)

Definition ACK_TIMEOUT_SEC : N := 2.
Definition MAX_RETRANSMIT : N := 4.
Definition RESP_TIMEOUT_SEC : N := 30.

(** coap_client_init_ack_timeout, coap_client.c 675-685. *)
Definition init_ack_timeout (E : env) (s : cst) : cst :=
  let (s, r) := do_rand E s in
  set_timeout s ACK_TIMEOUT_SEC ((r mod 1000) * 1000000).

(** coap_client_init_resp_timeout, coap_client.c 694-699. *)
Definition init_resp_timeout (s : cst) : cst := set_timeout s RESP_TIMEOUT_SEC 0.

(** coap_client_double_timeout, coap_client.c 706-713; [msec] is [unsigned]. *)
Definition double_timeout (s : cst) : cst :=
  let msec := (2 * (c_sec s * 1000 + c_nsec s / 1000000)) mod two32 in
  set_timeout s (msec / 1000) ((msec mod 1000) * 1000000).

(** coap_client_start_timer, coap_client.c 724-736. *)
Definition start_timer (E : env) (s : cst) : cst * res unit :=
  let r := e_set E (c_nset s) in
  let ok := match r with None => true | Some _ => false end in
  let s := log s (OArm (c_now s) (c_sec s) (c_nsec s) ok) in
  let s := mkcst (c_trace s) (c_now s) (c_nsend s) (S (c_nset s)) (c_nrand s) (c_sec s) (c_nsec s) (c_retrans s) in
  (s, match r with None => Ok tt | Some e => Err e end).

(** coap_client_start_ack_timer, coap_client.c 747-752; its callers ignore the
    result. *)
Definition start_ack_timer (E : env) (s : cst) : cst :=
  fst (start_timer E (init_ack_timeout E (set_retrans s 0))).

(** coap_client_update_ack_timer, coap_client.c 766-782. *)
Definition update_ack_timer (E : env) (s : cst) : cst * res unit :=
  if MAX_RETRANSMIT <=? c_retrans s then (s, Err ETIMEDOUT) else
  let s := double_timeout s in
  let (s, r) := start_timer E s in
  match r with
  | Ok _ => (set_retrans s (c_retrans s + 1), Ok tt)
  | _ => (s, r)
  end.

(** coap_client_start_resp_timer, coap_client.c 793-797; result ignored. *)
Definition start_resp_timer (E : env) (s : cst) : cst :=
  fst (start_timer E (init_resp_timeout s)).

(** ** Sending and receiving *)

(** coap_client_send, coap_client.c 809-848 (without DTLS). *)
Definition client_send (E : env) (s : cst) (m : msg) : cst * res unit :=
  match msg_format m MAX_BUF_LEN with
  | Ok b =>
    let r := e_send E (c_nsend s) in
    let ok := match r with None => true | Some _ => false end in
    let s := log s (OSend (c_now s) b ok) in
    let s := mkcst (c_trace s) (c_now s) (S (c_nsend s)) (c_nset s) (c_nrand s) (c_sec s) (c_nsec s) (c_retrans s) in
    (s, match r with None => Ok tt | Some e => Err e end)
  | Err e => (s, Err e)
  | UB u => (s, UB u)
  | OutOfFuel => (s, OutOfFuel)
  end.

(** An empty message of type [t] with message ID [i], built as in coap_client.c
    871-884, 979-991 and 1094-1106. *)
Definition empty_msg (t i : N) : res msg :=
  let* m := set_type msg_create t in
  set_msg_id m i.

(** Build an empty message and send it. *)
Definition send_empty (E : env) (s : cst) (t i : N) : cst * res unit :=
  match empty_msg t i with
  | Ok m => client_send E s m
  | Err e => (s, Err e)
  | UB u => (s, UB u)
  | OutOfFuel => (s, OutOfFuel)
  end.

(** coap_client_handle_format_error, coap_client.c 862-888: errors are ignored. *)
Definition handle_format_error (E : env) (s : cst) (p : list N) (len : N) : cst * res unit :=
  match parse_type_msg_id p len with
  | Ok (t, i) =>
    if t =? T_CON then
      let (s, r) := send_empty E s T_RST i in
      (s, match r with UB u => UB u | OutOfFuel => OutOfFuel | _ => Ok tt end)
    else (s, Ok tt)
  | Err _ => (s, Ok tt)
  | UB u => (s, UB u)
  | OutOfFuel => (s, OutOfFuel)
  end.

(** The receive buffer of coap_client_recv, coap_client.c 908: 1152 bytes, zero
    after the datagram; a longer datagram is cut off. *)
Definition rx_cut (b : list N) : list N := firstn (N.to_nat MAX_BUF_LEN) b.
Definition rx_buf (b : list N) : list N :=
  rx_cut b ++ repeat 0 (N.to_nat (MAX_BUF_LEN - lenN (rx_cut b))).

(** coap_client_recv, coap_client.c 900-958 (without DTLS). *)
Definition client_recv (E : env) (C : cfg) (s : cst) (x : rx) : cst * res msg :=
  match x with
  | RxErr e => (log s (OErr (c_now s) e), Err e)
  | RxData b =>
    let s := log s (ORecv (c_now s) (rx_cut b)) in
    let p := rx_buf b in
    let len := lenN (rx_cut b) in
    match msg_parse (cf_sg C) p len with
    | Err EBADMSG =>
      let (s, r) := handle_format_error E s p len in
      (s, match r with Ok _ => Err EBADMSG | Err e => Err e | UB u => UB u | OutOfFuel => OutOfFuel end)
    | r => (s, r)
    end
  end.

(** coap_client_reject, coap_client.c 972-1075: only a confirmable message is
    answered, with a reset. *)
Definition client_reject (E : env) (s : cst) (m : msg) : cst * res unit :=
  if m_type m =? T_CON then send_empty E s T_RST (m_id m) else (s, Ok tt).

(** coap_client_send_ack, coap_client.c 1087-1115. *)
Definition client_send_ack (E : env) (s : cst) (m : msg) : cst * res unit :=
  send_empty E s T_ACK (m_id m).

(** coap_client_handle_ack_timeout, coap_client.c 1130-1152. *)
Definition handle_ack_timeout (E : env) (s : cst) (req : msg) : cst * res unit :=
  let (s, r) := update_ack_timer E s in
  match r with
  | Ok _ => client_send E s req
  | _ => (s, r)
  end.

(** coap_client_match_token, coap_client.c 1253-1257: equal lengths and equal
    contents. *)
Definition bytes_eqb (a b : list N) : bool :=
  (lenN a =? lenN b) && forallb (fun p => fst p =? snd p) (combine a b).
Definition match_token (req resp : msg) : bool := bytes_eqb (m_token resp) (m_token req).

(** coap_client_check_options, coap_client.c 1271-1278. *)
Definition client_check_options (C : cfg) (m : msg) : N :=
  if cf_proxy C then check_unsafe_ops (m_ops m) else check_critical_ops (m_ops m).

(** Reject a message, ignore whether that succeeds, and fail with EBADMSG:
    coap_client.c 1302-1303, 1335-1336, 1346-1347, 1351-1352, 1405-1406,
    1486-1487, 1552-1553. *)
Definition reject_bad (E : env) (s : cst) (m : msg) : cst * res msg :=
  let (s, r) := client_reject E s m in
  (s, match r with UB u => UB u | OutOfFuel => OutOfFuel | _ => Err EBADMSG end).

(** coap_client_handle_piggybacked_response, coap_client.c 1294-1307. *)
Definition handle_piggybacked_response (E : env) (C : cfg) (s : cst) (resp : msg) : cst * res msg :=
  if negb (client_check_options C resp =? 0) then reject_bad E s resp else (s, Ok resp).

(** coap_client_handle_sep_response, coap_client.c 1323-1353. *)
Definition handle_sep_response (E : env) (C : cfg) (s : cst) (resp : msg) : cst * res msg :=
  if m_type resp =? T_CON then
    if negb (client_check_options C resp =? 0) then reject_bad E s resp else
    let (s, r) := client_send_ack E s resp in
    (s, match r with Ok _ => Ok resp | Err e => Err e | UB u => UB u | OutOfFuel => OutOfFuel end)
  else if m_type resp =? T_NON then
    if negb (client_check_options C resp =? 0) then reject_bad E s resp else (s, Ok resp)
  else reject_bad E s resp.

(** ** The exchange

    The loops of the exchange functions and of the listen functions they call
    are flattened: one step of the recursion per return of select.  [Waiting]
    means that all events have been used up and the client is in select. *)
Inductive oc := Done (s : cst) (evs : list event) (r : res msg) | Waiting (s : cst).

Definition done (evs : list event) (p : cst * res msg) : oc := Done (fst p) evs (snd p).

(** The error (or undefined behaviour) of a step as the result of the exchange. *)
Definition fail {A} (r : res A) : res msg :=
  match r with Ok _ => OutOfFuel | Err e => Err e | UB u => UB u | OutOfFuel => OutOfFuel end.

(** coap_client_exchange_sep, coap_client.c 1379-1421 with coap_client_listen_resp,
    1210-1241. *)
Fixpoint exchange_sep (E : env) (C : cfg) (req : msg) (s : cst) (evs : list event) : oc :=
  match evs with
  | [] => Waiting s
  | (t, ev) :: evs =>
    let s := at_time s t in
    match ev with
    | SelErr e => Done (log s (OErr t e)) evs (Err e)
    | SelTimer => Done (log s (OTimer t)) evs (Err ETIMEDOUT)
    | SelRx x =>
      let (s, r) := client_recv E C s x in
      match r with
      | Err EAGAIN => exchange_sep E C req s evs
      | Ok resp =>
        if m_id resp =? m_id req then
          if m_type resp =? T_ACK then exchange_sep E C req s evs
          else if m_type resp =? T_RST then Done s evs (Err ECONNRESET)
          else done evs (reject_bad E s resp)
        else if match_token req resp then done evs (handle_sep_response E C s resp)
        else
          let (s, r) := client_reject E s resp in
          match r with Ok _ => exchange_sep E C req s evs | _ => Done s evs (fail r) end
      | _ => Done s evs r
      end
    end
  end.

(** coap_client_exchange_con, coap_client.c 1451-1507 with coap_client_listen_ack,
    1164-1199. *)
Fixpoint exchange_con (E : env) (C : cfg) (req : msg) (s : cst) (evs : list event) : oc :=
  match evs with
  | [] => Waiting s
  | (t, ev) :: evs =>
    let s := at_time s t in
    match ev with
    | SelErr e => Done (log s (OErr t e)) evs (Err e)
    | SelTimer =>
      let s := log s (OTimer t) in
      let (s, r) := handle_ack_timeout E s req in
      match r with Ok _ => exchange_con E C req s evs | _ => Done s evs (fail r) end
    | SelRx x =>
      let (s, r) := client_recv E C s x in
      match r with
      | Err EAGAIN => exchange_con E C req s evs
      | Ok resp =>
        if m_id resp =? m_id req then
          if m_type resp =? T_ACK then
            if msg_is_empty resp then exchange_sep E C req (start_resp_timer E s) evs
            else if match_token req resp then done evs (handle_piggybacked_response E C s resp)
            else done evs (reject_bad E s resp)
          else if m_type resp =? T_RST then Done s evs (Err ECONNRESET)
          else done evs (reject_bad E s resp)
        else if match_token req resp then done evs (handle_sep_response E C s resp)
        else
          let (s, r) := client_reject E s resp in
          match r with Ok _ => exchange_con E C req s evs | _ => Done s evs (fail r) end
      | _ => Done s evs r
      end
    end
  end.

(** coap_client_exchange_non, coap_client.c 1524-1570 with
    coap_client_listen_resp. *)
Fixpoint exchange_non (E : env) (C : cfg) (req : msg) (s : cst) (evs : list event) : oc :=
  match evs with
  | [] => Waiting s
  | (t, ev) :: evs =>
    let s := at_time s t in
    match ev with
    | SelErr e => Done (log s (OErr t e)) evs (Err e)
    | SelTimer => Done (log s (OTimer t)) evs (Err ETIMEDOUT)
    | SelRx x =>
      let (s, r) := client_recv E C s x in
      match r with
      | Err EAGAIN => exchange_non E C req s evs
      | Ok resp =>
        if m_id resp =? m_id req then
          if m_type resp =? T_RST then Done s evs (Err ECONNRESET)
          else done evs (reject_bad E s resp)
        else if match_token req resp then done evs (handle_sep_response E C s resp)
        else
          let (s, r) := client_reject E s resp in
          match r with Ok _ => exchange_non E C req s evs | _ => Done s evs (fail r) end
      | _ => Done s evs r
      end
    end
  end.

(** coap_msg_gen_rand_str, coap_msg.c 49-63: [rand() & 0xff] per byte. *)
Fixpoint gen_rand_str (E : env) (s : cst) (n : nat) : cst * list N :=
  match n with
  | O => (s, [])
  | S n =>
    let (s, r) := do_rand E s in
    let (s, l) := gen_rand_str E s n in
    (s, N.land r 255 :: l)
  end.

(** coap_client_exchange, coap_client.c 1590-1606: message ID and token are drawn
    at random and overwrite those of the request. *)
Definition prepare_req (E : env) (s : cst) (req : msg) : cst * res msg :=
  let (s, idb) := gen_rand_str E s 2 in
  let id := N.lor (N.shiftl (nth 1 idb 0) 8) (nth 0 idb 0) in
  match set_msg_id req id with
  | Ok req =>
    let (s, tok) := gen_rand_str E s 4 in
    (s, set_token req tok)
  | r => (s, r)
  end.

(** coap_client_exchange, coap_client.c 1572-1629. *)
Definition exchange (E : env) (C : cfg) (s : cst) (req : msg) (evs : list event) : oc :=
  if (m_type req =? T_ACK) || (m_type req =? T_RST) || negb (m_class req =? CL_REQ)
  then Done s evs (Err EINVAL) else
  let (s, r) := prepare_req E s req in
  match r with
  | Ok req =>
    let (s, r) := client_send E s req in
    match r with
    | Ok _ =>
      if m_type req =? T_CON then exchange_con E C req (start_ack_timer E s) evs
      else if m_type req =? T_NON then exchange_non E C req (start_resp_timer E s) evs
      else Done s evs (Err EINVAL)
    | _ => Done s evs (fail r)
    end
  | _ => Done s evs r
  end.

(** ** Blockwise transfers

    The transfers are written over an arbitrary exchange function with its own
    state [St], since they use coap_client_exchange only through its result.
    [St] is instantiated with the client above ([client_exch]), with a log of
    everything exchanged with an arbitrary server (ClientSpec.v) and with the
    server model (E2EModel.v). *)

Definition CONTINUE : N := 31.
Definition CREATED : N := 1.
Definition CHANGED : N := 4.
Definition CONTENT : N := 5.
Definition M_GET : N := 1.
Definition M_POST : N := 2.
Definition M_PUT : N := 3.

Definition mul32 (a b : N) : N := (a * b) mod two32.

Section Blockwise.
Context {St : Type} (exch : St -> msg -> St * res msg).

(** The message of one round of coap_client_exchange_blockwise1,
    coap_client.c 1688-1740: copy of the request with a Block1 option, a Block2
    option in the last round, and the payload.  [body] is the caller's buffer;
    [start] the position of the block, [plen] its length. *)
Definition block1_msg (req : msg) (body : list N) (start size size2 szx : N) (more : bool) (plen : N)
  : res msg :=
  let* m := msg_copy msg_create req in
  let num := (N.shiftr start (szx + 4)) mod two32 in
  let* v := format_block_val 3 num more size in
  let* m := add_op m OP_BLOCK1 v in
  let* m :=
    if more then Ok m else
      let* v2 := format_block_val 3 0 false size2 in
      add_op m OP_BLOCK2 v2 in
  let* p := adv body start in
  let* pl := rdn p plen in
  set_payload m pl.

(** coap_client_exchange_blockwise1, the loop, coap_client.c 1685-1798.  The
    result is the number returned and the last response.  [fuel] bounds the
    rounds.  The addition [block1_start + block1_size] is size_t. *)
Fixpoint blockwise1_loop (fuel : nat) (st : St) (req : msg) (body : list N)
         (size size2 szx start : N) : St * res (N * msg) :=
  match fuel with
  | O => (st, OutOfFuel)
  | S fuel =>
    let last := lenN body <=? add64 start size in
    let plen := if last then (sub64 (lenN body) start) mod two32 else size in
    match block1_msg req body start size size2 szx (negb last) plen with
    | Ok m =>
      let (st, r) := exch st m in
      match r with
      | Ok resp =>
        if negb (m_class resp =? CL_SUCCESS) then (st, Ok (0, resp)) else
        if negb (m_detail resp =? CONTINUE) && negb (m_detail resp =? CREATED)
           && negb (m_detail resp =? CHANGED) then (st, Ok (0, resp)) else
        match parse_block_op (m_ops resp) OP_BLOCK1 with
        | Ok (Some b) =>
          let size := if b_size b <? size then b_size b else size in
          if negb (mul32 (b_num b) size =? start) then (st, Err EBADMSG) else
          match calc_block_szx size with
          | Ok szx =>
            let start := add64 start plen in
            if lenN body <=? start then (st, Ok (start, resp))
            else blockwise1_loop fuel st req body size size2 szx start
          | _ => (st, Err EBADMSG)
          end
        | UB u => (st, UB u)
        | _ => (st, Err EBADMSG)
        end
      | Err e => (st, Err e)
      | UB u => (st, UB u)
      | OutOfFuel => (st, OutOfFuel)
      end
    | Err e => (st, Err e)
    | UB u => (st, UB u)
    | OutOfFuel => (st, OutOfFuel)
    end
  end.

(** coap_client_exchange_blockwise1, coap_client.c 1652-1799. *)
Definition blockwise1 (fuel : nat) (st : St) (req : msg) (body : list N) (size1 size2 : N)
  : St * res (N * msg) :=
  if (size1 =? 0) || (size2 =? 0) then (st, Err EINVAL) else
  match calc_block_szx size1 with
  | Ok szx =>
    match calc_block_szx size2 with
    | Ok _ => blockwise1_loop fuel st req body size1 size2 szx 0
    | _ => (st, Err EINVAL)
    end
  | _ => (st, Err EINVAL)
  end.

(** The request of one round of coap_client_exchange_blockwise2, coap_client.c
    1850-1874. *)
Definition block2_msg (req : msg) (start size szx : N) : res msg :=
  let* m := msg_copy msg_create req in
  let num := (N.shiftr start (szx + 4)) mod two32 in
  let* v := format_block_val 3 num false size in
  add_op m OP_BLOCK2 v.

(** memcpy into a buffer at an offset. *)
Definition put (buf : list N) (off : N) (bs : list N) : res (list N) :=
  if off + lenN bs <=? lenN buf
  then Ok (firstn (N.to_nat off) buf ++ bs ++ skipn (N.to_nat (off + lenN bs)) buf)
  else UB OobWrite.

(** The part of a round of coap_client_exchange_blockwise2 after the response is
    there, coap_client.c 1883-1956.  [B2Stop]: return this value with this
    buffer; [B2Next]: continue with the new buffer, size, szx, start. *)
Inductive b2step :=
| B2Stop (buf : list N) (r : res (N * msg))
| B2Next (buf : list N) (size szx start : N).

Definition block2_resp (req resp : msg) (buf : list N) (size start : N) : b2step :=
  if negb (m_class resp =? CL_SUCCESS) then B2Stop buf (Ok (0, resp)) else
  if (if m_detail req =? M_GET
      then negb (m_detail resp =? CONTINUE) && negb (m_detail resp =? CONTENT)
      else negb (m_detail resp =? CONTINUE) && negb (m_detail resp =? CREATED)
           && negb (m_detail resp =? CHANGED))
  then B2Stop buf (Ok (0, resp)) else
  match parse_block_op (m_ops resp) OP_BLOCK2 with
  | Ok (Some b) =>
    let size := if b_size b <? size then b_size b else size in
    if negb (mul32 (b_num b) size =? start) then B2Stop buf (Err EBADMSG) else
    match calc_block_szx size with
    | Ok szx =>
      let plen := (lenN (m_payload resp)) mod two32 in
      if size <? plen then B2Stop buf (Err EBADMSG) else
      if b_more b && negb (plen =? size) then B2Stop buf (Err EBADMSG) else
      if lenN buf <? add64 start plen then B2Stop buf (Err ENOSPC) else
      match put buf start (firstn (N.to_nat plen) (m_payload resp)) with
      | Ok buf =>
        let start := add64 start plen in
        if b_more b then B2Next buf size szx start else B2Stop buf (Ok (start, resp))
      | Err e => B2Stop buf (Err e)
      | UB u => B2Stop buf (UB u)
      | OutOfFuel => B2Stop buf OutOfFuel
      end
    | _ => B2Stop buf (Err EBADMSG)
    end
  | UB u => B2Stop buf (UB u)
  | _ => B2Stop buf (Err EBADMSG)
  end.

(** coap_client_exchange_blockwise2, the loop, coap_client.c 1846-1962, entered
    with [have_resp = 0]; the result also has the final contents of the body
    buffer. *)
Fixpoint blockwise2_loop (fuel : nat) (st : St) (req : msg) (buf : list N) (size szx start : N)
  : St * list N * res (N * msg) :=
  match fuel with
  | O => (st, buf, OutOfFuel)
  | S fuel =>
    match block2_msg req start size szx with
    | Ok m =>
      let (st, r) := exch st m in
      match r with
      | Ok resp =>
        match block2_resp req resp buf size start with
        | B2Stop buf r => (st, buf, r)
        | B2Next buf size szx start => blockwise2_loop fuel st req buf size szx start
        end
      | Err e => (st, buf, Err e)
      | UB u => (st, buf, UB u)
      | OutOfFuel => (st, buf, OutOfFuel)
      end
    | Err e => (st, buf, Err e)
    | UB u => (st, buf, UB u)
    | OutOfFuel => (st, buf, OutOfFuel)
    end
  end.

(** coap_client_exchange_blockwise2, coap_client.c 1816-1964; [have] is the
    response if it has already been received. *)
Definition blockwise2 (fuel : nat) (st : St) (req : msg) (have : option msg) (buf : list N) (size2 : N)
  : St * list N * res (N * msg) :=
  if size2 =? 0 then (st, buf, Err EINVAL) else
  match calc_block_szx size2 with
  | Ok szx =>
    match have with
    | None => blockwise2_loop fuel st req buf size2 szx 0
    | Some resp =>
      match block2_resp req resp buf size2 0 with
      | B2Stop buf r => (st, buf, r)
      | B2Next buf size szx start => blockwise2_loop fuel st req buf size szx start
      end
    end
  | _ => (st, buf, Err EINVAL)
  end.

(** coap_client_exchange_blockwise, coap_client.c 1966-2028.  [buf] is the body
    buffer (all of its [body_len] bytes).  [have] as above; it is used for GET
    only. *)
Definition exchange_blockwise (fuel : nat) (st : St) (req : msg) (have : option msg)
           (size1 size2 : N) (buf : list N) : St * list N * res (N * msg) :=
  if m_detail req =? M_GET then blockwise2 fuel st req have buf size2
  else if (m_detail req =? M_PUT) || (m_detail req =? M_POST) then
    let (st, r) := blockwise1 fuel st req buf size1 size2 in
    match r with
    | Ok (n, resp) =>
      if n =? 0 then (st, buf, Ok (0, resp)) else
      if lenN (m_payload resp) =? 0 then (st, buf, Ok (0, resp))
      else blockwise2 fuel st req (Some resp) buf size2
    | _ => (st, buf, r)
    end
  else (st, buf, Err EINVAL).
End Blockwise.

(** The exchange of the client as an exchange function: the state is the client
    and the events still to come; if they run out in mid exchange there is no
    result, which [OutOfFuel] marks. *)
Definition client_exch (E : env) (C : cfg) (st : cst * list event) (m : msg)
  : (cst * list event) * res msg :=
  match exchange E C (fst st) m (snd st) with
  | Done s evs r => ((s, evs), r)
  | Waiting s => ((s, []), OutOfFuel)
  end.
