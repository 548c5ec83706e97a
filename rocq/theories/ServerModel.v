(** Model of lib/src/coap_server.c: transactions, the exchange of a request for a
    response, retransmission and server-side blockwise transfers.  The socket, the
    timer descriptors, select, the clocks, rand and the allocator are the
    environment; the application (the two callbacks) is a parameter.  Not modelled:
    DTLS (205-633, 1733-1854, and the lines under COAP_DTLS_EN), name resolution and
    socket set-up in coap_server_create (1858-1964), coap_server_destroy (1966-1985),
    log output.  No proofs in this file. *)
From Verif Require Import Base MsgModel ClientModel.

(** ** Environment *)

(** Answers of the operating system to the n-th call (all kinds of calls are
    counted together): sendto, timerfd_settime and the set-up of a transaction
    (timerfd_create, inet_ntop) fail with an errno or succeed; time; rand; whether
    the copy of a message into a transaction and the allocation of a large buffer
    find memory.  Simplification: all other allocations succeed. *)
Record senv := mksenv {
  se_send : nat -> option errno;
  se_set : nat -> option errno;
  se_create : nat -> option errno;
  se_time : nat -> N;
  se_rand : nat -> N;
  se_copy : nat -> bool;
  se_large : nat -> bool
}.

(** What one call of select and the calls of recvfrom after it give
    (coap_server.c 2145-2165, 2190, 1073-1087): select fails; the first recvfrom
    fails; there is a datagram [b] from client [c], where the later two calls of
    recvfrom may fail ([fail]; this also stands for a datagram of another client
    seen by the second call, which gives -EINVAL, and for coap_msg_parse running out
    of memory); only timers are readable, [l] telling which ones have expired.
    Clients are numbers: two addresses are the same number if memcmp says so. *)
Inductive sev :=
| EvErr (e : errno)
| EvRxErr (e : errno)
| EvRx (c : N) (b : list N) (fail : option errno)
| EvTimers (l : list bool).

(** What can be observed: datagrams, timers, calls of the application, the life of
    transactions, and the message IDs that are generated. *)
Inductive sobs :=
| SSend (c : N) (b : list N) (ok : bool)            (* sendto, and whether it succeeded *)
| SRecv (c : N) (b : list N)                        (* a datagram was taken from the socket *)
| SArm (c : N) (sec nsec : N) (ok : bool)           (* timer of a transaction started *)
| SStop (c : N) (ok : bool)                         (* timer stopped *)
| STimer (c : N)                                    (* timer seen to have expired *)
| SHandle (c : N) (req : msg)                       (* the request handler was called *)
| SCall (c : N) (body : list N)                     (* the receive callback was called with this body *)
| SBody (c : N) (body : list N)                     (* the application gave this body for the response *)
| SNewId (id : N)                                   (* coap_server_get_next_msg_id gave this message ID *)
| SUse (c : N) (t : N)                              (* last use of the transaction noted *)
| SCreate (c : N)                                   (* transaction created *)
| SDestroy (c : N).                                 (* transaction destroyed *)

(** Build options and set-up: signedness of char, COAP_PROXY, the paths registered
    with coap_server_add_sep_resp_uri_path, coap_mem_large_get_len(). *)
Record scfg := mkscfg { sc_sg : signedness; sc_proxy : bool; sc_sep : list (list N); sc_large : N }.

(** ** The application

    What the request handler does, as a function of the application's state, the
    client and the request: fail; build a response with the setters of coap_msg.h;
    build (part of) a response and then call coap_server_trans_handle_blockwise with
    block sizes, body and receive callback (a number; [None] is NULL), returning what
    it returns. *)
Inductive hres :=
| HErr (e : errno)
| HResp (l : list setter)
| HBlock (l : list setter) (size1 size2 : N) (body : list N) (body_len : N) (rx : option N).

(** What the receive callback does: fail, or apply setters to the response, write
    the body buffer and set body_end (coap_server.h 53). *)
Inductive rxres :=
| RxFail (e : errno)
| RxDone (l : list setter) (body : list N) (body_end : N).

Record app (A : Type) := mkapp {
  ap_handle : A -> N -> msg -> A * hres;
  ap_rx : N -> A -> list N -> N -> msg -> A * rxres
}.
Arguments mkapp {A}.
Arguments ap_handle {A}.
Arguments ap_rx {A}.

(** ** Transactions *)

(** coap_server_trans_type_t, coap_server.h 58-67. *)
Inductive ttype := TRegular | TGet | TPut1 | TPut2 | TPost1 | TPost2.

(** coap_server_trans_t, coap_server.h 117-148.  [t_armed]: the timer of timer_fd is
    running or has expired; a descriptor whose timer is not armed is never readable.
    [t_body] is [body] with its [body_len] bytes.  [client_addr] and [server] are
    left out. *)
Record trans := mktrans {
  t_active : bool;
  t_type : ttype;
  t_last_use : N;
  t_armed : bool;
  t_sec : N; t_nsec : N;
  t_retrans : N;
  t_client : N;
  t_req : msg;
  t_resp : msg;
  t_body : option (list N);
  t_end : N;
  t_size1 : N; t_size2 : N;
  t_next1 : N; t_next2 : N;
  t_uri : list N;
  t_detail : N;
  t_rx : option N
}.

(** All bytes zero. *)
Definition trans_zero : trans :=
  mktrans false TRegular 0 false 0 0 0 0 msg_zero msg_zero None 0 0 0 0 0 [] 0 None.

Definition NUM_TRANS : nat := 8.

Definition t_with_last_use (t : trans) (x : N) : trans :=
  mktrans (t_active t) (t_type t) x (t_armed t) (t_sec t) (t_nsec t) (t_retrans t) (t_client t)
          (t_req t) (t_resp t) (t_body t) (t_end t) (t_size1 t) (t_size2 t) (t_next1 t) (t_next2 t)
          (t_uri t) (t_detail t) (t_rx t).
Definition t_with_armed (t : trans) (x : bool) : trans :=
  mktrans (t_active t) (t_type t) (t_last_use t) x (t_sec t) (t_nsec t) (t_retrans t) (t_client t)
          (t_req t) (t_resp t) (t_body t) (t_end t) (t_size1 t) (t_size2 t) (t_next1 t) (t_next2 t)
          (t_uri t) (t_detail t) (t_rx t).
Definition t_with_timeout (t : trans) (sec nsec : N) : trans :=
  mktrans (t_active t) (t_type t) (t_last_use t) (t_armed t) sec nsec (t_retrans t) (t_client t)
          (t_req t) (t_resp t) (t_body t) (t_end t) (t_size1 t) (t_size2 t) (t_next1 t) (t_next2 t)
          (t_uri t) (t_detail t) (t_rx t).
Definition t_with_retrans (t : trans) (x : N) : trans :=
  mktrans (t_active t) (t_type t) (t_last_use t) (t_armed t) (t_sec t) (t_nsec t) x (t_client t)
          (t_req t) (t_resp t) (t_body t) (t_end t) (t_size1 t) (t_size2 t) (t_next1 t) (t_next2 t)
          (t_uri t) (t_detail t) (t_rx t).
Definition t_with_msgs (t : trans) (q r : msg) : trans :=
  mktrans (t_active t) (t_type t) (t_last_use t) (t_armed t) (t_sec t) (t_nsec t) (t_retrans t) (t_client t)
          q r (t_body t) (t_end t) (t_size1 t) (t_size2 t) (t_next1 t) (t_next2 t)
          (t_uri t) (t_detail t) (t_rx t).
Definition t_with_block (t : trans) (ty : ttype) (body : option (list N)) (e s1 s2 n1 n2 : N)
           (uri : list N) (d : N) (rx : option N) : trans :=
  mktrans (t_active t) ty (t_last_use t) (t_armed t) (t_sec t) (t_nsec t) (t_retrans t) (t_client t)
          (t_req t) (t_resp t) body e s1 s2 n1 n2 uri d rx.

(** coap_server_trans_clear_blockwise, coap_server.c 644-661. *)
Definition clear_blockwise (t : trans) : trans :=
  t_with_block t TRegular None 0 0 0 0 0 [] 0 None.

(** coap_server_trans_match_req and coap_server_trans_match_resp,
    coap_server.c 701-721. *)
Definition match_req (t : trans) (m : msg) : bool :=
  negb (m_ver (t_req t) =? 0) && (m_id (t_req t) =? m_id m).
Definition match_resp (t : trans) (m : msg) : bool :=
  negb (m_ver (t_resp t) =? 0) && (m_id (t_resp t) =? m_id m).

(** ** Strings *)

(** The C string in a buffer: everything before the first NUL. *)
Fixpoint cstr (l : list N) : list N :=
  match l with
  | [] => []
  | x :: l => if x =? 0 then [] else x :: cstr l
  end.

(** strcmp(a, b) == 0 for two buffers that contain a NUL. *)
Definition cstr_eqb (a b : list N) : bool := bytes_eqb (cstr a) (cstr b).

(** coap_msg_uri_path_to_str into a zeroed buffer of [len] bytes whose result is
    not looked at (coap_server.c 1445, 1728, 2225). *)
Definition path_buf (m : msg) (len : N) : res (list N) :=
  let* r := uri_path_to_str (m_ops m) len in
  Ok (match fst r with Some b => b | None => repeat 0 (N.to_nat len) end).

(** COAP_MSG_OP_URI_PATH_MAX_LEN, coap_msg.h 46. *)
Definition URI_PATH_MAX_LEN : N := 256.

(** coap_server_path_list_match, coap_server.c 185-201. *)
Fixpoint path_list_match (l : list (list N)) (s : list N) : bool :=
  match l with
  | [] => false
  | p :: l => if cstr_eqb p s then true else path_list_match l s
  end.

(** coap_server_path_list_add with coap_server_path_new, coap_server.c 83-104 and
    154-173, for small buffers of [small] bytes that are available: the string [s]
    (without its NUL) must fit with the NUL. *)
Definition path_list_add (small : N) (l : list (list N)) (s : list N) : res (list (list N)) :=
  if small <? lenN s + 1 then Err ENOMEM else Ok (l ++ [s]).

(** The decimal digits that %u prints. *)
Fixpoint dec_loop (fuel : nat) (n : N) : list N :=
  match fuel with
  | O => []
  | S fuel => if n <? 10 then [48 + n] else dec_loop fuel (n / 10) ++ [48 + n mod 10]
  end.
Definition dec (n : N) : list N := dec_loop 10 n.

(** ** Blockwise transfers *)

Definition BAD_REQ : N := 0.
Definition BAD_OPTION : N := 2.
Definition INCOMPLETE : N := 8.
Definition REQ_ENT_TOO_LARGE : N := 13.
Definition NOT_IMPL : N := 1.

(** coap_msg_set_code as the last step of a function. *)
Definition end_code (t : trans) (resp : msg) (c d : N) : trans * msg * res unit :=
  match set_code resp c d with
  | Ok m => (t, m, Ok tt)
  | Err e => (t, resp, Err e)
  | UB u => (t, resp, UB u)
  | OutOfFuel => (t, resp, OutOfFuel)
  end.

(** A failing step of coap_server_trans_handle_next_block: the transfer is
    abandoned and the error returned. *)
Definition end_fail {B} (t : trans) (resp : msg) (r : res B) : trans * msg * res unit :=
  (clear_blockwise t, resp,
   match r with Ok _ => OutOfFuel | Err e => Err e | UB u => UB u | OutOfFuel => OutOfFuel end).

(** The number, the more flag and the size that coap_msg_parse_block_op leaves in
    its variables; they are zero before the call. *)
Definition blk_or_zero (o : option blk) : blk :=
  match o with Some b => b | None => mkblk 0 false 0 end.

(** The size of blocks after the option [o] of the request, coap_server.c 1429-1432
    and 1441-1444. *)
Definition resize (o : option blk) (size : N) : N :=
  match o with Some b => if b_size b <? size then b_size b else size | None => size end.

(** coap_server_trans_handle_next_block, first part, coap_server.c 1421-1445: the
    transaction with new sizes, the two options and the path; [inl] means that the
    function returns. *)
Definition nb_start (t : trans) (req resp : msg)
  : (trans * msg * res unit) + (trans * blk * blk * list N) :=
  match parse_block_op (m_ops req) OP_BLOCK1 with
  | Ok o1 =>
    let t := t_with_block t (t_type t) (t_body t) (t_end t) (resize o1 (t_size1 t)) (t_size2 t)
                          (t_next1 t) (t_next2 t) (t_uri t) (t_detail t) (t_rx t) in
    match parse_block_op (m_ops req) OP_BLOCK2 with
    | Ok o2 =>
      let t := t_with_block t (t_type t) (t_body t) (t_end t) (t_size1 t) (resize o2 (t_size2 t))
                            (t_next1 t) (t_next2 t) (t_uri t) (t_detail t) (t_rx t) in
      match path_buf req (URI_PATH_MAX_LEN + 1) with
      | Ok uri => inr (t, blk_or_zero o1, blk_or_zero o2, uri)
      | r => inl (end_fail t resp r)
      end
    | Err _ => inl (end_code (clear_blockwise t) resp CL_CLIENT_ERR BAD_REQ)
    | r => inl (end_fail t resp r)
    end
  | Err _ => inl (end_code (clear_blockwise t) resp CL_CLIENT_ERR BAD_REQ)
  | r => inl (end_fail t resp r)
  end.

Definition is_type (a b : ttype) : bool :=
  match a, b with
  | TRegular, TRegular | TGet, TGet | TPut1, TPut1 | TPut2, TPut2 | TPost1, TPost1 | TPost2, TPost2 => true
  | _, _ => false
  end.

(** coap_server_trans_handle_next_block for a block of the response,
    coap_server.c 1446-1528. *)
Definition nb_block2 (t : trans) (b2 : blk) (uri : list N) (req resp : msg) : trans * msg * res unit :=
  let next := mul32 (b_num b2) (t_size2 t) in
  if (is_type (t_type t) TGet && negb (m_detail req =? M_GET))
     || (is_type (t_type t) TPut2 && negb (m_detail req =? M_PUT))
     || (is_type (t_type t) TPost2 && negb (m_detail req =? M_POST))
     || negb (cstr_eqb uri (t_uri t))
     || negb (next =? t_next2 t)
  then end_code (clear_blockwise t) resp CL_CLIENT_ERR BAD_REQ else
  match calc_block_szx (t_size2 t) with
  | Ok szx =>
    let last := t_end t <? add64 (t_next2 t) (t_size2 t) in
    let plen := if last then (sub64 (t_end t) (t_next2 t)) mod two32 else t_size2 t in
    let num := (N.shiftr (t_next2 t) (szx + 4)) mod two32 in
    match format_block_val 3 num (negb last) (t_size2 t) with
    | Ok v =>
      match add_op resp OP_BLOCK2 v with
      | Ok resp =>
        match (let* body := match t_body t with Some b => Ok b | None => UB NullDeref end in
               let* p := adv body (t_next2 t) in
               let* pl := rdn p plen in
               set_payload resp pl) with
        | Ok resp =>
          let t := t_with_block t (t_type t) (t_body t) (t_end t) (t_size1 t) (t_size2 t) (t_next1 t)
                                (add64 (t_next2 t) plen) (t_uri t) (t_detail t) (t_rx t) in
          let detail := if last then (if is_type (t_type t) TGet then CONTENT else t_detail t)
                        else CONTINUE in
          end_code (if last then clear_blockwise t else t) resp CL_SUCCESS detail
        | r => end_fail t resp r
        end
      | r => end_fail t resp r
      end
    | r => end_fail t resp r
    end
  | r => end_fail t resp r
  end.

(** coap_server_trans_handle_next_block, coap_server.c 1401-1645, for one of the
    transaction types that generate a response (GET, PUT2, POST2). *)
Definition next_block2 (t : trans) (req resp : msg) : trans * msg * res unit :=
  match nb_start t req resp with
  | inl x => x
  | inr (t, _, b2, uri) => nb_block2 t b2 uri req resp
  end.

Section App.
Context {A : Type} (P : app A).

(** Result of a function that may call the receive callback: the application's
    state, what was observed, and the rest. *)
Definition nbres : Type := A * list sobs * (trans * msg * res unit).

(** coap_server_trans_handle_next_block for a block of the request, coap_server.c
    1529-1643.  The recursive call in line 1638 is for type PUT2 or POST2 only. *)
Definition nb_block1 (a : A) (t : trans) (b1 : blk) (uri : list N) (req resp : msg) : nbres :=
  let quiet x := (a, [], x) in
  let next := mul32 (b_num b1) (t_size1 t) in
  if (is_type (t_type t) TPut1 && negb (m_detail req =? M_PUT))
     || (is_type (t_type t) TPost1 && negb (m_detail req =? M_POST))
     || negb (cstr_eqb uri (t_uri t))
  then quiet (end_code (clear_blockwise t) resp CL_CLIENT_ERR BAD_REQ) else
  if negb (next =? t_next1 t)
  then quiet (end_code (clear_blockwise t) resp CL_CLIENT_ERR INCOMPLETE) else
  if lenN (m_payload req) =? 0
  then quiet (end_code (clear_blockwise t) resp CL_CLIENT_ERR BAD_REQ) else
  match calc_block_szx (t_size1 t) with
  | Ok szx =>
    let plen := lenN (m_payload req) mod two32 in
    match t_body t with
    | None => quiet (end_fail t resp (B:=unit) (UB NullDeref))
    | Some body =>
      if lenN body <? add64 (t_next1 t) plen
      then quiet (end_code (clear_blockwise t) resp CL_CLIENT_ERR REQ_ENT_TOO_LARGE) else
      let num := (N.shiftr (t_next1 t) (szx + 4)) mod two32 in
      match format_block_val 3 num (b_more b1) (t_size1 t) with
      | Ok v =>
        match add_op resp OP_BLOCK1 v with
        | Ok resp =>
          match put body (t_next1 t) (firstn (N.to_nat plen) (m_payload req)) with
          | Ok body =>
            let t := t_with_block t (t_type t) (Some body) (add64 (t_end t) plen) (t_size1 t) (t_size2 t)
                                  (add64 (t_next1 t) plen) (t_next2 t) (t_uri t) (t_detail t) (t_rx t) in
            if b_more b1 then quiet (end_code t resp CL_SUCCESS CONTINUE) else
            match t_rx t with
            | None => quiet (end_fail t resp (B:=unit) (UB NullDeref))
            | Some rx =>
              let called := SCall (t_client t) (firstn (N.to_nat (t_end t)) body) in
              let (a, r) := ap_rx P rx a body (t_end t) req in
              match r with
              | RxFail e => (a, [called], (clear_blockwise t, resp, Err e))
              | RxDone l body e =>
                let resp := fold_left run_setter l resp in
                if negb (m_class resp =? CL_SUCCESS) then (a, [called], (clear_blockwise t, resp, Ok tt)) else
                let detail := m_detail resp in
                if 0 <? e then
                  let ty := if is_type (t_type t) TPut1 then TPut2 else TPost2 in
                  let t := t_with_block t ty (Some body) e (t_size1 t) (t_size2 t) (t_next1 t) (t_next2 t)
                                        (t_uri t) detail (t_rx t) in
                  (a, [called; SBody (t_client t) (firstn (N.to_nat e) body)], next_block2 t req resp)
                else (a, [called], end_code (clear_blockwise t) resp CL_SUCCESS detail)
              end
            end
          | r => quiet (end_fail t resp r)
          end
        | r => quiet (end_fail t resp r)
        end
      | r => quiet (end_fail t resp r)
      end
    end
  | r => quiet (end_fail t resp r)
  end.

(** coap_server_trans_handle_next_block, coap_server.c 1401-1645. *)
Definition next_block (a : A) (t : trans) (req resp : msg) : nbres :=
  match t_type t with
  | TGet | TPut2 | TPost2 => (a, [], next_block2 t req resp)
  | TPut1 | TPost1 =>
    match nb_start t req resp with
    | inl x => (a, [], x)
    | inr (t, b1, _, uri) => nb_block1 a t b1 uri req resp
    end
  | TRegular =>
    match nb_start t req resp with
    | inl x => (a, [], x)
    | inr (t, _, _, _) => (a, [], (t, resp, Ok tt))
    end
  end.

(** coap_server_trans_handle_blockwise, coap_server.c 1647-1731; [large]: a large
    buffer is available. *)
Definition handle_blockwise (C : scfg) (large : bool) (a : A) (t : trans) (req resp : msg)
           (size1 size2 : N) (body : list N) (body_len : N) (rx : option N) : nbres :=
  let quiet x := (a, [], x) in
  let t := clear_blockwise t in
  let bad size := (0 <? size) && match calc_block_szx size with Ok _ => false | _ => true end in
  if bad size1 then quiet (t, resp, Err EINVAL) else
  if bad size2 then quiet (t, resp, Err EINVAL) else
  if sc_large C <? body_len then quiet (t, resp, Err ENOSPC) else
  if negb large then quiet (t, resp, Err ENOMEM) else
  let zero := repeat 0 (N.to_nat (sc_large C)) in
  let go ty buf e :=
    match path_buf req (URI_PATH_MAX_LEN + 1) with
    | Ok uri => next_block a (t_with_block t ty (Some buf) e size1 size2 0 0 uri 0 rx) req resp
    | r => quiet (end_fail t resp r)
    end in
  if m_detail req =? M_GET then
    match (let* src := rdn body body_len in put zero 0 src) with
    | Ok buf =>
      let '(a, l, x) := go TGet buf body_len in
      (a, SBody (t_client t) (firstn (N.to_nat body_len) body) :: l, x)
    | r => quiet (end_fail t resp r)
    end
  else if (m_detail req =? M_PUT) || (m_detail req =? M_POST) then
    match rx with
    | None => quiet (clear_blockwise t, resp, Err EINVAL)
    | Some _ => go (if m_detail req =? M_PUT then TPut1 else TPost1) zero 0
    end
  else quiet (end_code (clear_blockwise t) resp CL_SERVER_ERR NOT_IMPL).

(** ** The server *)

(** coap_server_t, coap_server.h 153-166, with the history, the number of calls of
    the operating system and the application's state. *)
Record srv := mksrv {
  v_trace : list sobs;
  v_n : nat;
  v_id : N;
  v_tr : list trans;
  v_app : A
}.

(** The server after coap_server_create, coap_server.c 1886 and 1948-1951; [id] is the random
    message ID (0 to 65535). *)
Definition server_init (id : N) (a : A) : srv := mksrv [] 0 id (repeat trans_zero NUM_TRANS) a.

Definition slog (v : srv) (o : sobs) : srv :=
  mksrv (v_trace v ++ [o]) (v_n v) (v_id v) (v_tr v) (v_app v).
Definition slogs (v : srv) (l : list sobs) : srv :=
  mksrv (v_trace v ++ l) (v_n v) (v_id v) (v_tr v) (v_app v).
Definition tick (v : srv) : srv := mksrv (v_trace v) (S (v_n v)) (v_id v) (v_tr v) (v_app v).
Definition tr (v : srv) (i : nat) : trans := nth i (v_tr v) trans_zero.
Fixpoint set_nth {B} (l : list B) (i : nat) (x : B) : list B :=
  match l, i with
  | [], _ => []
  | _ :: l, O => x :: l
  | y :: l, S i => y :: set_nth l i x
  end.
Definition set_tr (v : srv) (i : nat) (t : trans) : srv :=
  mksrv (v_trace v) (v_n v) (v_id v) (set_nth (v_tr v) i t) (v_app v).
Definition set_app (v : srv) (a : A) : srv := mksrv (v_trace v) (v_n v) (v_id v) (v_tr v) a.
Definition set_id (v : srv) (i : N) : srv := mksrv (v_trace v) (v_n v) i (v_tr v) (v_app v).

Context (E : senv) (C : scfg).

(** coap_server_trans_destroy, coap_server.c 668-679. *)
Definition trans_destroy (v : srv) (i : nat) : srv :=
  set_tr (slog v (SDestroy (t_client (tr v i)))) i trans_zero.

(** coap_server_trans_touch, coap_server.c 686-689. *)
Definition touch (v : srv) (i : nat) : srv :=
  let now := se_time E (v_n v) in
  set_tr (slog (tick v) (SUse (t_client (tr v i)) now)) i (t_with_last_use (tr v i) now).

(** coap_server_trans_start_timer and coap_server_trans_stop_timer, coap_server.c
    822-856. *)
Definition trans_start_timer (v : srv) (i : nat) : srv * res unit :=
  let t := tr v i in
  let r := se_set E (v_n v) in
  let ok := match r with None => true | Some _ => false end in
  let v := slog (tick v) (SArm (t_client t) (t_sec t) (t_nsec t) ok) in
  match r with
  | None => (set_tr v i (t_with_armed t true), Ok tt)
  | Some e => (v, Err e)
  end.
Definition trans_stop_timer (v : srv) (i : nat) : srv * res unit :=
  let t := tr v i in
  let r := se_set E (v_n v) in
  let ok := match r with None => true | Some _ => false end in
  let v := slog (tick v) (SStop (t_client t) ok) in
  match r with
  | None => (set_tr v i (t_with_armed t false), Ok tt)
  | Some e => (v, Err e)
  end.

(** coap_server_trans_start_ack_timer with coap_server_trans_init_ack_timeout,
    coap_server.c 787-797 and 867-872. *)
Definition trans_start_ack_timer (v : srv) (i : nat) : srv * res unit :=
  let r := se_rand E (v_n v) in
  let v := tick v in
  trans_start_timer
    (set_tr v i (t_with_timeout (t_with_retrans (tr v i) 0) ACK_TIMEOUT_SEC ((r mod 1000) * 1000000))) i.

(** coap_server_trans_stop_ack_timer, coap_server.c 883-887. *)
Definition trans_stop_ack_timer (v : srv) (i : nat) : srv * res unit :=
  trans_stop_timer (set_tr v i (t_with_retrans (tr v i) 0)) i.

(** coap_server_trans_double_timeout, coap_server.c 804-811; [msec] is [unsigned]. *)
Definition trans_double_timeout (t : trans) : trans :=
  let msec := (2 * (t_sec t * 1000 + t_nsec t / 1000000)) mod two32 in
  t_with_timeout t (msec / 1000) ((msec mod 1000) * 1000000).

(** coap_server_trans_update_ack_timer, coap_server.c 901-917;
    COAP_SERVER_MAX_RETRANSMIT is 4, as in the client. *)
Definition trans_update_ack_timer (v : srv) (i : nat) : srv * res unit :=
  if MAX_RETRANSMIT <=? t_retrans (tr v i) then (v, Err ETIMEDOUT) else
  let (v, r) := trans_start_timer (set_tr v i (trans_double_timeout (tr v i))) i in
  match r with
  | Ok _ => (set_tr v i (t_with_retrans (tr v i) (t_retrans (tr v i) + 1)), Ok tt)
  | _ => (v, r)
  end.

(** coap_server_trans_send, coap_server.c 929-973. *)
Definition trans_send (v : srv) (i : nat) (m : msg) : srv * res unit :=
  match msg_format m MAX_BUF_LEN with
  | Ok b =>
    let r := se_send E (v_n v) in
    let ok := match r with None => true | Some _ => false end in
    let v := slog (tick v) (SSend (t_client (tr v i)) b ok) in
    match r with
    | None => (touch v i, Ok tt)
    | Some e => (v, Err e)
    end
  | Err e => (v, Err e)
  | UB u => (v, UB u)
  | OutOfFuel => (v, OutOfFuel)
  end.

(** An empty message built and sent, coap_server.c 996-1012, 1122-1142, 1269-1289. *)
Definition trans_send_empty (v : srv) (i : nat) (ty id : N) : srv * res unit :=
  match empty_msg ty id with
  | Ok m => trans_send v i m
  | Err e => (v, Err e)
  | UB u => (v, UB u)
  | OutOfFuel => (v, OutOfFuel)
  end.

(** Only undefined behaviour matters of a result that is ignored. *)
Definition ignore (r : res unit) : res unit :=
  match r with UB u => UB u | OutOfFuel => OutOfFuel | _ => Ok tt end.

(** coap_server_trans_handle_format_error, coap_server.c 987-1014. *)
Definition trans_handle_format_error (v : srv) (i : nat) (p : list N) (len : N) : srv * res unit :=
  match parse_type_msg_id p len with
  | Ok (t, id) =>
    if t =? T_CON then let (v, r) := trans_send_empty v i T_RST id in (v, ignore r) else (v, Ok tt)
  | Err _ => (v, Ok tt)
  | UB u => (v, UB u)
  | OutOfFuel => (v, OutOfFuel)
  end.

(** coap_server_trans_recv, coap_server.c 1026-1101; the buffer is that of
    coap_client_recv. *)
Definition trans_recv (v : srv) (i : nat) (b : list N) (fail : option errno) : srv * res msg :=
  match fail with
  | Some e => (v, Err e)
  | None =>
    let v := slog v (SRecv (t_client (tr v i)) (rx_cut b)) in
    let p := rx_buf b in
    let len := lenN (rx_cut b) in
    match msg_parse (sc_sg C) p len with
    | Ok m => (touch v i, Ok m)
    | Err EBADMSG =>
      let (v, r) := trans_handle_format_error v i p len in
      (v, match r with Ok _ => Err EBADMSG | Err e => Err e | UB u => UB u | OutOfFuel => OutOfFuel end)
    | r => (v, r)
    end
  end.

(** coap_server_trans_reject with its four cases, coap_server.c 1115-1218. *)
Definition trans_reject (v : srv) (i : nat) (m : msg) : srv * res unit :=
  if m_type m =? T_CON then trans_send_empty v i T_RST (m_id m) else (v, Ok tt).

(** The string "Bad option number: ". *)
Definition bad_option_text : list N :=
  [66; 97; 100; 32; 111; 112; 116; 105; 111; 110; 32; 110; 117; 109; 98; 101; 114; 58; 32].

(** coap_server_trans_handle_bad_option, coap_server.c 1231-1250; the text always
    fits the 128-byte buffer. *)
Definition handle_bad_option (resp : msg) (num : N) : res msg :=
  let* m := set_code resp CL_CLIENT_ERR BAD_OPTION in
  set_payload m (bad_option_text ++ dec num).

(** coap_server_trans_send_ack, coap_server.c 1262-1290. *)
Definition trans_send_ack (v : srv) (i : nat) (m : msg) : srv * res unit :=
  trans_send_empty v i T_ACK (m_id m).

(** coap_server_trans_handle_ack_timeout, coap_server.c 1304-1328; timerfd_settime
    can not give ETIMEDOUT. *)
Definition trans_handle_ack_timeout (v : srv) (i : nat) : srv * res unit :=
  let (v, r) := trans_update_ack_timer v i in
  match r with
  | Ok _ => trans_send v i (t_resp (tr v i))
  | Err ETIMEDOUT => (trans_destroy v i, Ok tt)
  | _ => (v, r)
  end.

(** coap_server_trans_create, coap_server.c 1342-1383.  The use is noted first, but
    observed after the creation. *)
Definition trans_create (v : srv) (i : nat) (c : N) : srv * res unit :=
  let now := se_time E (v_n v) in
  let v := tick v in
  let r := se_create E (v_n v) in
  let v := tick v in
  match r with
  | Some e => (set_tr v i trans_zero, Err e)
  | None =>
    (set_tr (slogs v [SCreate c; SUse c now]) i
       (mktrans true TRegular now false 0 0 0 c msg_create msg_create None 0 0 0 0 0 [] 0 None), Ok tt)
  end.

(** coap_server_get_next_msg_id, coap_server.c 1987-1998.  The loop runs at most
    once, since two random bytes make at most 65535. *)
Definition next_msg_id (v : srv) : srv * N :=
  let id := add32 (v_id v) 1 in
  if MAX_MSG_ID <? id then
    let b0 := N.land (se_rand E (v_n v)) 255 in
    let b1 := N.land (se_rand E (S (v_n v))) 255 in
    let id := N.lor (N.shiftl b1 8) b0 in
    (set_id (slog (tick (tick v)) (SNewId id)) id, id)
  else (set_id (slog v (SNewId id)) id, id).

(** coap_server_check_options, coap_server.c 2012-2019. *)
Definition server_check_options (m : msg) : N :=
  if sc_proxy C then check_unsafe_ops (m_ops m) else check_critical_ops (m_ops m).

(** coap_server_find_trans, coap_server.c 2031-2048: first index with this client. *)
Fixpoint find_trans (l : list trans) (i : nat) (c : N) : option nat :=
  match l with
  | [] => None
  | t :: l => if t_active t && (t_client t =? c) then Some i else find_trans l (S i) c
  end.

(** coap_server_find_empty_trans, coap_server.c 2058-2073. *)
Fixpoint find_empty_trans (l : list trans) (i : nat) : option nat :=
  match l with
  | [] => None
  | t :: l => if negb (t_active t) then Some i else find_empty_trans l (S i)
  end.

(** coap_server_find_oldest_trans, coap_server.c 2085-2108: [min] is min_last_use,
    0 as long as nothing has been found; [old] the index found so far (initially
    the fallback 0). *)
Fixpoint find_oldest_trans (l : list trans) (i : nat) (min : N) (old : nat) : nat :=
  match l with
  | [] => old
  | t :: l =>
    if t_active t && ((min =? 0) || (t_last_use t <? min))
    then find_oldest_trans l (S i) (t_last_use t) i
    else find_oldest_trans l (S i) min old
  end.

(** coap_server_get_resp_type, coap_server.c 2220-2228: true stands for
    COAP_SERVER_SEPARATE. *)
Definition get_resp_type (m : msg) : res bool :=
  let* buf := path_buf m URI_PATH_MAX_LEN in
  Ok (path_list_match (sc_sep C) buf).

(** An error after which the transaction is destroyed and the error returned. *)
Definition give_up {B} (v : srv) (i : nat) (r : res B) : srv * res unit :=
  match r with
  | Ok _ => (trans_destroy v i, Ok tt)
  | Err e => (trans_destroy v i, Err e)
  | UB u => (v, UB u)
  | OutOfFuel => (v, OutOfFuel)
  end.

(** coap_server_exchange, finding or making the transaction, coap_server.c 2260-2274.
    The index, or the error of coap_server_trans_create. *)
Definition get_trans (v : srv) (c : N) : srv * res nat :=
  match find_trans (v_tr v) 0 c with
  | Some i => (v, Ok i)
  | None =>
    let '(v, i) := match find_empty_trans (v_tr v) 0 with
                   | Some i => (v, i)
                   | None => let i := find_oldest_trans (v_tr v) 0 0 0 in (trans_destroy v i, i)
                   end in
    let (v, r) := trans_create v i c in
    (v, let* _ := r in Ok i)
  end.

(** coap_server_exchange, a duplicate of the last request, coap_server.c 2301-2338.
    Line 2326 returns [ret], which is 0 there, when sending fails. *)
Definition exchange_dup (v : srv) (i : nat) (m : msg) : srv * res unit :=
  if m_type m =? T_CON then
    match get_resp_type m with
    | Ok true =>
      let (v, r) := trans_send_ack v i m in
      match r with Ok _ => (v, Ok tt) | _ => give_up v i r end
    | Ok false =>
      let (v, r) := trans_send v i (t_resp (tr v i)) in
      match r with
      | Ok _ => (v, Ok tt)
      | Err _ => (trans_destroy v i, Ok tt)
      | _ => (v, r)
      end
    | r => give_up v i r
    end
  else (v, Ok tt).

(** The application's part of coap_server_exchange, coap_server.c 2427-2441: the
    response so far. *)
Definition exchange_answer (v : srv) (i : nat) (m : msg) : srv * res msg :=
  let c := t_client (tr v i) in
  let num := server_check_options m in
  let back v (x : nbres) :=
    let '(a, l, (t, resp, r)) := x in
    let v := set_tr (set_app (slogs v l) a) i t in
    (v, let* _ := r in Ok resp) in
  if negb (num =? 0) then (v, handle_bad_option msg_create num)
  else if negb (is_type (t_type (tr v i)) TRegular) then
    back v (next_block (v_app v) (tr v i) m msg_create)
  else
    let v := slog v (SHandle c m) in
    let (a, h) := ap_handle P (v_app v) c m in
    let v := set_app v a in
    match h with
    | HErr e => (v, Err e)
    | HResp l => (v, Ok (fold_left run_setter l msg_create))
    | HBlock l s1 s2 body body_len rx =>
      let large := se_large E (v_n v) in
      let v := tick v in
      back v (handle_blockwise C large (v_app v) (tr v i) m (fold_left run_setter l msg_create)
                               s1 s2 body body_len rx)
    end.

(** coap_server_exchange, the response is completed, sent and recorded,
    coap_server.c 2449-2545; [sep]: a separate response. *)
Definition exchange_respond (v : srv) (i : nat) (m resp : msg) (sep : bool) : srv * res unit :=
  let con := m_type m =? T_CON in
  let (v, id) := if con && negb sep then (v, m_id m) else next_msg_id v in
  match (let* r := set_msg_id resp id in
         let* r := set_token r (m_token m) in
         set_type r (if con then (if sep then T_CON else T_ACK) else T_NON)) with
  | Ok resp =>
    let (v, r) := trans_send v i resp in
    match r with
    | Ok _ =>
      let ok1 := se_copy E (v_n v) in
      let ok2 := se_copy E (S (v_n v)) in
      let v := tick (tick v) in
      if negb (ok1 && ok2) then (trans_destroy v i, Err ENOMEM) else
      match msg_copy msg_create m with
      | Ok q =>
        match msg_copy msg_create resp with
        | Ok p =>
          let v := set_tr v i (t_with_msgs (tr v i) q p) in
          if m_type resp =? T_CON then
            let (v, r) := trans_start_ack_timer v i in
            match r with Ok _ => (v, Ok tt) | _ => give_up v i r end
          else (v, Ok tt)
        | r => give_up v i r
        end
      | r => give_up v i r
      end
    | _ => give_up v i r
    end
  | r => give_up v i r
  end.

(** coap_server_exchange, a new request, coap_server.c 2394-2545. *)
Definition exchange_request (v : srv) (i : nat) (m : msg) : srv * res unit :=
  let v := set_tr v i (t_with_msgs (tr v i) msg_zero msg_zero) in
  let con := m_type m =? T_CON in
  match (if con then get_resp_type m else Ok false) with
  | Ok sep =>
    let (v, r) := if con && sep then trans_send_ack v i m else (v, Ok tt) in
    match r with
    | Ok _ =>
      let (v, r) := exchange_answer v i m in
      match r with
      | Ok resp => exchange_respond v i m resp sep
      | _ => give_up v i r
      end
    | _ => give_up v i r
    end
  | r => give_up v i r
  end.

(** coap_server_exchange, a received message, coap_server.c 2298-2545. *)
Definition exchange_msg (v : srv) (i : nat) (m : msg) : srv * res unit :=
  if match_req (tr v i) m && ((m_type m =? T_CON) || (m_type m =? T_NON)) then exchange_dup v i m
  else if match_resp (tr v i) m && ((m_type m =? T_ACK) || (m_type m =? T_RST)) then
    let (v, r) := trans_stop_ack_timer v i in
    match r with Ok _ => (v, Ok tt) | _ => give_up v i r end
  else if (m_type m =? T_ACK) || (m_type m =? T_RST) || negb (m_class m =? CL_REQ) then
    let (v, r) := trans_reject v i m in
    match r with
    | UB u => (v, UB u)
    | OutOfFuel => (v, OutOfFuel)
    | _ => (trans_destroy v i, Err EBADMSG)
    end
  else exchange_request v i m.

(** coap_server_exchange, coap_server.c 2239-2546, once the first recvfrom has given
    the client. *)
Definition server_exchange (v : srv) (c : N) (b : list N) (fail : option errno) : srv * res unit :=
  let (v, r) := get_trans v c in
  match r with
  | Ok i =>
    let (v, r) := trans_recv v i b fail in
    match r with
    | Ok m => exchange_msg v i m
    | Err EAGAIN => (v, Ok tt)
    | r => give_up v i r
    end
  | Err e => (v, Err e)
  | UB u => (v, UB u)
  | OutOfFuel => (v, OutOfFuel)
  end.

(** The timers in coap_server_listen, coap_server.c 2154-2165: indices from [i] on,
    [l] telling which timers have expired. *)
Fixpoint server_timers (v : srv) (i : nat) (l : list bool) : srv * res unit :=
  match l with
  | [] => (v, Ok tt)
  | x :: l =>
    if x && t_active (tr v i) && t_armed (tr v i) then
      let (v, r) := trans_handle_ack_timeout (slog v (STimer (t_client (tr v i)))) i in
      match r with Ok _ => server_timers v (S i) l | _ => (v, r) end
    else server_timers v (S i) l
  end.

(** ** The main loop

    coap_server_run and coap_server_listen, coap_server.c 2120-2168 and 2548-2573: one
    step per return of select.  [None]: still running; [Some r]: coap_server_run has
    returned the error [r], or undefined behaviour. *)
Definition server_step (v : srv) (e : sev) : srv * option (res unit) :=
  match e with
  | EvErr e => (v, Some (Err e))
  | EvRxErr _ => (v, None)
  | EvRx c b fail =>
    let (v, r) := server_exchange v c b fail in
    (v, match r with UB u => Some (UB u) | OutOfFuel => Some OutOfFuel | _ => None end)
  | EvTimers l =>
    let (v, r) := server_timers v 0 (firstn NUM_TRANS l) in
    (v, match r with Ok _ => None | _ => Some r end)
  end.

Fixpoint server_run (v : srv) (evs : list sev) : srv * option (res unit) :=
  match evs with
  | [] => (v, None)
  | e :: evs =>
    let (v, r) := server_step v e in
    match r with None => server_run v evs | Some _ => (v, r) end
  end.

End App.
