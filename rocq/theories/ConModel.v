(** Model of proxy/http_coap/src/connection.c: one connection to a HTTP client.  No proofs in
    this file.

    Not modelled: logging, statistics, the thread, TLS.  The network of CoAP servers, with the CoAP client
    of lib/src/coap_client.c in front of it, is a parameter. *)
From Verif Require Import Base BufModel UriModel HttpModel MsgModel ClientModel CrossModel.

(** connection.c 49-55. *)
Definition CONNECTION_DATA_BUF_SIZE : N := 4096.
Definition CONNECTION_DATA_BUF_MAX_SIZE : N := 32768.
Definition CONNECTION_DATA_BUF_MIN_SPACE : N := 128.
Definition CONNECTION_BODY_LEN : N := 8192.
Definition CONNECTION_COAP_BLOCK1_SIZE : N := 32.
Definition CONNECTION_COAP_BLOCK2_SIZE : N := 32.

(** Results of the functions: success, CON_RET_TIMEDOUT, CON_RET_CLOSED (connection.c 57-62), an error.
    [KWait]: waiting for an event that the environment does not provide. *)
Inductive kret (A : Type) := KOk (a : A) | KTimedOut | KClosed | KErr (e : errno) | KUB (u : ubkind) | KFuel | KWait.
Arguments KOk {A}. Arguments KTimedOut {A}. Arguments KClosed {A}. Arguments KErr {A}. Arguments KUB {A}. Arguments KFuel {A}. Arguments KWait {A}.
Definition kfail {A B} (r : res A) : kret B :=
  match r with Ok _ => KFuel | Err e => KErr e | UB u => KUB u | OutOfFuel => KFuel end.

(** ** connection_recv *)

(** What select and tls_sock_read do in one round: select times out or fails; it reports data but
    tls_sock_read fails; or tls_sock_read provides [n] bytes, or as many as there is space for or as there are: 0 means that the
    socket is closed.  [mem]: whether malloc succeeds if the buffer is expanded. *)
Inductive hev := HTimeout | HSelErr (e : errno) | HFail | HRead (n : N) (mem : bool).

(** Bytes of a block, all of which must have been written. *)
Fixpoint cells (l : list (option N)) : res (list N) :=
  match l with
  | [] => Ok []
  | Some x :: l => let* xs := cells l in Ok (x :: xs)
  | None :: _ => UB Uninit
  end.

(** connection_recv, connection.c 193-278.  [wire] are the bytes that the client has sent or will send and that are
    not read yet, [b] is con->recv_buf.  Returns the events and bytes left, and the buffer.
    [fuel] is that of http_msg_parse, whose number is compared with 0 and -EAGAIN. *)
Fixpoint connection_recv (fuel : nat) (evs : list hev) (wire : list N) (b : dbuf) : list hev * list N * dbuf * kret hmsg :=
  match evs with
  | [] => ([], wire, b, KWait)
  | HTimeout :: evs => (evs, wire, b, KTimedOut)
  | HSelErr e :: evs => (evs, wire, b, KErr e)
  | HFail :: evs => (evs, wire, b, KErr EOTHER)
  | HRead n mem :: evs =>
    let n := N.to_nat (N.min n (data_buf_get_space b)) in
    let got := firstn n wire in
    let wire := skipn n wire in
    match got with
    | [] => (evs, wire, b, KClosed)
    | _ =>
      match data_buf_recv b got with
      | Ok (b, _) =>
        let again :=
          if data_buf_get_space b <? CONNECTION_DATA_BUF_MIN_SPACE
          then match data_buf_expand b mem with
               | Ok b => connection_recv fuel evs wire b
               | r => (evs, wire, b, kfail r)
               end
          else connection_recv fuel evs wire b in
        match cells (firstn (N.to_nat (d_count b)) (d_data b)) with
        | Ok text =>
          match http_msg_parse fuel text with
          | Ok (m, num) =>
            if (0 <? num)%Z then
              match data_buf_consume b (Z.to_N num) with
              | Ok (b, _) => (evs, wire, b, KOk m)
              | r => (evs, wire, b, kfail r)
              end
            else if (num =? -11)%Z then again
            else if (num =? 0)%Z then (evs, wire, b, KOk m)
            else (evs, wire, b, KErr EOTHER)
          | Err EAGAIN => again
          | r => (evs, wire, b, kfail r)
          end
        | r => (evs, wire, b, kfail r)
        end
      | r => (evs, wire, b, kfail r)
      end
    end
  end.

(** ** connection_send *)

(** What tls_sock_write_full does: writes all, fails, or finds the socket closed. *)
Inductive wev := WAll | WFail | WClosed.

(** http_msg_generate(msg, data_buf_get_data(b), data_buf_get_space(b)), connection.c 292: the block
    and the length.  The first bytes of the block are cleared by http_msg_generate, so that it does not matter
    what they were; those after the given length are left as they were. *)
Definition send_generate (m : hmsg) (b : dbuf) : res (dbuf * N) :=
  let space := data_buf_get_space b in
  let* (mem, len) := http_msg_generate m (map (fun c => match c with Some x => x | None => 0 end) (d_data b)) space in
  Ok (mkdbuf (d_count b) (d_size b) (d_max b) (map Some (firstn (N.to_nat space) mem) ++ skipn (N.to_nat space) (d_data b)), len).

(** connection_send, connection.c 284-332.  [mem]: whether malloc succeeds for a buffer of the size that is doubled.
    Returns con->send_buf and the bytes written.  [fuel] bounds the rounds. *)
Fixpoint connection_send (fuel : nat) (mem : N -> bool) (w : wev) (m : hmsg) (b : dbuf) : dbuf * kret (list N) :=
  match fuel with
  | O => (b, KFuel)
  | S fuel =>
    match send_generate m b with
    | Ok (b, len) =>
      if len <=? data_buf_get_space b then
        if lenN (d_data b) <? len then (b, KUB OobRead) else
        match cells (firstn (N.to_nat len) (d_data b)) with
        | Ok bytes => (b, match w with WAll => KOk bytes | WFail => KErr EOTHER | WClosed => KClosed end)
        | r => (b, kfail r)
        end
      else
        match data_buf_expand b (mem (d_size b)) with
        | Ok b => connection_send fuel mem w m b
        | r => (b, kfail r)
        end
    | r => (b, kfail r)
    end
  end.

(** ** The rest *)

(** What happens on the side of the CoAP servers: a client is connected to a host and port, closed, a
    request is sent over it, with this result. *)
Inductive cobs := CoOpen (host port : list N) | CoClose | CoSend (m : msg) (r : res msg).

(** connection_t, connection.h 44-63: [k_client] are coap_client_host and coap_client_port, if
    coap_client_active. *)
Record con := mkcon {
  k_client : option (list N * list N);
  k_body : list N;
  k_end : N;
  k_recv : dbuf;
  k_send : dbuf
}.
Definition with_client (k : con) (c : option (list N * list N)) : con := mkcon c (k_body k) (k_end k) (k_recv k) (k_send k).
Definition with_body (k : con) (b : list N) (e : N) : con := mkcon (k_client k) b e (k_recv k) (k_send k).

(** connection_new, connection.c 737-798, if all allocations succeed.  The block of malloc is not initialised, but
    connection_exchange, 668, clears it before it is used. *)
Definition connection_new : res con :=
  let* r := data_buf_create CONNECTION_DATA_BUF_SIZE CONNECTION_DATA_BUF_MAX_SIZE true in
  let* s := data_buf_create CONNECTION_DATA_BUF_SIZE CONNECTION_DATA_BUF_MAX_SIZE true in
  Ok (mkcon None (repeat 0 (N.to_nat CONNECTION_BODY_LEN)) 0 r s).

(** Which allocations succeed in connection_process. *)
Record pmem := mkpmem { p_x : xmem; p_uri : N -> bool; p_host : bool; p_port : bool }.

Section Servers.
(** The CoAP side: coap_client_create with a host and a port, coap_client_destroy, coap_client_exchange.
    The id and token that coap_client_exchange puts in the request are overwritten by the next one. *)
Context {St : Type} (copen : St -> list N -> list N -> St * res unit) (cclose : St -> St) (exch : St -> msg -> St * res msg).

(** The CoAP side and what happened there. *)
Definition world : Type := (St * list cobs)%type.
Definition w_open (w : world) (h p : list N) : world * res unit :=
  let (s, r) := copen (fst w) h p in
  ((s, match r with Ok _ => snd w ++ [CoOpen h p] | _ => snd w end), r).
Definition w_close (w : world) : world := (cclose (fst w), snd w ++ [CoClose]).
Definition w_exch (w : world) (m : msg) : world * res msg :=
  let (s, r) := exch (fst w) m in ((s, snd w ++ [CoSend m r]), r).

(** connection_coap_client_create, connection.c 129-173.  coap_client_create refuses a
    missing host or port, coap_client.c 570. *)
Definition coap_client_create (p : pmem) (w : world) (k : con) (u : uri) : world * con * res unit :=
  match u_host u, u_port u with
  | Some h, Some pt =>
    let (w, r) := w_open w h pt in
    match r with
    | Ok _ =>
      if negb (p_host p) then (w_close w, k, Err ENOMEM) else
      if negb (p_port p) then (w_close w, k, Err ENOMEM) else
      (w, with_client k (Some (h, pt)), Ok tt)
    | Err e => (w, k, Err e)
    | UB u => (w, k, UB u)
    | OutOfFuel => (w, k, OutOfFuel)
    end
  | _, _ => (w, k, Err EINVAL)
  end.

(** connection_coap_client_destroy, connection.c 175-186. *)
Definition coap_client_destroy (w : world) (k : con) : world * con := (w_close w, with_client k None).

(** The choice of the client in connection_process, connection.c 543-577. *)
Definition choose_client (p : pmem) (w : world) (k : con) (u : uri) : world * con * res unit :=
  match k_client k with
  | None => coap_client_create p w k u
  | Some (h, pt) =>
    let again := let (w, k) := coap_client_destroy w k in coap_client_create p w k u in
    match u_host u with
    | None => (w, k, UB NullDeref)
    | Some h' =>
      if negb (same_word h' h) then again else
      match u_port u with
      | None => (w, k, UB NullDeref)
      | Some pt' => if negb (str_eq pt' pt) then again else (w, k, Ok tt)
      end
    end
  end.

(** coap_client_exchange_blockwise for the first [n] bytes of con->body; con->body_end is the number returned.  More
    bytes than there are would be an access out of bounds; that it is one is noted at once. *)
Definition con_blockwise (fuel : nat) (w : world) (k : con) (req : msg) (have : option msg) (size1 size2 n : N)
  : world * con * res msg :=
  if lenN (k_body k) <? n then (w, k, UB OobWrite) else
  let '(w, buf, r) := exchange_blockwise w_exch fuel w req have size1 size2 (firstn (N.to_nat n) (k_body k)) in
  let body := buf ++ skipn (N.to_nat n) (k_body k) in
  match r with
  | Ok (num, resp) => (w, with_body k body num, Ok resp)
  | Err e => (w, with_body k body (k_end k), Err e)
  | UB u => (w, with_body k body (k_end k), UB u)
  | OutOfFuel => (w, with_body k body (k_end k), OutOfFuel)
  end.

(** The branches for PUT, connection.c 404-458, and POST, 459-513, which are the same. *)
Definition con_put (fuel : nat) (w : world) (k : con) (req : msg) : world * con * res msg :=
  if 0 <? k_end k
  then con_blockwise fuel w k req None CONNECTION_COAP_BLOCK1_SIZE CONNECTION_COAP_BLOCK2_SIZE (k_end k)
  else
    let (w, r) := w_exch w req in
    match r with
    | Ok resp =>
      if (m_class resp =? CL_CLIENT_ERR) && (m_detail resp =? 13) then
        match put (k_body k) 0 (m_payload req) with
        | Ok body =>
          con_blockwise fuel w (with_body k body (lenN (m_payload req))) (mkmsg (m_ver req) (m_type req) (m_class req) (m_detail req) (m_id req) (m_token req) (m_ops req) [])
            None CONNECTION_COAP_BLOCK1_SIZE CONNECTION_COAP_BLOCK2_SIZE (lenN (m_payload req))
        | Err e => (w, k, Err e)
        | UB u => (w, k, UB u)
        | OutOfFuel => (w, k, OutOfFuel)
        end
      else (w, k, Ok resp)
    | _ => (w, k, r)
    end.

(** connection_coap_exchange, connection.c 358-515.  For any other method the response stays as
    coap_msg_create has left it. *)
Definition connection_coap_exchange (fuel : nat) (w : world) (k : con) (req : msg) : world * con * res msg :=
  if m_detail req =? M_GET then
    let (w, r) := w_exch w req in
    match r with
    | Ok resp =>
      match parse_block_op (m_ops resp) OP_BLOCK2 with
      | Ok None => (w, k, Ok resp)
      | Ok (Some b) => con_blockwise fuel w k req (Some resp) (b_size b) (b_size b) (lenN (k_body k))
      | Err e => (w, k, Err e)
      | UB u => (w, k, UB u)
      | OutOfFuel => (w, k, OutOfFuel)
      end
    | _ => (w, k, r)
    end
  else if (m_detail req =? M_PUT) || (m_detail req =? M_POST) then con_put fuel w k req
  else (w, k, Ok msg_create).

(** connection_gen_error_resp, connection.c 337-353: headers and body of the message stay. *)
Definition gen_error_resp (h : hmsg) (code : N) : hmsg :=
  mkhmsg (s_http11, dec_text code, cross_http_resp_code_to_str code) (hm_headers h) (hm_body h).
Definition no_resp : hmsg := mkhmsg ([], [], []) [] None.

(** connection_process, connection.c 520-620. *)
Definition connection_process (sg : signedness) (p : pmem) (fuel : nat) (w : world) (k : con) (h : hmsg) : world * con * res hmsg :=
  let '(_, ustr, _) := hm_start h in
  match cross_req_http_to_coap sg (p_x p) h (k_body k) (k_end k) with
  | CErr code _ => (w, k, Ok (gen_error_resp no_resp code))
  | CUB u => (w, k, UB u)
  | CFuel => (w, k, OutOfFuel)
  | COk (req, body, bend) =>
    let k := with_body k body bend in
    match uri_parse sg (p_uri p) ustr with
    | Ok u =>
      let '(w, k, r) := choose_client p w k u in
      match r with
      | Ok _ =>
        let '(w, k, r) := connection_coap_exchange fuel w k req in
        match r with
        | Ok resp =>
          match cross_resp_coap_to_http resp (k_body k) (k_end k) with
          | Ok (h, None) => (w, k, Ok h)
          | Ok (h, Some (code, _)) => (w, k, Ok (gen_error_resp h code))
          | Err e => (w, k, Err e)
          | UB u => (w, k, UB u)
          | OutOfFuel => (w, k, OutOfFuel)
          end
        | Err ETIMEDOUT => (w, k, Ok (gen_error_resp no_resp 504))
        | Err EBADMSG => (w, k, Ok (gen_error_resp no_resp 502))
        | Err _ => (w, k, Ok (gen_error_resp no_resp 501))
        | UB u => (w, k, UB u)
        | OutOfFuel => (w, k, OutOfFuel)
        end
      | Err e => (w, k, Err e)
      | UB u => (w, k, UB u)
      | OutOfFuel => (w, k, OutOfFuel)
      end
    | Err e => (w, k, Err e)
    | UB u => (w, k, UB u)
    | OutOfFuel => (w, k, OutOfFuel)
    end
  end.

(** What the environment decides in one transaction, besides the events. *)
Record turn := mkturn { t_mem : pmem; t_send : N -> bool; t_write : wev }.

(** The HTTP side: events to come, bytes not yet read, and the connection. *)
Definition hside : Type := (list hev * list N * con)%type.

(** connection_exchange, connection.c 660-706, with __connection_exchange, 627-653: the request, the
    response and the bytes written. *)
Definition connection_exchange (sg : signedness) (fuel : nat) (t : turn) (w : world) (x : hside)
  : world * hside * kret (hmsg * hmsg * list N) :=
  let '(evs, wire, k) := x in
  let k := with_body k (repeat 0 (N.to_nat CONNECTION_BODY_LEN)) 0 in
  let '(evs, wire, b, r) := connection_recv fuel evs wire (k_recv k) in
  let k := mkcon (k_client k) (k_body k) (k_end k) b (k_send k) in
  match r with
  | KOk req =>
    let '(w, k, r) := connection_process sg (t_mem t) fuel w k req in
    match r with
    | Ok resp =>
      let (b, r) := connection_send fuel (t_send t) (t_write t) resp (k_send k) in
      let k := mkcon (k_client k) (k_body k) (k_end k) (k_recv k) b in
      (w, (evs, wire, k),
       match r with
       | KOk bytes => KOk (req, resp, bytes)
       | KTimedOut => KTimedOut | KClosed => KClosed | KErr e => KErr e | KUB u => KUB u | KFuel => KFuel | KWait => KWait
       end)
    | _ => (w, (evs, wire, k), kfail r)
    end
  | KTimedOut => (w, (evs, wire, k), KTimedOut)
  | KClosed => (w, (evs, wire, k), KClosed)
  | KErr e => (w, (evs, wire, k), KErr e)
  | KUB u => (w, (evs, wire, k), KUB u)
  | KFuel => (w, (evs, wire, k), KFuel)
  | KWait => (w, (evs, wire, k), KWait)
  end.

(** connection_thread_func, connection.c 708-735: transactions until one fails.  Also returns the
    requests, responses and bytes written. *)
Fixpoint connection_thread (sg : signedness) (fuel : nat) (ts : list turn) (w : world) (x : hside)
  : world * hside * list (hmsg * hmsg * list N) * kret unit :=
  match ts with
  | [] => (w, x, [], KWait)
  | t :: ts =>
    let '(w, x, r) := connection_exchange sg fuel t w x in
    match r with
    | KOk d => let '(w, x, ds, r) := connection_thread sg fuel ts w x in (w, x, d :: ds, r)
    | KTimedOut => (w, x, [], KTimedOut)
    | KClosed => (w, x, [], KClosed)
    | KErr e => (w, x, [], KErr e)
    | KUB u => (w, x, [], KUB u)
    | KFuel => (w, x, [], KFuel)
    | KWait => (w, x, [], KWait)
    end
  end.
End Servers.
