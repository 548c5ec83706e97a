(** Model of the sample applications that transfer a file,
    sample/transfer_server/transfer_server.c and
    sample/transfer_client/transfer_client.c, as users of the two libraries.  Not
    modelled: the creation and destruction of the client and the server, the log, and
    the parsing of the command lines.  No proofs in this file. *)
From Verif Require Import Base MsgModel ClientModel ServerModel.

(** The constants of transfer_server.c 41-49 and transfer_client.c 48-49. *)
Definition TRANSFER_URI_PATH_BUF_LEN : N := 32.
Definition TRANSFER_LARGE_BUF_LEN : N := 8192.
Definition TRANSFER_BLOCK1_SIZE : N := 64.
Definition TRANSFER_BLOCK2_SIZE : N := 64.

(** The string "/client/transfer", transfer_server.c 105, and the two segments of
    transfer_client.c 202 and 210. *)
Definition client_text : list N := [99; 108; 105; 101; 110; 116].
Definition transfer_text : list N := [116; 114; 97; 110; 115; 102; 101; 114].
Definition transfer_path : list N := 47 :: client_text ++ 47 :: transfer_text.

(** The state of the server application: the contents of the file "out"
    (transfer_server.c 50), [None] if there is none, and the number of attempts to
    write it so far. *)
Record tserver := mktserver { ts_n : nat; ts_file : option (list N) }.

Section Server.
(** The outcome of each attempt to write the file, transfer_server.c 57 and 63:
    [None] if fopen fails; [Some k] if it succeeds and fwrite can write [k] bytes.
    Simplification: what fwrite has accepted is in the file after fclose. *)
Context (F : nat -> option N).

(** transfer_server_handle_rx, transfer_server.c 52-77.  [buf] is the body buffer of
    the transaction and [e] its end; line 75 sets the end to 0, the other returns leave
    it.  fopen with mode "wb" truncates the file. *)
Definition transfer_handle_rx (a : tserver) (buf : list N) (e : N) : tserver * rxres :=
  match F (ts_n a) with
  | None => (mktserver (S (ts_n a)) (ts_file a), RxDone [SetCode CL_SERVER_ERR 0] buf e)
  | Some k =>
    let num := N.min k e in
    let a := mktserver (S (ts_n a)) (Some (firstn (N.to_nat num) (firstn (N.to_nat e) buf))) in
    if negb (num =? e) then (a, RxDone [SetCode CL_SERVER_ERR 0] buf e)
    else (a, RxDone [SetCode CL_SUCCESS CHANGED] buf 0)
  end.

(** transfer_server_handle, transfer_server.c 79-115; the callback has the number 0.
    The last case of the match is not reached (uri_path_to_str has a result for every
    buffer of 32 bytes). *)
Definition transfer_handle (a : tserver) (req : msg) : tserver * hres :=
  if negb (m_ver req =? COAP_VER) then (a, HErr EBADMSG) else
  if negb (m_class req =? CL_REQ) || negb (m_detail req =? M_PUT)
  then (a, HResp [SetCode CL_SERVER_ERR NOT_IMPL]) else
  match uri_path_to_str (m_ops req) TRANSFER_URI_PATH_BUF_LEN with
  | Ok (Some uri_path, n) =>
    if TRANSFER_URI_PATH_BUF_LEN <? n + 1 then (a, HErr ENOSPC) else
    if negb (cstr_eqb uri_path transfer_path) then (a, HResp [SetCode CL_CLIENT_ERR 4]) else
    (a, HBlock [] TRANSFER_BLOCK1_SIZE TRANSFER_BLOCK2_SIZE [] 0 (Some 0))
  | _ => (a, HErr EBADMSG)
  end.

(** The application given to coap_server_create, transfer_server.c 164 and 173. *)
Definition transfer_server : app tserver :=
  mkapp (fun a _ req => transfer_handle a req) (fun _ a buf e _ => transfer_handle_rx a buf e).
End Server.

(** The server as transfer_server.c 118-189 sets it up: large buffers of 8192 bytes,
    no separate responses, not built as a proxy. *)
Definition transfer_cfg (sg : signedness) : scfg := mkscfg sg false [] TRANSFER_LARGE_BUF_LEN.

(** The request of transfer_client_execute, transfer_client.c 198-210. *)
Definition transfer_request : msg :=
  msg_build [SetType T_CON; SetCode CL_REQ M_PUT; AddOp OP_URI_PATH client_text; AddOp OP_URI_PATH transfer_text].

(** transfer_client_execute, transfer_client.c 180-244, for an exchange function
    [exch].  [file] is the result of load_file (lines 130-178).  The result is the value
    returned and the code written to the log, lines 240-242, if any.  An error of
    coap_client_exchange_blockwise makes line 237 return [ret], which is 0 there.
    Simplification: the memory for the options is available. *)
Definition transfer_client_execute {St} (exch : St -> msg -> St * res msg) (fuel : nat) (st : St) (file : res (list N))
  : St * res unit * option (N * N) :=
  match file with
  | Ok body =>
    let '(st, _, r) := exchange_blockwise exch fuel st transfer_request None TRANSFER_BLOCK1_SIZE TRANSFER_BLOCK2_SIZE body in
    match r with
    | Ok (_, resp) => (st, Ok tt, Some (m_class resp, m_detail resp))
    | Err _ => (st, Ok tt, None)
    | UB u => (st, UB u, None)
    | OutOfFuel => (st, OutOfFuel, None)
    end
  | Err e => (st, Err e, None)
  | UB u => (st, UB u, None)
  | OutOfFuel => (st, OutOfFuel, None)
  end.
