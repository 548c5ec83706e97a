(** Model of the sample time server, sample/time_server/time_server.c, as a user of the
    server library.  Not modelled: the creation and destruction of the server, the log,
    and the parsing of the command line.  No proofs in this file. *)
From Verif Require Import Base MsgModel ClientModel ServerModel.

(** The constants of time_server.c 39-40. *)
Definition TIME_URI_PATH_BUF_LEN : N := 32.
Definition TIME_PAYLOAD_BUF_LEN : N := 32.

(** "time", time_server.c 75, and "/time", line 111. *)
Definition time_text : list N := [116; 105; 109; 101].
Definition time_path : list N := 47 :: time_text.

(** strchr(buf, '\n'), time_server.c 69: the position of the first newline before the
    NUL. *)
Fixpoint find_newline (buf : list N) : option nat :=
  match buf with
  | [] => None
  | x :: buf => if x =? 10 then Some 0%nat else if x =? 0 then None else option_map S (find_newline buf)
  end.

(** The state of the application: the number of requests handled so far, and whether
    ctime_r has written past the end of payload_buf. *)
Record tserver := mktserver { ts_n : nat; ts_mem : res unit }.

Section Time.
(** The string ctime_r, time_server.c 68, writes in the [n]-th request, without its NUL;
    [None] if it fails. *)
Context (clock : nat -> option (list N)).

(** payload_buf after lines 52 and 67-71 of time_server.c.  Simplification: a ctime_r
    that fails leaves the buffer as it is. *)
Definition time_payload_buf (n : nat) : res (list N) :=
  let len := N.to_nat TIME_PAYLOAD_BUF_LEN in
  let* buf := match clock n with
              | None => Ok (repeat 0 len)
              | Some s => if TIME_PAYLOAD_BUF_LEN <? lenN s + 1 then UB OobWrite else Ok (s ++ repeat 0 (len - length s))
              end in
  match find_newline buf with
  | None => Ok buf
  | Some p => Ok (firstn p buf ++ 0 :: skipn (S p) buf)
  end.

(** time_server_handle_time, time_server.c 48-92.  Simplification: the setters applied
    to the response are not looked at for failure (lines 75-86; the response is new). *)
Definition time_handle_time (a : tserver) (req : msg) : tserver * hres :=
  let same := mktserver (S (ts_n a)) (ts_mem a) in
  if negb (m_detail req =? M_GET) then (same, HResp [SetCode CL_SERVER_ERR NOT_IMPL]) else
  match time_payload_buf (ts_n a) with
  | Ok buf => (same, HResp [SetCode CL_SUCCESS CONTENT; AddOp OP_URI_PATH time_text; SetPayload (cstr buf)])
  | Err e => (same, HErr e)
  | UB u => (mktserver (S (ts_n a)) (UB u), HErr EINVAL)
  | OutOfFuel => (mktserver (S (ts_n a)) OutOfFuel, HErr EINVAL)
  end.

(** time_server_handle, time_server.c 94-117.  The last case of the match is not reached
    (uri_path_to_str has a result for every buffer of 32 bytes). *)
Definition time_handle (a : tserver) (c : N) (req : msg) : tserver * hres :=
  let same := mktserver (S (ts_n a)) (ts_mem a) in
  if negb (m_ver req =? COAP_VER) then (same, HErr EBADMSG) else
  match uri_path_to_str (m_ops req) TIME_URI_PATH_BUF_LEN with
  | Ok (Some uri_path, n) =>
    if TIME_URI_PATH_BUF_LEN <? n + 1 then (same, HErr ENOSPC) else
    if negb (cstr_eqb uri_path time_path) then (same, HResp [SetCode CL_CLIENT_ERR 4]) else
    time_handle_time a req
  | _ => (same, HErr EBADMSG)
  end.

(** The application given to coap_server_create, time_server.c 166 and 175.  It has no
    receive callback. *)
Definition time_server : app tserver := mkapp time_handle (fun _ a _ _ _ => (a, RxFail EINVAL)).

(** The state after time_server_create, time_server.c 154-191. *)
Definition time_start : tserver := mktserver 0 (Ok tt).
End Time.
