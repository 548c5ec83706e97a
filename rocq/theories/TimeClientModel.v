(** Model of the sample time client, sample/time_client/time_client.c, as a user of the
    client library.  Not modelled: the creation and destruction of the client and the
    log.  No proofs in this file. *)
From Verif Require Import Base MsgModel ClientModel ServerModel TimeModel.

(** The constant of time_client.c 38. *)
Definition TIME_CLIENT_URI_PATH_BUF_LEN : N := 32.

(** The request of time_client_get_time, time_client.c 131-142.  Simplification: the
    memory for the option is available. *)
Definition time_client_request : msg :=
  msg_build [SetType T_CON; SetCode CL_REQ M_GET; AddOp OP_URI_PATH time_text].

(** time_client_get_time, time_client.c 122-206, for an exchange function [exch]: the
    buffer object afterwards and the value returned.  [len] is the length given by the
    caller.  A message without payload has a null pointer for it (coap_msg.c 817-844), and
    memcpy, line 200, is undefined for a null pointer even if nothing is to be copied
    (C99 to C17, 7.1.4 and "String function conventions").  Simplification: the length of
    a payload fits an int (line 205). *)
Definition time_client_get_time {St} (exch : St -> msg -> St * res msg) (st : St) (buf : list N) (len : N) : St * list N * res N :=
  let req := time_client_request in
  let (st, r) := exch st req in
  match r with
  | Ok resp =>
    if negb (m_ver req =? m_ver resp) then (st, buf, Err EBADMSG) else
    if negb (m_class resp =? CL_SUCCESS) || negb (m_detail resp =? CONTENT) then (st, buf, Err EBADMSG) else
    match uri_path_to_str (m_ops resp) TIME_CLIENT_URI_PATH_BUF_LEN with
    | Ok (Some uri_path, n) =>
      if TIME_CLIENT_URI_PATH_BUF_LEN <? n + 1 then (st, buf, Err ENOSPC) else
      if negb (cstr_eqb uri_path time_path) then (st, buf, Err EBADMSG) else
      let n := lenN (m_payload resp) in
      if len <? n + 1 then (st, buf, Err ENOSPC) else
      if n =? 0 then (st, buf, UB NullDeref) else
      if lenN buf <? len then (st, buf, UB OobWrite) else
      (st, m_payload resp ++ repeat 0 (N.to_nat (len - n)) ++ skipn (N.to_nat len) buf, Ok n)
    | _ => (st, buf, Err EBADMSG)
    end
  | Err e => (st, buf, Err e)
  | UB u => (st, buf, UB u)
  | OutOfFuel => (st, buf, OutOfFuel)
  end.
