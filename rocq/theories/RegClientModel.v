(** Model of the sample registration client, sample/reg_client/reg_client.c, as a user of
    the client library.  Not modelled: the creation and destruction of the client and the
    log.  No proofs in this file. *)
From Verif Require Import Base MsgModel ClientModel ServerModel SampleModel RegModel.

(** The constant of reg_client.c 38. *)
Definition REG_CLIENT_URI_PATH_BUF_LEN : N := 32.
(** "OK", reg_client.c 228. *)
Definition ok_text : list N := [79; 75].

(** The request of reg_client_register, reg_client.c 133-158, for the string [s].
    Simplification: the memory for the options and the payload is available. *)
Definition reg_client_request (s : list N) : msg :=
  msg_build [SetType T_CON; SetCode CL_REQ M_POST; AddOp OP_URI_PATH client_text; AddOp OP_URI_PATH id_text; SetPayload s].

(** reg_client_register, reg_client.c 123-236, for an exchange function [exch]: the
    buffer object afterwards and the value returned.  [len] is the length given by the
    caller.  Simplification: the length of a payload fits an int (line 235). *)
Definition reg_client_register {St} (exch : St -> msg -> St * res msg) (st : St) (buf : list N) (len : N) : St * list N * res N :=
  if negb (existsb (N.eqb 0) buf) then (st, buf, UB OobRead) else
  let req := reg_client_request (cstr buf) in
  let (st, r) := exch st req in
  match r with
  | Ok resp =>
    if negb (m_ver req =? m_ver resp) then (st, buf, Err EBADMSG) else
    if negb (m_class resp =? CL_SUCCESS) || (negb (m_detail resp =? CREATED) && negb (m_detail resp =? CHANGED)) then (st, buf, Err EBADMSG) else
    match uri_path_to_str (m_ops resp) REG_CLIENT_URI_PATH_BUF_LEN with
    | Ok (Some uri_path, n) =>
      if REG_CLIENT_URI_PATH_BUF_LEN <? n + 1 then (st, buf, Err ENOSPC) else
      if negb (cstr_eqb uri_path id_path) then (st, buf, Err EBADMSG) else
      let n := lenN (m_payload resp) in
      if n =? 0 then (st, buf, Err EBADMSG) else
      if len <? n + 1 then (st, buf, Err ENOSPC) else
      if lenN buf <? len then (st, buf, UB OobWrite) else
      let buf := m_payload resp ++ repeat 0 (N.to_nat (len - n)) ++ skipn (N.to_nat len) buf in
      if negb (cstr_eqb buf ok_text) then (st, buf, Err EBADMSG) else (st, buf, Ok n)
    | _ => (st, buf, Err EBADMSG)
    end
  | Err e => (st, buf, Err e)
  | UB u => (st, buf, UB u)
  | OutOfFuel => (st, buf, OutOfFuel)
  end.
