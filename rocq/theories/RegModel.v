(** Model of the sample registration server, sample/reg_server/reg_server.c, as a user
    of the server library and of the registrar (TableModel.v).  Not modelled: the
    creation and destruction of the server, the log (reg_server_log_registrar, lines
    48-62, follows the same list as registrar_find), and the parsing of the command
    line.  No proofs in this file. *)
From Verif Require Import Base MsgModel TableModel ClientModel ServerModel SampleModel.

(** The constants of reg_server.c 39-40. *)
Definition REG_URI_PATH_BUF_LEN : N := 32.
Definition REG_PAYLOAD_LEN : N := 32.

(** "id", reg_server.c 128, and "/client/id", line 167. *)
Definition id_text : list N := [105; 100].
Definition id_path : list N := 47 :: client_text ++ 47 :: id_text.

(** The state of the application: the registrar (reg_server.h), as the last call of
    registrar_add left it, and the number of requests handled so far. *)
Record rserver := mkrserver { rs_n : nat; rs_reg : res registrar }.

Section Reg.
(** COAP_IPV_INET_ADDRSTRLEN; what inet_ntop, reg_server.c 81, gives for each client,
    [None] if it fails; and whether malloc in registrar_entry_new succeeds, for the
    [n]-th request. *)
Context (alen : N) (addr : N -> option (list N)) (mem : nat -> bool).

(** reg_server_handle_client_id, reg_server.c 64-148.  Simplification: the setters
    applied to the response are not looked at for failure (lines 124-143; the response
    is new, and its two options and two bytes of payload fit).  If registrar_add is
    undefined, that is what the state becomes; the response is then of no meaning. *)
Definition reg_handle_client_id (a : rserver) (c : N) (req : msg) : rserver * hres :=
  let same := mkrserver (S (rs_n a)) (rs_reg a) in
  if negb (m_detail req =? M_POST) then (same, HResp [SetCode CL_SERVER_ERR NOT_IMPL]) else
  match addr c with
  | None => (same, HResp [SetCode CL_SERVER_ERR 0])
  | Some ad =>
    let n := lenN (m_payload req) in
    if n =? 0 then (same, HResp [SetCode CL_CLIENT_ERR BAD_REQ]) else
    if REG_PAYLOAD_LEN <? n + 1 then (same, HResp [SetCode CL_SERVER_ERR 0]) else
    let payload := m_payload req ++ repeat 0 (N.to_nat (REG_PAYLOAD_LEN - n)) in
    match (let* g := rs_reg a in registrar_add alen g (cstr payload) ad (mem (rs_n a))) with
    | Ok (g, k) =>
      (mkrserver (S (rs_n a)) (Ok g),
       HResp [SetCode CL_SUCCESS (if k =? 0 then CREATED else CHANGED); AddOp OP_URI_PATH client_text;
              AddOp OP_URI_PATH id_text; SetPayload [79; 75]])
    | Err e => (same, HErr e)
    | UB u => (mkrserver (S (rs_n a)) (UB u), HErr EINVAL)
    | OutOfFuel => (mkrserver (S (rs_n a)) OutOfFuel, HErr EINVAL)
    end
  end.

(** reg_server_handle, reg_server.c 150-173.  The last case of the match is not reached
    (uri_path_to_str has a result for every buffer of 32 bytes). *)
Definition reg_handle (a : rserver) (c : N) (req : msg) : rserver * hres :=
  let same := mkrserver (S (rs_n a)) (rs_reg a) in
  if negb (m_ver req =? COAP_VER) then (same, HErr EBADMSG) else
  match uri_path_to_str (m_ops req) REG_URI_PATH_BUF_LEN with
  | Ok (Some uri_path, n) =>
    if REG_URI_PATH_BUF_LEN <? n + 1 then (same, HErr ENOSPC) else
    if negb (cstr_eqb uri_path id_path) then (same, HResp [SetCode CL_CLIENT_ERR 4]) else
    reg_handle_client_id a c req
  | _ => (same, HErr EBADMSG)
  end.

(** The application given to coap_server_create, reg_server.c 222 and 231.  It has no
    receive callback. *)
Definition reg_server : app rserver := mkapp reg_handle (fun _ a _ _ _ => (a, RxFail EINVAL)).

(** The state after reg_server_create, reg_server.c 210-250. *)
Definition reg_start : rserver := mkrserver 0 (Ok registrar_create).
End Reg.
