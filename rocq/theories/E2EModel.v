(** The client library and the server library joined by a network that neither
    loses nor alters, delays or repeats datagrams: an exchange function for the
    blockwise transfers of ClientModel.v.  Nothing of /repo is modelled here that
    is not in ClientModel.v or ServerModel.v; this file only passes on what
    client_send (lib/src/coap_client.c 809-848) and trans_send
    (lib/src/coap_server.c 929-973) hand to the socket.  No proofs in this file. *)
From Verif Require Import Base MsgModel ClientModel ServerModel.

(** The datagrams that the client has sent successfully (send, coap_client.c
    836-842). *)
Fixpoint sent_by_client (l : list obs) : list (list N) :=
  match l with
  | [] => []
  | OSend _ b true :: l => b :: sent_by_client l
  | _ :: l => sent_by_client l
  end.

(** The datagrams that the server has sent successfully to client [c] (sendto,
    coap_server.c 955-967). *)
Fixpoint sent_to (c : N) (l : list sobs) : list (list N) :=
  match l with
  | [] => []
  | SSend c' b true :: l => if c' =? c then b :: sent_to c l else sent_to c l
  | _ :: l => sent_to c l
  end.

Section Net.
Context {A : Type} (P : app A) (Ec : env) (Cc : cfg) (Es : senv) (Cs : scfg) (c : N).

(** coap_client_exchange (coap_client.c 1572-1629) while coap_server_run
    (coap_server.c 2548-2573) runs at the other end; the server knows the client as
    [c].  The client runs until it waits in select; what it has sent reaches the
    server, which answers; the answers reach the client while it is still waiting,
    at the same time of its clock.  Simplification: an exchange that needs more than
    one such round trip has no result ([OutOfFuel]); what the client sends after the
    round trip (acknowledgements of separate responses) does not reach the server. *)
Definition net_exch (st : cst * @srv A) (m : msg) : (cst * @srv A) * res msg :=
  let (s, v) := st in
  match exchange Ec Cc s m [] with
  | Done s _ r => ((s, v), r)
  | Waiting s1 =>
    let out := sent_by_client (skipn (length (c_trace s)) (c_trace s1)) in
    let (v1, _) := server_run P Es Cs v (map (fun b => EvRx c b None) out) in
    let back := sent_to c (skipn (length (v_trace v)) (v_trace v1)) in
    match exchange Ec Cc s m (map (fun b => (c_now s, SelRx (RxData b))) back) with
    | Done s _ r => ((s, v1), r)
    | Waiting s => ((s, v1), OutOfFuel)
    end
  end.
End Net.
