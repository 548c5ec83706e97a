(** Specification of a connection of the proxy.  Messages and events are those of the models. *)
From Verif Require Import Base BufModel UriModel HttpModel MsgModel MsgSpec ClientModel CrossModel ConModel ClientSpec UriSpec HttpSpec CrossSpec.

(** ** Reading requests *)

(** The bytes a buffer holds. *)
Definition holding (b : dbuf) (q : list N) : Prop :=
  d_count b = lenN q /\ firstn (length q) (d_data b) = map Some q.
(** A buffer of a connection, with room for more. *)
Definition buffer (b : dbuf) (q : list N) : Prop :=
  holding b q /\ lenN q < d_size b /\ d_max b = 32768 /\ lenN (d_data b) = d_size b + 1 /\
  (d_size b = 4096 \/ d_size b = 8192 \/ d_size b = 16384 \/ d_size b = 32768).
(** A read of at least one byte, with memory available. *)
Definition reads (e : hev) : Prop := exists n, 0 < n /\ e = HRead n true.

(** ** Servers *)

(** The server a client is connected to after a history. *)
Definition link_after (c : option (list N * list N)) (o : cobs) : option (list N * list N) :=
  match o with CoOpen h p => Some (h, p) | CoClose => None | CoSend _ _ => c end.
Definition connected (l : list cobs) : option (list N * list N) := fold_left link_after l None.

(** The URI of a request names this server: the same host in any case, the same port. *)
Definition names_server (sg : signedness) (h : hmsg) (host port : list N) : Prop :=
  let '(_, str, _) := hm_start h in
  exists mem u h', uri_parse sg mem str = Ok u /\ u_host u = Some h' /\ same_name h' host /\ u_port u = Some port.

Definition request_of (d : hmsg * hmsg * list N) : hmsg := fst (fst d).
Definition response_of (d : hmsg * hmsg * list N) : hmsg := snd (fst d).
Definition bytes_of (d : hmsg * hmsg * list N) : list N := snd d.

(** The requests sent, and the responses. *)
Fixpoint sends (l : list cobs) : list (msg * res msg) :=
  match l with
  | [] => []
  | CoSend m r :: l => (m, r) :: sends l
  | _ :: l => sends l
  end.

(** The buffer for bodies before a transaction: 8192 zeros. *)
Definition no_body : list N := repeat 0 (N.to_nat 8192).

(** ** Memory safety *)

(** Input on which http_msg_parse is safe (C49, C66): without the word "chunked", or without a line that reads as a
    negative or long chunk size. *)
Definition tame (s : list N) : Prop := never_chunked s \/ calm_body s.
(** A response as coap_msg_parse gives it; its block options are not empty (C10). *)
Definition sound_response (m : msg) : Prop :=
  resp_ok m /\ lenN (m_ops m) < two32 /\ forall o, In o (m_ops m) -> o_num o = 23 \/ o_num o = 27 -> o_val o <> [].
(** What an exchange with a server gives: such a response, or an error. *)
Definition sound_result (r : res msg) : Prop :=
  match r with Ok m => sound_response m | Err _ => True | UB _ | OutOfFuel => False end.

(** ** Answers *)

(** A URI without a host or without a port. *)
Definition nameless (u : uri) : Prop := u_host u = None \/ u_port u = None.
Definition nameless_request (sg : signedness) (h : hmsg) : Prop :=
  let '(_, str, _) := hm_start h in exists mem u, uri_parse sg mem str = Ok u /\ nameless u.
(** A HTTP response that reports an error, without a body. *)
Definition error_answer (h : hmsg) : Prop := exists code, status_of h = Some code /\ http_error code /\ body_of h = [].

(** A response that is complete: not a response with one of the codes 2.xx in [details] that carries a block of a longer
    representation. *)
Definition whole (details : list N) (r : msg) : Prop :=
  ~ (m_class r = 2 /\ In (m_detail r) details) \/ with_num 23 (m_ops r) = [] \/ m_payload r = [].

(** Where the body of the HTTP response to [h] comes from: the payload of the last CoAP response, or the payloads of a
    block-wise transfer, in order; [new] are the requests sent and the responses.  If only the last payload is
    used for a GET, or for a request with a body of more than 1024 bytes, this response is complete. *)
Definition body_from (h : hmsg) (body : list N) (new : list (msg * res msg)) : Prop :=
  (exists h0 m r, new = h0 ++ [(m, Ok r)] /\ body = m_payload r /\
    (fst (fst (hm_start h)) = s_GET -> whole [5; 31] r) /\
    (fst (fst (hm_start h)) <> s_GET -> 1024 < lenN (body_of h) -> whole [1; 4; 31] r)) \/
  (exists h0 m r size rs0 rs, new = h0 ++ [(m, Ok r)] /\ responses new = rs0 ++ rs /\ rs <> [] /\ download_from 0 size rs /\ body = concat (map m_payload rs)).

(** The body of a request is sent in blocks, in order and completely, before anything else is sent; or the last response
    refuses it: it is not 2.01, 2.04 or 2.31. *)
Definition uploads (req : msg) (body : list N) (new : list (msg * res msg)) : Prop :=
  (exists up down, new = up ++ down /\ Forall (same_request req) (map fst up) /\ upload_from 0 (map fst up) /\ concat (map m_payload (map fst up)) = body) \/
  (exists h m r, new = h ++ [(m, Ok r)] /\ ~ (m_class r = 2 /\ In (m_detail r) [1; 4; 31])).
