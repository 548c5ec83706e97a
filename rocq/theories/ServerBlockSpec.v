(** Specification of the server's blockwise transfers: predicates on the history of
    observations. *)
From Verif Require Import Base MsgModel MsgSpec ClientModel ClientSpec ServerModel ServerSpec.

(** ** Requests *)

(** [ms] are the requests of [c] received in [h] that are new, that is, do not repeat
    the message ID of the one before, and have acceptable options.  [i] is the message
    ID of the last request before [h], [j] that of the last request at its end. *)
Inductive requests (C : scfg) (c : N) : N -> list sobs -> list msg -> N -> Prop :=
| rs_nil i : requests C c i [] [] i
| rs_new i d m h ms j : reads C d m -> m_type m <= 1 -> m_id m <> i -> acceptable (sc_proxy C) m ->
    requests C c (m_id m) h ms j -> requests C c i (SRecv c d :: h) (m :: ms) j
| rs_refused i d m h ms j : reads C d m -> m_type m <= 1 -> m_id m <> i -> ~ acceptable (sc_proxy C) m ->
    requests C c (m_id m) h ms j -> requests C c i (SRecv c d :: h) ms j
| rs_repeated i d m h ms j : reads C d m -> m_type m <= 1 -> m_id m = i ->
    requests C c i h ms j -> requests C c i (SRecv c d :: h) ms j
| rs_reply i d m h ms j : reads C d m -> 1 < m_type m ->
    requests C c i h ms j -> requests C c i (SRecv c d :: h) ms j
| rs_other i o h ms j : (forall d, o <> SRecv c d) ->
    requests C c i h ms j -> requests C c i (o :: h) ms j.

(** Observations that begin or end a transfer of [c]. *)
Definition boundary (c : N) (o : sobs) : Prop :=
  match o with
  | SHandle c' _ | SCall c' _ | SBody c' _ | SCreate c' | SDestroy c' => c' = c
  | _ => False
  end.

(** ** Transactions *)

(** A body is being received, a body is being served. *)
Definition uploading (ty : ttype) : Prop := ty = TPut1 \/ ty = TPost1.
Definition serving (ty : ttype) : Prop := ty = TGet \/ ty = TPut2 \/ ty = TPost2.

(** The Block1 or the Block2 option of the request is too short to be read. *)
Definition block_ub (m : msg) : Prop :=
  (exists u, parse_block_op (m_ops m) OP_BLOCK1 = UB u) \/ (exists u, parse_block_op (m_ops m) OP_BLOCK2 = UB u).

(** ** Uploads *)

(** At the end of [h] the requests of [c] since the last one that was passed to the
    handler are [ms]; that one is the first.  No body was delivered meanwhile. *)
Definition since_handled (C : scfg) (c : N) (h : list sobs) (ms : list msg) : Prop :=
  exists h0 m mid ms' j, h = h0 ++ SHandle c m :: mid /\ ms = m :: ms' /\
    requests C c (m_id m) mid ms' j /\ (forall o, In o mid -> ~ boundary c o).

(** The handler began an upload in blocks of [size] bytes with the first of the
    requests. *)
Definition offered {A} (P : app A) (c : N) (ms : list msg) (size : N) : Prop :=
  exists m ms' a a' l size2 body len rx, ms = m :: ms' /\ ap_handle P a c m = (a', HBlock l size size2 body len rx).

(** What the Block1 option of a request says: a request without one is the only
    block. *)
Definition block1 (m : msg) (num : N) (more : bool) (size : option N) : Prop :=
  match parse_block_op (m_ops m) OP_BLOCK1 with
  | Ok (Some b) => num = b_num b /\ more = b_more b /\ size = Some (b_size b)
  | Ok None => num = 0 /\ more = false /\ size = None
  | _ => False
  end.

(** The smaller of two block sizes. *)
Definition smaller (size : N) (o : option N) : N := match o with Some s => N.min s size | None => size end.

(** The requests carry consecutive blocks of a body from position [pos] on: each names
    the position where the one before ended, in units of the smallest block size named
    so far, and has a payload; [size] is the block size before the first of them.
    [more] is the more flag of the last one, those before have it set. *)
Inductive consecutive_blocks : N -> N -> list msg -> bool -> Prop :=
| cb_last size pos m num more o :
    block1 m num more o -> num * smaller size o = pos -> m_payload m <> [] ->
    consecutive_blocks size pos [m] more
| cb_more size pos m num o ms more :
    block1 m num true o -> num * smaller size o = pos -> m_payload m <> [] ->
    consecutive_blocks (smaller size o) (pos + lenN (m_payload m)) ms more ->
    consecutive_blocks size pos (m :: ms) more.

(** The Block1 and Block2 options of a request are valid. *)
Definition readable (m : msg) : Prop :=
  (exists o, parse_block_op (m_ops m) OP_BLOCK1 = Ok o) /\ (exists o, parse_block_op (m_ops m) OP_BLOCK2 = Ok o).

(** The path as the server compares it: at most 256 bytes, up to a NUL. *)
Fixpoint until_nul (l : list N) : list N :=
  match l with [] => [] | x :: l => if x =? 0 then [] else x :: until_nul l end.
Definition seen_path (m : msg) : list N := until_nul (firstn 256 (req_path m)).

(** All the requests have the method and the path of the first. *)
Definition same_target (ms : list msg) : Prop :=
  exists method path, forall m, In m ms -> m_detail m = method /\ seen_path m = path.

(** [m] carries the block that follows those of [ms], with the more flag [more]. *)
Definition fits (C : scfg) (size : N) (ms : list msg) (m : msg) (more : bool) : Prop :=
  consecutive_blocks size 0 (ms ++ [m]) more /\ same_target (ms ++ [m]) /\
  lenN (concat (map m_payload (ms ++ [m]))) <= sc_large C.

(** A response with the code [code] (class and detail in one byte) was sent, or tried to. *)
Definition replies (c : N) (s : list sobs) (code : N) : Prop := exists b ok, In (SSend c b ok) s /\ nth 1 b 0 = code.

(** The transaction of [c] was removed or is of type [ty]. *)
Definition keeps {A} (v : @srv A) (c : N) (s : list sobs) (ty : ttype) : Prop :=
  In (SDestroy c) s \/ exists t, In t (v_tr v) /\ t_active t = true /\ t_client t = c /\ t_type t = ty.

(** ** Downloads *)

(** [b] is the encoding (RFC 7252, MsgSpec.v) of the response [p], which has a Block2
    option for the block of [size] bytes at [pos]. *)
Definition block2 (b : list N) (p : msg) (pos size : N) (more : bool) : Prop :=
  encodes p b /\ m_class p = 2 /\
  exists v num, In (mkop OP_BLOCK2 v) (m_ops p) /\ block_value (be_val v) (mkblk num more size) /\ num * size = pos.

(** [bs] are responses with the consecutive blocks of [body] from [pos] on; one without
    the more flag comes last and has all that remains. *)
Inductive served (body : list N) : N -> list (list N) -> Prop :=
| sv_none pos : served body pos []
| sv_more pos b p size bs :
    block2 b p pos size true -> pos + size <= lenN body ->
    m_payload p = firstn (N.to_nat size) (skipn (N.to_nat pos) body) ->
    served body (pos + size) bs -> served body pos (b :: bs)
| sv_last pos b p size :
    block2 b p pos size false -> pos <= lenN body -> lenN body < pos + size ->
    m_payload p = skipn (N.to_nat pos) body -> served body pos [b].

(** [bs] are responses with the first [pos] bytes of [body], all with the more flag; [o]
    is the size of the last block. *)
Inductive partway (body : list N) : list (list N) -> N -> option N -> Prop :=
| pw_none : partway body [] 0 None
| pw_more bs pos o b p size :
    partway body bs pos o -> block2 b p pos size true -> pos + size <= lenN body ->
    m_payload p = firstn (N.to_nat size) (skipn (N.to_nat pos) body) ->
    partway body (bs ++ [b]) (pos + size) (Some size).

(** What the Block2 option of a request says: a request without one asks for the first
    block. *)
Definition wants (m : msg) (num : N) (size : option N) : Prop :=
  match parse_block_op (m_ops m) OP_BLOCK2 with
  | Ok (Some b) => num = b_num b /\ size = Some (b_size b)
  | Ok None => num = 0 /\ size = None
  | _ => False
  end.

(** The last datagram received from [c] in [h] is the request [m]. *)
Definition last_request (C : scfg) (c : N) (h : list sobs) (m : msg) : Prop :=
  exists h0 d mid, h = h0 ++ SRecv c d :: mid /\ reads C d m /\ m_type m <= 1 /\ (forall d', ~ In (SRecv c d') mid).

(** The responses of class 2 sent, or tried to, in answer to new requests of [c], one
    at most for each.  The state is the message ID of the last request, whether its
    response is still to come, and the responses so far.  What is sent when a request
    is repeated or a timer expires does not count. *)
Definition answers_obs (c : N) (st : N * bool * list (list N)) (o : sobs) : N * bool * list (list N) :=
  let '(i, due, bs) := st in
  match o with
  | SRecv c' d =>
    if c' =? c then
      if dgram_type d <=? 1 then (dgram_id d, negb (dgram_id d =? i), bs) else (i, false, bs)
    else st
  | STimer c' => if c' =? c then (i, false, bs) else st
  | SSend c' b _ =>
    if (c' =? c) && due && (nth 1 b 0 / 32 =? 2) then (i, false, bs ++ [b]) else st
  | _ => st
  end.
Definition answers (c i : N) (h : list sobs) : list (list N) :=
  snd (fold_left (answers_obs c) h (i, true, [])).

(** A block of a body is sent: the one at [pos], of [size] bytes or less. *)
Definition sends_block (c : N) (s : list sobs) (body : list N) (pos size : N) : Prop :=
  exists b ok p more, In (SSend c b ok) s /\ block2 b p pos size more /\
    (more = true <-> pos + size <= lenN body) /\ m_payload p = firstn (N.to_nat size) (skipn (N.to_nat pos) body).

(** ** The application *)

(** The receive callback leaves the length of the buffer as it is. *)
Definition keeps_buffer {A} (P : app A) : Prop :=
  forall rx a buf bend req a' l b' e', ap_rx P rx a buf bend req = (a', RxDone l b' e') -> lenN b' = lenN buf /\ e' <= lenN buf.

(** Options the protocol has room for: a number of at most 65535, a length of at most
    65804 and a value of bytes. *)
Definition proper_op (o : op) : Prop := o_num o <= 65535 /\ o_len o <= 65804 /\ bytes_ok (o_val o).
Definition proper_setter (s : setter) : Prop := match s with AddOp n v => proper_op (mkop n v) | _ => True end.
(** What the application adds to the responses of a transfer are such options, and the
    bodies it hands over, or leaves in the buffer, are bytes. *)
Definition proper {A} (P : app A) : Prop :=
  (forall a c m a' l s1 s2 body bl rx, ap_handle P a c m = (a', HBlock l s1 s2 body bl rx) -> Forall proper_setter l /\ bytes_ok body) /\
  (forall rx a buf bend req a' l b' e', ap_rx P rx a buf bend req = (a', RxDone l b' e') ->
     Forall proper_setter l /\ (bytes_ok buf -> bytes_ok b')).

(** An option that coap_msg_format handles without overrunning its buffer (C05). *)
Definition good_op (o : op) : Prop := op_ok o /\ len_ok o /\ no_short o.
(** Options a handler may add without the formatter overrunning its buffer. *)
Definition tame (s : setter) : Prop := match s with AddOp n v => good_op (mkop n v) | _ => True end.

(** What the application must do: the body it hands over is as long as it says, the
    receive callback leaves the length of the buffer as it is, and the options of the
    responses are ones the formatter can handle. *)
Definition well_behaved {A} (P : app A) : Prop :=
  (forall a c m a' l, ap_handle P a c m = (a', HResp l) -> Forall tame l) /\
  (forall a c m a' l s1 s2 body bl rx, ap_handle P a c m = (a', HBlock l s1 s2 body bl rx) -> Forall tame l /\ bl <= lenN body) /\
  (forall rx a buf bend req a' l b' e', ap_rx P rx a buf bend req = (a', RxDone l b' e') ->
     Forall tame l /\ lenN b' = lenN buf /\ e' <= lenN buf).

(** ** Undefined behaviour *)

(** The server gets no further. *)
Definition stops (x : res unit) : Prop := (exists u, x = UB u) \/ x = OutOfFuel.

(** The datagram fills the receive buffer and parsing it reads past the end (C04). *)
Definition unparsed (C : scfg) (d : list N) : Prop :=
  lenN d = 1152 /\ (forall m, msg_parse (sc_sg C) d 1152 <> Ok m) /\ (forall e, msg_parse (sc_sg C) d 1152 <> Err e).
