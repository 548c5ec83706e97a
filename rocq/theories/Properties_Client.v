(** Property theorems for the client (C19-C26, C63).  The statements use the
    predicates of ClientSpec.v on the history of what the client sent, armed
    and received. *)
From Verif Require Import Base BaseLemmas MsgModel MsgSpec ClientModel ClientSpec ClientLemmas ClientReplyLemmas ClientPropLemmas ClientBlockLemmas.

(** C19: whatever the network does, whatever the random numbers are and whichever
    system calls fail, the transmissions of a confirmable request are at most 5
    and carry the same bytes; the timer is armed for [T], [2 T], [4 T], ... with
    [T] between 2 s and 3 s, and once for 30 s when the request has been
    acknowledged without a response; if the timer does not fire early, the times
    of the transmissions are at least these waits apart; and the client gives up
    waiting for an acknowledgement only after 5 transmissions. *)
Theorem C19_retransmission :
  forall E C s req evs, c_trace s = [] -> m_type req = T_CON ->
  let tr := history (exchange E C s req evs) in
  exists b T, 2000000000 <= T < 3000000000 /\
    Forall (fun p => snd p = b) (sent T_CON tr) /\
    (length (sent T_CON tr) <= 5)%nat /\
    (exists k, (k <= 5)%nat /\ (armed tr = waits T k \/ armed tr = waits T k ++ [30000000000])) /\
    (timer_law None tr -> spaced T (map fst (sent T_CON tr))) /\
    (ends_with_timer tr -> ~ In 30000000000 (armed tr) -> length (sent T_CON tr) = 5%nat).
Proof. exact retransmission. Qed.
Print Assumptions C19_retransmission.

(** A server that never answers: five transmissions at 0, 2, 6, 14 and 30 s. *)
Example C19_example :
  let tr := history (exchange E_ok C_ok s_ok get_req
     (map (fun t => (t * 1000000000, SelTimer)) [2; 6; 14; 30; 62])) in
  map fst (sent T_CON tr) = map (fun t => t * 1000000000) [0; 2; 6; 14; 30] /\
  armed tr = waits 2000000000 5 /\ timer_law None tr /\ ends_with_timer tr.
Proof.
  intro tr. split; [vm_compute; reflexivity|]. split; [vm_compute; reflexivity|].
  split; [vm_compute; repeat split; discriminate|].
  exists (firstn 14 tr), 62000000000. vm_compute. reflexivity.
Qed.

(** C20: the response returned is what coap_msg_parse made of a datagram received
    during the exchange; it carries the token of the request, which all
    transmissions of the request carry; an acknowledgement carries the message
    ID of the request; every option that has to be understood is one of those
    defined for CoAP. *)
Theorem C20_response_matches :
  forall E C s req evs s' evs' resp,
  c_trace s = [] -> exchange E C s req evs = Done s' evs' (Ok resp) ->
  (exists t d, In (ORecv t d) (c_trace s') /\ received C d resp) /\
  acceptable (cf_proxy C) resp /\
  (exists b, (exists t ok, In (OSend t b ok) (c_trace s')) /\
     Forall (fun p => snd p = b) (sent (m_type req) (c_trace s')) /\
     m_token resp = dgram_token b /\ length (m_token resp) = 4%nat /\
     (m_type resp = T_ACK -> m_type req = T_CON /\ m_id resp = dgram_id b) /\
     (m_type resp <> T_ACK -> (m_type resp = T_CON \/ m_type resp = T_NON) /\ m_id resp <> dgram_id b)).
Proof. exact response_matches. Qed.
Print Assumptions C20_response_matches.

(** A response of somebody else, an acknowledgement, then a separate response. *)
Definition C20_events : list event :=
  [(100, SelRx (RxData junk));
   (200, SelRx (RxData [96; 0; 0; 0]));
   (300, SelRx (RxData [68; 69; 0; 5; 0; 0; 0; 0; 255; 104; 105]))].
Definition C20_resp : msg := mkmsg 1 T_CON 2 5 5 [0; 0; 0; 0] [] [104; 105].
Example C20_example :
  exists s', exchange E_ok C_ok s_ok get_req C20_events = Done s' [] (Ok C20_resp) /\
             sent T_CON (c_trace s') = [(0, [68; 1; 0; 0; 0; 0; 0; 0])].
Proof. eexists. split; vm_compute; reflexivity. Qed.

(** C21, full statement: the class of the message returned is 2, 4 or 5.  False:
    a non-confirmable request from the server with the right token is returned
    as the response. *)
Theorem C21_response_class_refuted :
  exists E C s req evs s' evs' resp,
  c_trace s = [] /\ exchange E C s req evs = Done s' evs' (Ok resp) /\
  m_class resp = 0 /\ m_detail resp = 1.
Proof.
  exists E_ok, C_ok, s_ok, get_req, [(100, SelRx (RxData [84; 1; 0; 5; 0; 0; 0; 0]))].
  do 3 eexists. split; [reflexivity|]. split; [vm_compute; reflexivity|]. split; reflexivity.
Qed.
Print Assumptions C21_response_class_refuted.

(** C21 if no request arrives during the exchange.  Missing: the case in which
    one arrives, where the statement is false. *)
Theorem C21_response_class_partial :
  forall E C s req evs s' evs' resp,
  c_trace s = [] -> exchange E C s req evs = Done s' evs' (Ok resp) ->
  (forall t d m, In (ORecv t d) (c_trace s') -> received C d m -> m_class m = 0 -> m_detail m = 0) ->
  m_class resp = 2 \/ m_class resp = 4 \/ m_class resp = 5.
Proof. exact response_class. Qed.
Print Assumptions C21_response_class_partial.

Example C21_example :
  exists s', exchange E_ok C_ok s_ok get_req C20_events = Done s' [] (Ok C20_resp) /\
  (forall t d m, In (ORecv t d) (c_trace s') -> received C_ok d m -> m_class m = 0 -> m_detail m = 0).
Proof.
  eexists. split; [vm_compute; reflexivity|].
  intros t d m Hin [_ Hp] Hc. cbn [c_trace In] in Hin.
  repeat (destruct Hin as [Hin|Hin]; [try discriminate Hin; injection Hin as <- <-; vm_compute in Hp; injection Hp as <-; try discriminate Hc; reflexivity|]).
  destruct Hin.
Qed.

(** C22: the acknowledgements sent in a successful exchange are exactly one, for
    the message ID of the response, if the response was confirmable, and none
    otherwise. *)
Theorem C22_separate_acknowledged :
  forall E C s req evs s' evs' resp,
  c_trace s = [] -> exchange E C s req evs = Done s' evs' (Ok resp) ->
  map snd (sent T_ACK (c_trace s')) = if m_type resp =? T_CON then [ack_dgram (m_id resp)] else [].
Proof. exact sep_acknowledged. Qed.
Print Assumptions C22_separate_acknowledged.

Example C22_example :
  exists s', exchange E_ok C_ok s_ok get_req C20_events = Done s' [] (Ok C20_resp) /\
             sent T_ACK (c_trace s') = [(300, [96; 0; 0; 5])].
Proof. eexists. split; vm_compute; reflexivity. Qed.

(** C23, full statement: there is a bound on the time an exchange takes, if
    select returns at most [eps] after something becomes ready.  False: a flood
    of unrelated datagrams keeps the client from looking at its timer, for
    ever. *)
Theorem C23_bounded_time_refuted :
  forall eps B, 0 < eps -> exists E C s req evs s',
  c_trace s = [] /\ exchange E C s req evs = Waiting s' /\
  timer_law None (c_trace s') /\ prompt eps None (c_now s) (c_trace s') /\ B < c_now s'.
Proof. exact starvation. Qed.
Print Assumptions C23_bounded_time_refuted.

(** C23 if the timer can be armed and no datagram is there at the moment select
    would report the expired timer: everything happens within 123 s and six times
    the latency, and an exchange that is not finished has seen no later event.
    Missing: starvation of the timer, where the statement is false, and failure
    of timerfd_settime, after which the client waits without timer. *)
Theorem C23_bounded_time_partial :
  forall E C s req evs eps, c_trace s = [] ->
  let o := exchange E C s req evs in
  let bound := c_now s + 123000000000 + 6 * eps in
  prompt eps None (c_now s) (history o) -> unstarved None (history o) ->
  Forall (fun x => obs_time x <= bound) (history o) /\
  (forall s', o = Waiting s' -> Forall (fun e => fst e <= bound) evs).
Proof. exact bounded_time. Qed.
Print Assumptions C23_bounded_time_partial.

Example C23_example :
  let tr := history (exchange E_ok C_ok s_ok get_req
     ((1, SelRx (RxData junk)) :: map (fun t => (t * 1000000000 + 5, SelTimer)) [2; 6; 14; 30; 62])) in
  length tr = 16%nat /\ prompt 10 None 0 tr /\ unstarved None tr.
Proof. vm_compute. repeat split; discriminate. Qed.

(** C24: if the upload phase succeeds (returns a count other than 0), the
    payloads of the requests handed to coap_client_exchange, in order, make up
    the body; the requests carry contiguous Block1 options with the more flag set
    in all but the last, and agree with the caller's request in everything else.
    [h] is the record of these exchanges. *)
Theorem C24_upload :
  forall E C s evs l body size1 size2 fuel st' h n resp,
  events_ok evs -> Forall setter_ok l ->
  let req := msg_build l in
  with_num OP_BLOCK1 (m_ops req) = [] -> lenN body < 9223372036854775808 ->
  blockwise1 (recording (client_exch E C)) fuel ((s, evs), []) req body size1 size2 = ((st', h), Ok (n, resp)) ->
  n <> 0 ->
  n = lenN body /\ concat (map m_payload (map fst h)) = body /\ upload_from 0 (map fst h) /\
  Forall (same_request req) (map fst h).
Proof. exact client_upload. Qed.
Print Assumptions C24_upload.

(** Recording the exchanges does not change the upload. *)
Theorem C24_recording :
  forall St (exch : St -> msg -> St * res msg) fuel st req body size1 size2,
  blockwise1 exch fuel st req body size1 size2 =
  let '((st', _), r) := blockwise1 (recording exch) fuel (st, []) req body size1 size2 in (st', r).
Proof.
  intros St exch fuel st req body size1 size2. rewrite <- (blockwise1_recording exch fuel st []).
  exact (erase_eq _).
Qed.
Print Assumptions C24_recording.

(** 70 bytes with blocks of 64; the server asks for blocks of 16 in its first
    answer but has taken all 64 bytes. *)
Definition C24_body : list N := map N.of_nat (seq 100 70).
Definition put_req : list setter := [SetType 0; SetCode 0 3; AddOp 11 [97]].
Definition C24_events : list event :=
  [(1, SelRx (RxData [100; 95; 0; 0; 0; 0; 0; 0; 209; 14; 8]));
   (2, SelRx (RxData [100; 68; 0; 0; 0; 0; 0; 0; 209; 14; 64]))].
Example C24_example :
  Forall setter_ok put_req /\ with_num OP_BLOCK1 (m_ops (msg_build put_req)) = [] /\
  exists s' h resp,
  blockwise1 (recording (client_exch E_ok C_ok)) 9 ((s_ok, C24_events), []) (msg_build put_req) C24_body 64 64
  = (((s', []), h), Ok (70, resp)) /\ length h = 2%nat /\ length (sent T_CON (c_trace s')) = 2%nat.
Proof.
  split.
  { repeat (apply Forall_cons; [first [exact I | split; [reflexivity|split; [apply bytes_okb_spec; reflexivity|reflexivity]]]|]). constructor. }
  split; [reflexivity|]. eexists _, _, _. split; [|split]; vm_compute; reflexivity.
Qed.

(** C25: if a blockwise exchange succeeds with a count [n] other than 0, the first
    [n] bytes of the buffer are the payloads of the responses [rs] of the download
    phase, the rest of the buffer is unchanged, and [rs] carry contiguous Block2
    options.  [rs] starts with the response the caller already had (GET, if any)
    or with the last response of the upload (PUT and POST). *)
Theorem C25_download :
  forall E C s evs l have buf size1 size2 fuel st' h buf' n resp,
  events_ok evs -> (forall r, have = Some r -> resp_ok r) -> Forall setter_ok l ->
  let req := msg_build l in
  with_num OP_BLOCK1 (m_ops req) = [] -> lenN buf < 9223372036854775808 ->
  exchange_blockwise (recording (client_exch E C)) fuel ((s, evs), []) req have size1 size2 buf
  = ((st', h), buf', Ok (n, resp)) -> n <> 0 ->
  exists up down rs,
    h = up ++ down /\
    ((m_detail req = M_GET /\ up = [] /\ rs = download_responses have down) \/
     ((m_detail req = M_PUT \/ m_detail req = M_POST) /\
      concat (map m_payload (map fst up)) = buf /\ upload_from 0 (map fst up) /\
      exists up0 m r0, up = up0 ++ [(m, Ok r0)] /\ rs = r0 :: responses down)) /\
    n <= lenN buf /\ firstn (N.to_nat n) buf' = concat (map m_payload rs) /\
    skipn (N.to_nat n) buf' = skipn (N.to_nat n) buf /\
    download_from 0 size2 rs /\ (exists rs0, rs = rs0 ++ [resp]).
Proof. exact client_download. Qed.
Print Assumptions C25_download.

(** Recording the exchanges does not change the transfer. *)
Theorem C25_recording :
  forall St (exch : St -> msg -> St * res msg) fuel st req have size1 size2 buf,
  exchange_blockwise exch fuel st req have size1 size2 buf =
  let '((st', _), buf', r) := exchange_blockwise (recording exch) fuel (st, []) req have size1 size2 buf in
  (st', buf', r).
Proof.
  intros St exch fuel st req have size1 size2 buf. rewrite <- (exchange_blockwise_recording exch fuel st []).
  exact (erase3_eq _).
Qed.
Print Assumptions C25_recording.

(** C25, memory: whatever the server answers, the transfer itself writes only
    into the buffer; if there is a write outside, it is in the last
    coap_client_exchange (see C05). *)
Theorem C25_no_write_outside :
  forall E C s evs l have buf size1 size2 fuel st' h buf' r,
  events_ok evs -> (forall r, have = Some r -> resp_ok r) -> Forall setter_ok l ->
  let req := msg_build l in
  with_num OP_BLOCK1 (m_ops req) = [] -> lenN buf < 9223372036854775808 ->
  exchange_blockwise (recording (client_exch E C)) fuel ((s, evs), []) req have size1 size2 buf = ((st', h), buf', r) ->
  lenN buf' = lenN buf /\ (r = UB OobWrite -> ended h (A:=msg) (UB OobWrite)).
Proof. exact client_no_write_outside. Qed.
Print Assumptions C25_no_write_outside.

Definition get_setters : list setter := [SetType 0; SetCode 0 1; AddOp 11 [97]].
Definition C25_events : list event :=
  [(1, SelRx (RxData ([100; 69; 0; 0; 0; 0; 0; 0; 209; 10; 8; 255] ++ repeat 7 16)));
   (2, SelRx (RxData [100; 69; 0; 0; 0; 0; 0; 0; 209; 10; 16; 255; 8; 9]))].
Example C25_example :
  Forall setter_ok get_setters /\ exists st resp,
  exchange_blockwise (recording (client_exch E_ok C_ok)) 9 ((s_ok, C25_events), []) (msg_build get_setters) None 64 64 (repeat 0 20)
  = (st, repeat 7 16 ++ [8; 9; 0; 0], Ok (18, resp)).
Proof.
  split.
  { repeat (apply Forall_cons; [first [exact I | split; [reflexivity|split; [apply bytes_okb_spec; reflexivity|reflexivity]]]|]). constructor. }
  eexists _, _. vm_compute. reflexivity.
Qed.

(** C26: a blockwise exchange performs at most [2 (len / 16 + 1)] exchanges
    whatever the server answers; with that much fuel the loops of the model come
    to an end, unless an exchange is still waiting for its next event. *)
Theorem C26_blockwise_terminates :
  forall E C s evs l have buf size1 size2 fuel st' h buf' r,
  events_ok evs -> (forall r, have = Some r -> resp_ok r) -> Forall setter_ok l ->
  let req := msg_build l in
  with_num OP_BLOCK1 (m_ops req) = [] -> lenN buf < 9223372036854775808 ->
  lenN buf / 16 < N.of_nat fuel ->
  exchange_blockwise (recording (client_exch E C)) fuel ((s, evs), []) req have size1 size2 buf = ((st', h), buf', r) ->
  lenN h <= 2 * (lenN buf / 16 + 1) /\ (r = OutOfFuel -> ended h (A:=msg) OutOfFuel).
Proof. exact client_transfer_ends. Qed.
Print Assumptions C26_blockwise_terminates.

(** A server that sends block after block: the transfer stops with -ENOSPC. *)
Example C26_example :
  events_ok (firstn 1 C25_events ++ [(2, SelRx (RxData ([100; 69; 0; 0; 0; 0; 0; 0; 209; 10; 24; 255] ++ repeat 7 16)))]) /\
  exists st buf',
  exchange_blockwise (recording (client_exch E_ok C_ok)) 3
    ((s_ok, firstn 1 C25_events ++ [(2, SelRx (RxData ([100; 69; 0; 0; 0; 0; 0; 0; 209; 10; 24; 255] ++ repeat 7 16)))]), [])
    (msg_build get_setters) None 64 64 (repeat 0 20) = (st, buf', Err ENOSPC).
Proof.
  split.
  - intros t b Hin. cbn [C25_events firstn app In] in Hin.
    destruct Hin as [Hin|[Hin|[]]]; injection Hin as <- <-; apply bytes_okb_spec; vm_compute; reflexivity.
  - eexists _, _. vm_compute. reflexivity.
Qed.

(** C63: whatever arrives and whichever system calls fail, each acknowledgement
    and each reset the client sends is empty, answers the confirmable message
    received directly before, and carries its message ID.  In particular
    non-confirmable messages, acknowledgements and resets are never answered, and
    no message is answered twice. *)
Theorem C63_replies :
  forall E C s req evs, c_trace s = [] -> m_type req < 4 -> events_ok evs ->
  replies_ok (history (exchange E C s req evs)).
Proof. exact replies. Qed.
Print Assumptions C63_replies.

(** A non-confirmable stranger, a confirmable one, a confirmable message with a
    malformed option, then the response. *)
Definition C63_events : list event :=
  [(1, SelRx (RxData junk)); (2, SelRx (RxData [65; 69; 1; 2; 9]));
   (3, SelRx (RxData [65; 69; 1; 3; 9; 240]))].
Example C63_example :
  let tr := history (exchange E_ok C_ok s_ok get_req C63_events) in
  sent T_RST tr = [(2, [112; 0; 1; 2]); (3, [112; 0; 1; 3])] /\ events_ok C63_events.
Proof.
  split; [vm_compute; reflexivity|]. intros t b Hin. unfold C63_events in Hin. cbn [In] in Hin.
  destruct Hin as [Hin|[Hin|[Hin|[]]]]; injection Hin as <- <-; apply bytes_okb_spec; vm_compute; reflexivity.
Qed.
