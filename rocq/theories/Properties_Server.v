(** Property theorems for the server (C27-C36, C42, C64).  The statements use the
    predicates of ServerSpec.v on the history of what the server did. *)
From Verif Require Import Base BaseLemmas MsgModel MsgSpec ClientModel ClientSpec ServerModel ServerSpec
  ServerLemmas ServerTraceLemmas ServerPropLemmas ServerHistLemmas ServerTimerLemmas ServerRetransLemmas ServerFixtures.

(** C27: in every history, a transaction is created only for a client that has none
    and while there are less than eight; everything the server does for a client, it
    does while the client has a transaction; the transactions the history says are
    there are those in the table of eight slots, no two for the same client. *)
Theorem C27_one_transaction_per_client :
  forall A (P : app A) E C id a evs v r,
  id <= 65535 -> Forall sev_ok evs -> server_run P E C (server_init id a) evs = (v, r) ->
  lived (v_trace v) /\
  (forall tr1 tr2, v_trace v = tr1 ++ tr2 -> NoDup (live tr1) /\ (length (live tr1) <= 8)%nat) /\
  length (v_tr v) = 8%nat /\
  (forall c, In c (live (v_trace v)) <-> exists t, In t (v_tr v) /\ t_active t = true /\ t_client t = c) /\
  (forall i j t u, nth_error (v_tr v) i = Some t -> nth_error (v_tr v) j = Some u ->
     t_active t = true -> t_active u = true -> t_client t = t_client u -> i = j).
Proof. exact @one_per_client. Qed.
Print Assumptions C27_one_transaction_per_client.

(** Nine clients: the transaction of the first is destroyed for the last. *)
Definition nine : list sev := map (fun c => EvRx c (get_dg 258) None) [1; 2; 3; 4; 5; 6; 7; 8; 9].
Example C27_example :
  Forall sev_ok nine /\ live (v_trace (after nine)) = [9; 8; 7; 6; 5; 4; 3; 2] /\
  length (live (v_trace (after (firstn 8 nine)))) = 8%nat.
Proof. split; [apply sevs_ok; reflexivity|]. split; vm_compute; reflexivity. Qed.

(** C28, full statement: the transaction destroyed for a new client is a least
    recently used one.  False: a transaction whose last use was when the clock read 0
    is not seen. *)
Definition sE_epoch : senv :=
  mksenv (fun _ => None) (fun _ => None) (fun _ => None) (fun n => if (n <? 7)%nat then 0 else N.of_nat n) (fun _ => 0)
         (fun _ => true) (fun _ => true).
Theorem C28_eviction_refuted :
  exists A (P : app A) E C v c b v' s s' c0 c1 u0 u1,
  step P E C v (EvRx c b None) v' None s /\ s = SDestroy c0 :: s' /\ c0 <> c /\
  length (live (v_trace v)) = 8%nat /\ In c1 (live (v_trace v)) /\
  last_use c0 (v_trace v) = Some u0 /\ last_use c1 (v_trace v) = Some u1 /\ u1 < u0.
Proof.
  exists unit, sP_ok, sE_epoch, sC_ok, (fst (server_run sP_ok sE_epoch sC_ok (server_init 10 tt) (firstn 8 nine))), 9, (get_dg 258).
  do 7 eexists. split; [|split; [|split; [|split; [|split; [|split; [|split]]]]]].
  - split; [|split; [apply bytes_okb_spec; reflexivity|split; vm_compute; reflexivity]].
    exists 10, tt, (firstn 8 nine). split; [lia|]. split; [apply sevs_ok; reflexivity|]. vm_compute. reflexivity.
  - reflexivity.
  - discriminate.
  - vm_compute. reflexivity.
  - vm_compute. do 7 right. left. reflexivity.
  - vm_compute. reflexivity.
  - vm_compute. reflexivity.
  - reflexivity.
Qed.
Print Assumptions C28_eviction_refuted.

(** C28 if the clock never reads 0: when a datagram arrives, a transaction of another
    client is destroyed only if there are eight and none for this client; then one
    is, and it is one of the least recently used.  Missing: the clock reading 0,
    where the statement is false. *)
Theorem C28_eviction_partial :
  forall A (P : app A) E C v c b fail v' r s,
  (forall n, se_time E n <> 0) ->
  step P E C v (EvRx c b fail) v' r s ->
  (length (live (v_trace v)) = 8%nat -> ~ In c (live (v_trace v)) ->
   exists c0 u0 s', s = SDestroy c0 :: s' /\ In c0 (live (v_trace v)) /\ last_use c0 (v_trace v) = Some u0 /\
     (forall c1, In c1 (live (v_trace v)) -> exists u1, last_use c1 (v_trace v) = Some u1 /\ u0 <= u1) /\
     (forall c', c' <> c -> ~ In (SDestroy c') s')) /\
  (length (live (v_trace v)) <> 8%nat \/ In c (live (v_trace v)) -> forall c', c' <> c -> ~ In (SDestroy c') s).
Proof. exact @evicts. Qed.
Print Assumptions C28_eviction_partial.

(** C28: the transactions of other clients that are not destroyed stay as they are,
    and everything that happens concerns this client. *)
Theorem C28_others_untouched :
  forall A (P : app A) E C v c b fail v' r s,
  step P E C v (EvRx c b fail) v' r s ->
  (forall t, In t (v_tr v) -> t_active t = true -> t_client t <> c -> ~ In (SDestroy (t_client t)) s -> In t (v_tr v')) /\
  (forall o, In o s -> match o with SDestroy _ | SNewId _ => True | _ => client_of o = Some c end).
Proof. exact @rx_untouched. Qed.
Print Assumptions C28_others_untouched.

(** C28: the last use is noted exactly when a transaction is created, a message is
    received in it or sent from it, with a reading of the clock. *)
Theorem C28_uses_noted :
  forall A (P : app A) E C id a evs v r,
  id <= 65535 -> Forall sev_ok evs -> server_run P E C (server_init id a) evs = (v, r) ->
  marked C (v_trace v) /\ forall c t, In (SUse c t) (v_trace v) -> exists n, t = se_time E n.
Proof. exact @uses_marked. Qed.
Print Assumptions C28_uses_noted.

(** Eight clients, the first of which comes again; then a ninth: the second goes. *)
Example C28_example :
  (forall n, se_time sE_ok n <> 0) /\
  exists v' s, step sP_ok sE_ok sC_ok (after (firstn 8 nine ++ [EvRx 1 (get_dg 259) None])) (EvRx 9 (get_dg 1) None) v' None (SDestroy 2 :: s) /\
  length (live (v_trace (after (firstn 8 nine ++ [EvRx 1 (get_dg 259) None])))) = 8%nat /\
  ~ In 9 (live (v_trace (after (firstn 8 nine ++ [EvRx 1 (get_dg 259) None])))).
Proof.
  split; [intro n; cbn; lia|]. do 2 eexists. split; [steps|]. split; [vm_compute; reflexivity|].
  vm_compute. intro H. repeat (destruct H as [H|H]; [discriminate|]). exact H.
Qed.

(** C29, full statement: what is sent in answer to a request is one of the forms of
    [replied].  False: to a first request with message ID 0 the server sends an empty
    confirmable message. *)
Theorem C29_response_answers_request_refuted :
  exists A (P : app A) E C v c d m v' s,
  step P E C v (EvRx c d None) v' None s /\ reads C d m /\ In (SRecv c d) s /\
  m_type m = T_CON /\ m_class m = 0 /\ m_detail m = 1 /\ ~ In c (live (v_trace v)) /\ sends s = [(c, [64; 0; 0; 0])].
Proof.
  exists unit, sP_ok, sE_ok, sC_ok, (after []), 5, (get_dg 0), (get_msg 0). do 2 eexists.
  split; [steps|]. split; [split; vm_compute; [discriminate|reflexivity]|]. split; [do 2 right; left; reflexivity|].
  repeat (split; [reflexivity|]). split; [intros []|reflexivity].
Qed.
Print Assumptions C29_response_answers_request_refuted.

(** C29 for requests whose message ID is not that of the last request in the
    transaction, nor 0 if there was none.  Missing: message ID 0 in a new
    transaction, where the statement is false; for repeated requests see C30. *)
Theorem C29_response_answers_request_partial :
  forall A (P : app A) E C v c d m v' s,
  step P E C v (EvRx c d None) v' None s -> reads C d m -> In (SRecv c d) s ->
  m_type m = T_CON \/ m_type m = T_NON -> m_class m = 0 -> fresh_id c (m_id m) (v_trace v) ->
  replied c m s.
Proof. exact @replies. Qed.
Print Assumptions C29_response_answers_request_partial.

(** A separate response. *)
Example C29_example :
  exists v' s, step sP_ok sE_ok sC_ok (after nine) (EvRx 5 (sep_dg 259) None) v' None s /\
  reads sC_ok (sep_dg 259) (sep_msg 259) /\ In (SRecv 5 (sep_dg 259)) s /\ fresh_id 5 259 (v_trace (after nine)) /\
  sends s = [(5, [96; 0; 1; 3]); (5, [65; 69; 0; 11; 7; 255; 104; 105])].
Proof.
  do 2 eexists. split; [steps|]. split; [readsok|]. split; [left; reflexivity|]. split; [newid|reflexivity].
Qed.

(** C30, full statement: a request that arrives again in a transaction is not passed
    to the handler again.  False: it is if another request was received in
    between. *)
Theorem C30_no_second_execution_refuted :
  exists A (P : app A) E C id a evs v tr1 tr2 tr3 c m,
  id <= 65535 /\ Forall sev_ok evs /\ server_run P E C (server_init id a) evs = (v, None) /\
  v_trace v = tr1 ++ SHandle c m :: tr2 ++ SHandle c m :: tr3 /\ ~ In (SDestroy c) tr2.
Proof.
  exists unit, sP_ok, sE_ok, sC_ok, 10, tt, [EvRx 5 (get_dg 258) None; EvRx 5 (get_dg 259) None; EvRx 5 (get_dg 258) None].
  eexists. set (h := v_trace (after [EvRx 5 (get_dg 258) None; EvRx 5 (get_dg 259) None; EvRx 5 (get_dg 258) None])).
  exists (firstn 4 h), (firstn 9 (skipn 5 h)), (skipn 15 h), 5, (get_msg 258).
  split; [lia|]. split; [apply sevs_ok; reflexivity|]. split; [vm_compute; reflexivity|]. split; [vm_compute; reflexivity|].
  vm_compute. intro H. repeat (destruct H as [H|H]; [discriminate|]). exact H.
Qed.
Print Assumptions C30_no_second_execution_refuted.

(** C30 if the transaction was not destroyed and no request with another message ID
    was received in between: the handler and the callback are not called again, a
    non-confirmable request is dropped, a confirmable one gets the same datagram
    again, or the empty acknowledgement if the response was separate.  Missing:
    other requests in between, where the statement is false. *)
Theorem C30_no_second_execution_partial :
  forall A (P : app A) E C v c d m v1 s1 evs v2 s2 v3 r s3,
  step P E C v (EvRx c d None) v1 None s1 -> reads C d m -> In (SRecv c d) s1 ->
  m_type m = T_CON \/ m_type m = T_NON -> m_class m = 0 -> fresh_id c (m_id m) (v_trace v) -> ~ In (SDestroy c) s1 ->
  Forall sev_ok evs -> server_run P E C v1 evs = (v2, None) -> v_trace v2 = v_trace v1 ++ s2 ->
  steady c (m_id m) s2 ->
  step P E C v2 (EvRx c d None) v3 r s3 ->
  r = None /\ handled s3 = [] /\ calls s3 = [] /\ new_ids s3 = [] /\
  (m_type m = T_NON -> sends s3 = []) /\
  (m_type m = T_CON ->
     (exists b, sends s1 = [(c, b)] /\ sends s3 = [(c, b)]) \/
     (exists b, sends s1 = [(c, ack_dgram (m_id m)); (c, b)] /\ sends s3 = [(c, ack_dgram (m_id m))])).
Proof. exact @repeated. Qed.
Print Assumptions C30_no_second_execution_partial.

(** A request, a request of another client, the first again. *)
Example C30_example :
  exists s1 s2 s3,
  step sP_ok sE_ok sC_ok (after []) (EvRx 5 (get_dg 258) None) (after [EvRx 5 (get_dg 258) None]) None s1 /\
  reads sC_ok (get_dg 258) (get_msg 258) /\ In (SRecv 5 (get_dg 258)) s1 /\ fresh_id 5 258 (v_trace (after [])) /\ ~ In (SDestroy 5) s1 /\
  server_run sP_ok sE_ok sC_ok (after [EvRx 5 (get_dg 258) None]) [EvRx 6 (get_dg 3) None] =
    (after [EvRx 5 (get_dg 258) None; EvRx 6 (get_dg 3) None], None) /\
  v_trace (after [EvRx 5 (get_dg 258) None; EvRx 6 (get_dg 3) None]) = v_trace (after [EvRx 5 (get_dg 258) None]) ++ s2 /\
  steady 5 258 s2 /\
  step sP_ok sE_ok sC_ok (after [EvRx 5 (get_dg 258) None; EvRx 6 (get_dg 3) None]) (EvRx 5 (get_dg 258) None)
    (after [EvRx 5 (get_dg 258) None; EvRx 6 (get_dg 3) None; EvRx 5 (get_dg 258) None]) None s3 /\
  sends s1 = [(5, [97; 69; 1; 2; 7; 255; 104; 105])] /\ sends s3 = sends s1.
Proof.
  do 3 eexists. split; [steps|]. split; [readsok|]. split; [do 2 right; left; reflexivity|]. split; [newid|].
  split; [intro H; repeat (destruct H as [H|H]; [discriminate|]); exact H|].
  split; [vm_compute; reflexivity|]. split; [vm_compute; reflexivity|].
  split; [split; [intro H; repeat (destruct H as [H|H]; [discriminate|]); exact H|
                  intros d H; repeat (destruct H as [H|H]; [discriminate|]); destruct H]|].
  split; [steps|]. split; reflexivity.
Qed.

(** C31, full statement: a new request is passed to the handler.  False: the first
    request of a client is not if its message ID is 0. *)
Theorem C31_new_request_handled_refuted :
  exists A (P : app A) E C v c d m v' s,
  step P E C v (EvRx c d None) v' None s /\ reads C d m /\ In (SRecv c d) s /\
  m_type m = T_CON /\ m_class m = 0 /\ m_detail m = 1 /\ acceptable (sc_proxy C) m /\
  (forall x, ~ In (SRecv c x) (v_trace v)) /\ handled s = [].
Proof.
  exists unit, sP_ok, sE_ok, sC_ok, (after []), 5, (get_dg 0), (get_msg 0). do 2 eexists.
  split; [steps|]. split; [readsok|]. split; [do 2 right; left; reflexivity|].
  repeat (split; [reflexivity|]). split; [apply server_options_spec; reflexivity|]. split; [intros x []|reflexivity].
Qed.
Print Assumptions C31_new_request_handled_refuted.

(** C31 for requests whose message ID is not that of the last one, nor 0 if there
    was none, outside a blockwise transfer: the handler is called once with the
    request, unless the empty acknowledgement for a separate response could not be
    sent.  Missing: message ID 0, where the statement is false. *)
Theorem C31_new_request_handled_partial :
  forall A (P : app A) E C v c d m v' r s,
  step P E C v (EvRx c d None) v' r s -> reads C d m -> In (SRecv c d) s ->
  m_type m = T_CON \/ m_type m = T_NON -> m_class m = 0 -> fresh_id c (m_id m) (v_trace v) ->
  acceptable (sc_proxy C) m ->
  (forall t, In t (v_tr v) -> t_active t = true -> t_client t = c -> t_type t = TRegular) ->
  handled s = [(c, m)] \/ (handled s = [] /\ In (SSend c (ack_dgram (m_id m)) false) s).
Proof. exact @new_request_handled. Qed.
Print Assumptions C31_new_request_handled_partial.

Example C31_example :
  exists v' s, step sP_ok sE_ok sC_ok (after nine) (EvRx 5 (sep_dg 259) None) v' None s /\
  reads sC_ok (sep_dg 259) (sep_msg 259) /\ In (SRecv 5 (sep_dg 259)) s /\ fresh_id 5 259 (v_trace (after nine)) /\
  acceptable false (sep_msg 259) /\
  (forall t, In t (v_tr (after nine)) -> t_active t = true -> t_client t = 5 -> t_type t = TRegular) /\
  handled s = [(5, sep_msg 259)].
Proof.
  do 2 eexists. split; [steps|]. split; [readsok|]. split; [left; reflexivity|]. split; [newid|].
  split; [apply (server_options_spec sC_ok); reflexivity|]. split; [regular|reflexivity].
Qed.

(** C32, full statement: what is sent when the timer of a transaction expires is a
    confirmable message.  False: an acknowledgement sent for a later request is,
    because the timer was not stopped. *)
Theorem C32_retransmission_refuted :
  exists A (P : app A) E C id a evs v tr1 c sec nsec b tr2,
  id <= 65535 /\ Forall sev_ok evs /\ server_run P E C (server_init id a) evs = (v, None) /\
  v_trace v = tr1 ++ STimer c :: SArm c sec nsec true :: SSend c b true :: tr2 /\ dgram_type b = T_ACK.
Proof.
  exists unit, sP_ok, sE_ok, sC_ok, 10, tt, [EvRx 5 (sep_dg 258) None; EvRx 5 (get_dg 259) None; EvTimers [true]].
  eexists. exists (firstn 16 (v_trace (after [EvRx 5 (sep_dg 258) None; EvRx 5 (get_dg 259) None; EvTimers [true]]))). do 5 eexists.
  split; [lia|]. split; [apply sevs_ok; reflexivity|]. split; [vm_compute; reflexivity|].
  split; [vm_compute; reflexivity|reflexivity].
Qed.
Print Assumptions C32_retransmission_refuted.

(** C32: whenever a timer expires, a confirmable message was sent to the client and
    since then neither acknowledged nor reset, and the transaction lives; the timer
    has expired at most four times since; it was set to [w], [2 w], [4 w], ... with
    [w] between 2 s and 3 s.  The fourth time before, the transaction ends; else the
    timer is set to twice the time and, if that succeeds, the same datagram sent
    again, unless a request with another message ID has been received meanwhile.
    Missing: that last case, where the statement is false. *)
Theorem C32_retransmission_partial :
  forall A (P : app A) E C id a evs v r,
  id <= 65535 -> Forall sev_ok evs -> server_run P E C (server_init id a) evs = (v, r) ->
  forall h1 c h2, v_trace v = h1 ++ STimer c :: h2 ->
  exists h0 b since w,
    awaiting c h1 h0 b since /\ (expiries c since <= 4)%nat /\
    2000000000 <= w < 3000000000 /\ settings c since = waits w (S (expiries c since)) /\
    (expiries c since = 4%nat -> exists h3, h2 = SDestroy c :: h3) /\
    ((expiries c since < 4)%nat ->
     exists sec nsec ok h3, h2 = SArm c sec nsec ok :: h3 /\
       1000000000 * sec + nsec = 2 ^ N.of_nat (S (expiries c since)) * w /\
       (ok = true -> exists b' ok' h4, h3 = SSend c b' ok' :: h4 /\ (b' = b \/ superseded c h0 since))).
Proof. exact @retransmission. Qed.
Print Assumptions C32_retransmission_partial.

(** C32: the server sends to a client only when a message of this client or the
    expiry of its timer was the last that happened to the server. *)
Theorem C32_sends_prompted :
  forall A (P : app A) E C id a evs v r,
  id <= 65535 -> Forall sev_ok evs -> server_run P E C (server_init id a) evs = (v, r) ->
  forall h1 c b ok h2, v_trace v = h1 ++ SSend c b ok :: h2 ->
  exists h0 o mid, h1 = h0 ++ o :: mid /\ (o = STimer c \/ exists d, o = SRecv c d) /\
    Forall (fun o => match o with SRecv _ _ | STimer _ => False | _ => True end) mid.
Proof. exact @prompted. Qed.
Print Assumptions C32_sends_prompted.

(** A separate response that is not acknowledged: sent five times in all. *)
Definition C32_events : list sev :=
  EvRx 5 (sep_dg 258) None :: repeat (EvTimers [true]) 6.
Example C32_example :
  Forall sev_ok C32_events /\
  sends (v_trace (after C32_events)) =
    (5, [96; 0; 1; 2]) :: repeat (5, [65; 69; 0; 11; 7; 255; 104; 105]) 5 /\
  expiries 5 (v_trace (after C32_events)) = 5%nat /\
  settings 5 (v_trace (after C32_events)) = waits 2000000000 5 /\
  live (v_trace (after C32_events)) = [].
Proof. split; [apply sevs_ok; reflexivity|]. repeat split; vm_compute; reflexivity. Qed.

(** C33, full statement: only requests are passed to the handler, and other
    confirmable messages are reset.  False: an empty confirmable message, a ping, is
    passed to the handler and answered. *)
Theorem C33_only_requests_refuted :
  exists A (P : app A) E C v c d m v' s b,
  step P E C v (EvRx c d None) v' None s /\ reads C d m /\ m_type m = T_CON /\ m_class m = 0 /\ m_detail m = 0 /\
  handled s = [(c, m)] /\ sends s = [(c, b)] /\ dgram_type b = T_ACK.
Proof.
  exists unit, sP_ok, sE_ok, sC_ok, (after []), 5, [64; 0; 1; 1], (mkmsg 1 T_CON 0 0 257 [] [] []). do 3 eexists.
  split; [steps|]. split; [readsok|]. repeat (split; [reflexivity|]). reflexivity.
Qed.
Print Assumptions C33_only_requests_refuted.

(** C33: whenever the handler is called with a message, this message was received
    from the client just before, it is confirmable or non-confirmable and of class 0,
    its options are acceptable and its message ID is not that of the request
    before.  Missing: that it is not empty, where the statement is false. *)
Theorem C33_only_requests_partial :
  forall A (P : app A) E C id a evs v r,
  id <= 65535 -> Forall sev_ok evs -> server_run P E C (server_init id a) evs = (v, r) ->
  forall tr1 c m tr2, v_trace v = tr1 ++ SHandle c m :: tr2 ->
  exists tr0 d mid j, tr1 = tr0 ++ SRecv c d :: mid /\
    Forall (fun o => match o with SHandle _ _ | SCall _ _ | SRecv _ _ => False | _ => True end) mid /\ reads C d m /\
    (m_type m = T_CON \/ m_type m = T_NON) /\ m_class m = 0 /\ acceptable (sc_proxy C) m /\
    last_id c tr0 = Some j /\ m_id m <> j.
Proof. exact @handled_once. Qed.
Print Assumptions C33_only_requests_partial.

(** C33: a confirmable message that is neither a request nor empty, with another
    message ID than the last request, is answered by a reset and nothing else.
    Missing: one with the message ID of the last request, which is taken for a
    repetition. *)
Theorem C33_others_reset_partial :
  forall A (P : app A) E C v c d m v' r s,
  step P E C v (EvRx c d None) v' r s -> reads C d m -> In (SRecv c d) s ->
  m_type m = T_CON -> m_class m <> 0 -> fresh_id c (m_id m) (v_trace v) ->
  r = None /\ sends s = [(c, rst_dgram (m_id m))] /\ handled s = [] /\ calls s = [].
Proof. exact @other_reset. Qed.
Print Assumptions C33_others_reset_partial.

(** A confirmable response. *)
Example C33_example :
  exists v' s, step sP_ok sE_ok sC_ok (after nine) (EvRx 5 [64; 69; 1; 3] None) v' None s /\
  reads sC_ok [64; 69; 1; 3] (mkmsg 1 T_CON 2 5 259 [] [] []) /\ In (SRecv 5 [64; 69; 1; 3]) s /\
  fresh_id 5 259 (v_trace (after nine)) /\ sends s = [(5, [112; 0; 1; 3])].
Proof.
  do 2 eexists. split; [steps|]. split; [readsok|]. split; [left; reflexivity|]. split; [newid|reflexivity].
Qed.

(** C33: any other message that is neither confirmable nor a request is not answered
    and nothing is called. *)
Theorem C33_others_ignored :
  forall A (P : app A) E C v c d m v' r s,
  step P E C v (EvRx c d None) v' r s -> reads C d m -> In (SRecv c d) s ->
  m_type m <> T_CON -> m_type m <> T_NON \/ m_class m <> 0 ->
  r = None /\ sends s = [] /\ handled s = [] /\ calls s = [].
Proof. exact @other_ignored. Qed.
Print Assumptions C33_others_ignored.

(** A non-confirmable response; a reset. *)
Example C33_ignored_example :
  (exists v' s, step sP_ok sE_ok sC_ok (after nine) (EvRx 5 [80; 69; 1; 3] None) v' None s /\
   reads sC_ok [80; 69; 1; 3] (mkmsg 1 T_NON 2 5 259 [] [] []) /\ In (SRecv 5 [80; 69; 1; 3]) s) /\
  (exists v' s, step sP_ok sE_ok sC_ok (after nine) (EvRx 5 [112; 0; 1; 3] None) v' None s /\
   reads sC_ok [112; 0; 1; 3] (mkmsg 1 T_RST 0 0 259 [] [] []) /\ In (SRecv 5 [112; 0; 1; 3]) s).
Proof. split; (do 2 eexists; split; [steps|]; split; [readsok|left; reflexivity]). Qed.

(** C34: no message with an option that has to be understood and is not is ever
    passed to the handler. *)
Theorem C34_bad_options_not_handled :
  forall A (P : app A) E C id a evs v r,
  id <= 65535 -> Forall sev_ok evs -> server_run P E C (server_init id a) evs = (v, r) ->
  forall c m, In (SHandle c m) (v_trace v) -> acceptable (sc_proxy C) m.
Proof. exact @handled_acceptable. Qed.
Print Assumptions C34_bad_options_not_handled.

(** C34, full statement: such a request is answered by 4.02.  False: not if it is
    the first of a client and its message ID is 0. *)
Theorem C34_bad_options_refused_refuted :
  exists A (P : app A) E C v c d m v' s,
  step P E C v (EvRx c d None) v' None s /\ reads C d m /\ In (SRecv c d) s /\
  m_type m = T_CON /\ m_class m = 0 /\ m_detail m = 1 /\ ~ acceptable (sc_proxy C) m /\ sends s = [(c, [64; 0; 0; 0])].
Proof.
  exists unit, sP_ok, sE_ok, sC_ok, (after []), 5, [64; 1; 0; 0; 144], (mkmsg 1 T_CON 0 1 0 [] [mkop 9 []] []). do 2 eexists.
  split; [steps|]. split; [readsok|]. split; [do 2 right; left; reflexivity|].
  repeat (split; [reflexivity|]). split; [|reflexivity]. intro H. apply server_options_spec in H. discriminate.
Qed.
Print Assumptions C34_bad_options_refused_refuted.

(** C34 for requests whose message ID is not that of the last one, nor 0 if there
    was none: the answer is 4.02 with the token of the request, after an empty
    acknowledgement if the response is separate, unless that could not be sent.
    Missing: message ID 0, where the statement is false. *)
Theorem C34_bad_options_refused_partial :
  forall A (P : app A) E C v c d m v' r s,
  step P E C v (EvRx c d None) v' r s -> reads C d m -> In (SRecv c d) s ->
  m_type m = T_CON \/ m_type m = T_NON -> m_class m = 0 -> fresh_id c (m_id m) (v_trace v) ->
  ~ acceptable (sc_proxy C) m ->
  r = None /\ handled s = [] /\ calls s = [] /\
  (In (SSend c (ack_dgram (m_id m)) false) s \/
   exists b, nth 1 b 0 = 130 /\ dgram_token b = m_token m /\
     (sends s = [(c, b)] \/ sends s = [(c, ack_dgram (m_id m)); (c, b)])).
Proof. exact @bad_option_refused. Qed.
Print Assumptions C34_bad_options_refused_partial.

Example C34_example :
  exists v' s b, step sP_ok sE_ok sC_ok (after nine) (EvRx 5 [65; 1; 1; 3; 7; 144] None) v' None s /\
  reads sC_ok [65; 1; 1; 3; 7; 144] (mkmsg 1 T_CON 0 1 259 [7] [mkop 9 []] []) /\ In (SRecv 5 [65; 1; 1; 3; 7; 144]) s /\
  fresh_id 5 259 (v_trace (after nine)) /\ ~ acceptable false (mkmsg 1 T_CON 0 1 259 [7] [mkop 9 []] []) /\
  sends s = [(5, [97; 130; 1; 3; 7] ++ b)].
Proof.
  do 3 eexists. split; [steps|]. split; [readsok|]. split; [left; reflexivity|]. split; [newid|].
  split; [intro H; apply (server_options_spec sC_ok) in H; discriminate|]. vm_compute. reflexivity.
Qed.

(** C35, full statement: consecutive message IDs differ.  False: after 65535 comes a
    random one, which may be 65535. *)
Definition sE_rand : senv :=
  mksenv (fun _ => None) (fun _ => None) (fun _ => None) (fun n => 1000 + N.of_nat n) (fun _ => 255)
         (fun _ => true) (fun _ => true).
Theorem C35_message_ids_refuted :
  exists A (P : app A) E C id a evs v i,
  id <= 65535 /\ Forall sev_ok evs /\ server_run P E C (server_init id a) evs = (v, None) /\
  new_ids (v_trace v) = [i; i].
Proof.
  exists unit, sP_ok, sE_rand, sC_ok, 65534, tt, [EvRx 5 (sep_dg 258) None; EvRx 5 (sep_dg 259) None]. do 2 eexists.
  split; [lia|]. split; [apply sevs_ok; reflexivity|]. split; vm_compute; reflexivity.
Qed.
Print Assumptions C35_message_ids_refuted.

(** C35: each message ID generated is the one before plus 1, except after 65535;
    between two such wraps all are different; and every confirmable or
    non-confirmable message that is sent has one of the IDs generated before, except
    for the empty message of C29.  Missing: IDs after 65535, where the statement is
    false. *)
Theorem C35_message_ids_partial :
  forall A (P : app A) E C id a evs v r,
  id <= 65535 -> Forall sev_ok evs -> server_run P E C (server_init id a) evs = (v, r) ->
  consecutive id (new_ids (v_trace v)) /\
  (forall l1 l2 l3, new_ids (v_trace v) = l1 ++ l2 ++ l3 -> ~ In 65535 (removelast l2) -> NoDup l2) /\
  (forall tr1 c b ok tr2, v_trace v = tr1 ++ SSend c b ok :: tr2 ->
     dgram_type b = T_CON \/ dgram_type b = T_NON -> b = [64; 0; 0; 0] \/ In (dgram_id b) (new_ids tr1)).
Proof. exact @message_ids. Qed.
Print Assumptions C35_message_ids_partial.

Example C35_example :
  new_ids (v_trace (after [EvRx 5 (sep_dg 258) None; EvRx 6 (sep_dg 1) None; EvRx 5 (sep_dg 259) None])) = [11; 12; 13].
Proof. vm_compute. reflexivity. Qed.

(** C36, full statement: the server goes on unless select fails.  False: it returns
    when a retransmission cannot be sent. *)
Definition sE_fail : senv :=
  mksenv (fun n => if (n <? 12)%nat then None else Some EIO) (fun _ => None) (fun _ => None) (fun n => 1000 + N.of_nat n) (fun _ => 0)
         (fun _ => true) (fun _ => true).
Theorem C36_survives_send_errors_refuted :
  exists A (P : app A) E C v l v' s c b,
  step P E C v (EvTimers l) v' (Some (Err EIO)) s /\ In (SSend c b false) s.
Proof.
  exists unit, sP_ok, sE_fail, sC_ok, (fst (server_run sP_ok sE_fail sC_ok (server_init 10 tt) [EvRx 5 (sep_dg 258) None])), [true].
  do 4 eexists. split.
  - split; [|split; [exact I|split; vm_compute; reflexivity]].
    exists 10, tt, [EvRx 5 (sep_dg 258) None]. split; [lia|]. split; [apply sevs_ok; reflexivity|]. vm_compute. reflexivity.
  - vm_compute. do 2 right. left. reflexivity.
Qed.
Print Assumptions C36_survives_send_errors_refuted.

(** C36: the server returns an error only if select fails, or if the timer of a
    retransmission cannot be set or the retransmission not sent; never while it
    handles a datagram, whatever fails then.  Missing: failing retransmissions, where
    the statement is false. *)
Theorem C36_survives_send_errors_partial :
  forall A (P : app A) E C v e v' r s, step P E C v e v' r s ->
  match e with
  | EvErr x => r = Some (Err x) /\ s = []
  | EvRxErr _ => r = None /\ s = []
  | EvRx _ _ _ => r = None \/ (exists u, r = Some (UB u)) \/ r = Some OutOfFuel
  | EvTimers _ => r = None /\ timer_round false s \/ exists x, r = Some (Err x) /\ timer_round true s
  end.
Proof. exact @step_errors. Qed.
Print Assumptions C36_survives_send_errors_partial.

(** A response that cannot be sent, then another client. *)
Definition sE_once : senv :=
  mksenv (fun n => if (n =? 3)%nat then Some EIO else None) (fun _ => None) (fun _ => None) (fun n => 1000 + N.of_nat n) (fun _ => 0)
         (fun _ => true) (fun _ => true).
Example C36_example :
  exists v, server_run sP_ok sE_once sC_ok (server_init 10 tt) [EvRx 5 (get_dg 258) None; EvRx 6 (get_dg 3) None] = (v, None) /\
  In (SSend 5 [97; 69; 1; 2; 7; 255; 104; 105] false) (v_trace v) /\ In (SSend 6 [97; 69; 0; 3; 7; 255; 104; 105] true) (v_trace v).
Proof.
  eexists. split; [vm_compute; reflexivity|]. cbn [v_trace In]. split; tauto.
Qed.

(** C42, full statement: a confirmable request gets a separate response if and only
    if its path is registered.  False: a path with a NUL byte is cut there. *)
Theorem C42_separate_response_refuted :
  exists A (P : app A) E C v c d m v' s b,
  step P E C v (EvRx c d None) v' None s /\ reads C d m /\ In (SRecv c d) s /\
  m_type m = T_CON /\ m_class m = 0 /\ fresh_id c (m_id m) (v_trace v) /\ ~ registered C m /\
  sends s = [(c, ack_dgram (m_id m)); (c, b)].
Proof.
  exists unit, sP_ok, sE_ok, sC_ok, (after []), 5, [64; 1; 1; 3; 178; 115; 0], (mkmsg 1 T_CON 0 1 259 [] [mkop 11 [115; 0]] []).
  do 3 eexists. split; [steps|]. split; [readsok|]. split; [do 2 right; left; reflexivity|]. do 2 (split; [reflexivity|]).
  split; [newid|]. split; [|reflexivity]. intro H. vm_compute in H. destruct H as [H|[]]. discriminate.
Qed.
Print Assumptions C42_separate_response_refuted.

(** C42 for paths of at most 255 bytes without NUL.  Missing: longer paths, and
    paths with a NUL byte, where the statement is false; two paths are the same here
    if their segments joined by slashes are. *)
Theorem C42_separate_response_partial :
  forall A (P : app A) E C v c d m v' s,
  step P E C v (EvRx c d None) v' None s -> reads C d m -> In (SRecv c d) s ->
  m_type m = T_CON -> m_class m = 0 -> fresh_id c (m_id m) (v_trace v) ->
  ~ In 0 (req_path m) -> lenN (req_path m) <= 255 -> (forall p, In p (sc_sep C) -> ~ In 0 p) ->
  (registered C m ->
     sends s = [(c, ack_dgram (m_id m))] /\ In (SDestroy c) s \/
     exists b, sends s = [(c, ack_dgram (m_id m)); (c, b)] /\ dgram_type b = T_CON /\ dgram_token b = m_token m) /\
  (~ registered C m ->
     sends s = [] /\ In (SDestroy c) s \/
     exists b, sends s = [(c, b)] /\ dgram_type b = T_ACK /\ dgram_token b = m_token m /\ dgram_id b = m_id m).
Proof. exact @separate_iff. Qed.
Print Assumptions C42_separate_response_partial.

Example C42_example :
  exists v' s, step sP_ok sE_ok sC_ok (after nine) (EvRx 5 (sep_dg 259) None) v' None s /\
  reads sC_ok (sep_dg 259) (sep_msg 259) /\ In (SRecv 5 (sep_dg 259)) s /\ fresh_id 5 259 (v_trace (after nine)) /\
  req_path (sep_msg 259) = [47; 115] /\ registered sC_ok (sep_msg 259) /\ ~ registered sC_ok (get_msg 259).
Proof.
  do 2 eexists. split; [steps|]. split; [readsok|]. split; [left; reflexivity|]. split; [newid|].
  split; [reflexivity|]. split; [left; reflexivity|]. intros [H|[]]. discriminate.
Qed.

(** C64: if the handler builds a response to a request, what is sent is this
    response, formatted, with a message ID, the token of the request and a type
    filled in, besides the empty acknowledgement of a separate response. *)
Theorem C64_handler_response_sent :
  forall A (P : app A) E C v c d m v' s a1 l,
  step P E C v (EvRx c d None) v' None s -> reads C d m -> In (SRecv c d) s ->
  m_type m = T_CON \/ m_type m = T_NON -> m_class m = 0 -> fresh_id c (m_id m) (v_trace v) ->
  acceptable (sc_proxy C) m ->
  (forall t, In t (v_tr v) -> t_active t = true -> t_client t = c -> t_type t = TRegular) ->
  ap_handle P (v_app v) c m = (a1, HResp l) ->
  forall b, In (c, b) (sends s) ->
  b = ack_dgram (m_id m) \/
  exists i ty, msg_format (msg_build (l ++ [SetMsgId i; SetToken (m_token m); SetType ty])) MAX_BUF_LEN = Ok b.
Proof. exact @handler_response. Qed.
Print Assumptions C64_handler_response_sent.

Example C64_example :
  exists v' s, step sP_ok sE_ok sC_ok (after nine) (EvRx 5 (sep_dg 259) None) v' None s /\
  reads sC_ok (sep_dg 259) (sep_msg 259) /\ In (SRecv 5 (sep_dg 259)) s /\ fresh_id 5 259 (v_trace (after nine)) /\
  acceptable false (sep_msg 259) /\
  (forall t, In t (v_tr (after nine)) -> t_active t = true -> t_client t = 5 -> t_type t = TRegular) /\
  ap_handle sP_ok tt 5 (sep_msg 259) = (tt, HResp [SetCode 2 5; SetPayload [104; 105]]) /\
  sends s = [(5, [96; 0; 1; 3]); (5, [65; 69; 0; 11; 7; 255; 104; 105])] /\
  msg_format (msg_build [SetCode 2 5; SetPayload [104; 105]; SetMsgId 11; SetToken [7]; SetType T_CON]) MAX_BUF_LEN
    = Ok [65; 69; 0; 11; 7; 255; 104; 105].
Proof.
  do 2 eexists. split; [steps|]. split; [readsok|]. split; [left; reflexivity|]. split; [newid|].
  split; [apply (server_options_spec sC_ok); reflexivity|]. split; [regular|]. split; [reflexivity|]. split; [reflexivity|].
  vm_compute. reflexivity.
Qed.
