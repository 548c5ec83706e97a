(** Properties of a connection of the proxy: C56 to C58, C75 to C79. *)
From Verif Require Import Base BaseLemmas BufModel UriModel UriSpec UriLemmas HttpModel HttpSpec HttpLemmas HttpChunkLemmas MsgModel MsgSpec MsgLemmas ClientModel ClientSpec CrossModel CrossSpec ConModel ConSpec ConLemmas ConSafeLemmas.

(** ** A network for the examples: every server can be reached, and gives the same response to everything. *)

Definition open_all (s : unit) (h p : list N) : unit * res unit := (tt, Ok tt).
Definition close_all (s : unit) : unit := tt.
Definition answer (resp : msg) (s : unit) (m : msg) : unit * res msg := (tt, Ok resp).
Definition response (ops : list op) (payload : list N) : msg := mkmsg 1 2 2 5 7 [] ops payload.
Definition start : con := match connection_new with Ok k => k | _ => mkcon None [] 0 (mkdbuf 0 0 0 []) (mkdbuf 0 0 0 []) end.
Definition good : turn := mkturn (mkpmem x_all mem_all true true) (fun _ => true) WAll.
Definition much : nat := N.to_nat 40000.
Definition run (exch : unit -> msg -> unit * res msg) (ts : list turn) (evs : list hev) (wire : list N) :=
  connection_thread open_all close_all exch SignedChar much ts (tt, []) (evs, wire, start).

Definition http_word : list N := [72; 84; 84; 80; 47; 49; 46; 49].
Definition url : list N := [99; 111; 97; 112; 58; 47; 47; 104; 58; 49; 47; 97].   (* coap://h:1/a *)
Definition url_no_port : list N := [99; 111; 97; 112; 58; 47; 47; 104; 47; 97].   (* coap://h/a *)
Definition hreq (method url : list N) : hmsg := mkhmsg (method, url, http_word) [] None.

(** ** C56 *)

(** C56, full statement: every HTTP request that is converted is sent to the CoAP server.  False: DELETE is converted, but
    connection_coap_exchange does nothing for it; the client is told 502 Bad Gateway. *)
Theorem C56_refuted :
  exists h m resp bytes w x, cross_req_http_to_coap SignedChar x_all h no_body 0 = COk (m, no_body, 0) /\
    run (answer (response [] [])) [good] [HRead 4096 true] (http_text h) = (w, x, [(h, resp, bytes)], KWait) /\
    sends (snd w) = [] /\ status_of resp = Some 502.
Proof.
  exists (hreq s_DELETE url). do 5 eexists. split; [vm_compute; reflexivity|]. split; [vm_compute; reflexivity|]. split; vm_compute; reflexivity.
Qed.
Print Assumptions C56_refuted.

(** C56, proved for the other methods: if the transaction succeeds, a request is sent, and it is the converted one; for a PUT or POST with a
    body longer than 1024 bytes it is the first block. *)
Theorem C56_partial :
  forall St copen cclose exch sg fuel t (w : St * list cobs) evs wire k w' x' h resp bytes req body' bend', (0 < fuel)%nat ->
  connection_exchange copen cclose exch sg fuel t w (evs, wire, k) = (w', x', KOk (h, resp, bytes)) ->
  connected (snd w) = k_client k ->
  cross_req_http_to_coap sg (p_x (t_mem t)) h no_body 0 = COk (req, body', bend') -> m_detail req <> 4 ->
  exists m rm new, sends (snd w') = sends (snd w) ++ (m, rm) :: new /\ same_request req m /\
    (m_detail req = 1 \/ lenN (body_of h) <= 1024 -> m = req) /\
    (m_detail req <> 1 -> 1024 < lenN (body_of h) -> m_payload m = firstn 32 (body_of h) /\ has_block OP_BLOCK1 m 0 true).
Proof. intros St copen cclose exch. exact (exchange_forwards copen cclose exch). Qed.
Print Assumptions C56_partial.
Example C56_example :
  exists m w x resp bytes, cross_req_http_to_coap SignedChar x_all (hreq s_GET url) no_body 0 = COk (m, no_body, 0) /\ m_detail m = 1 /\
    connection_exchange open_all close_all (answer (response [] [104; 105])) SignedChar much good (tt, []) ([HRead 9 true; HRead 4000 true], http_text (hreq s_GET url), start) =
      (w, x, KOk (hreq s_GET url, resp, bytes)) /\
    snd w = [CoOpen [104] [49]; CoSend m (Ok (response [] [104; 105]))] /\ connected [] = k_client start.
Proof. do 5 eexists. split; [vm_compute; reflexivity|]. split; [vm_compute; reflexivity|]. split; [vm_compute; reflexivity|]. split; vm_compute; reflexivity. Qed.

(** The whole body of a PUT or POST: after any number of transactions, unless an error is reported, a body of more than 1024 bytes is sent in blocks, in order and
    completely, or the server refuses it; a shorter one likewise if the server responds 4.13 (Request Entity Too Large) to the request. *)
Theorem C56_upload_partial :
  forall St copen cclose exch, (forall (s : St) m, sound_result (snd (exch s m))) ->
  (forall s h p, match snd (copen s h p) with Ok _ | Err _ => True | UB _ | OutOfFuel => False end) ->
  forall sg fuel ts s evs wire k w x ds t w' x' h resp bytes req body' bend',
  32768 < N.of_nat fuel -> tame wire -> bytes_ok wire -> connection_new = Ok k ->
  connection_thread copen cclose exch sg fuel ts (s, []) (evs, wire, k) = (w, x, ds, KWait) ->
  connection_exchange copen cclose exch sg fuel t w x = (w', x', KOk (h, resp, bytes)) ->
  cross_req_http_to_coap sg (p_x (t_mem t)) h no_body 0 = COk (req, body', bend') -> m_detail req = 2 \/ m_detail req = 3 ->
  error_answer resp \/ exists new, sends (snd w') = sends (snd w) ++ new /\
    (1024 < lenN (body_of h) -> uploads req (body_of h) new) /\
    (lenN (body_of h) <= 1024 -> body_of h <> [] -> forall m r0 new', new = (m, Ok r0) :: new' -> m_class r0 = 4 -> m_detail r0 = 13 -> uploads req (body_of h) new').
Proof.
  intros St copen cclose exch Hex Hopen sg fuel ts s evs wire k w x ds t w' x' h resp bytes req body' bend' Hf Ht Hb Hk Et Ex.
  eapply (healthy_uploads copen cclose exch Hex Hopen); [|exact Ex]. eapply (thread_healthy copen cclose exch Hex Hopen); [exact Hf| |exact Et]. eapply new_healthy; eassumption.
Qed.
Print Assumptions C56_upload_partial.
(** A server that takes 1100 bytes in blocks of 32. *)
Definition take_blocks (s : unit) (m : msg) : unit * res msg :=
  (tt, Ok (mkmsg 1 2 2 (if existsb (fun o => (o_num o =? 27) && N.testbit (last (o_val o) 0) 3) (m_ops m) then 31 else 4) 7 [] (with_num 27 (m_ops m)) [])).
Definition put_long : hmsg := mkhmsg (s_PUT, url, http_word) [(content_length, [49; 49; 48; 48])] (Some (repeat 113 (N.to_nat 1100))).
Example C56_upload_example :
  exists w x resp bytes, run take_blocks [good] [HRead 4096 true] (http_text put_long) = (w, x, [(put_long, resp, bytes)], KWait) /\
    status_of resp = Some 200 /\ length (sends (snd w)) = 35%nat /\ concat (map (fun p => m_payload (fst p)) (sends (snd w))) = repeat 113 (N.to_nat 1100).
Proof. do 4 eexists. split; [vm_compute; reflexivity|]. split; [vm_compute; reflexivity|]. split; vm_compute; reflexivity. Qed.

(** ** C57 *)

(** A server with a representation of 4055 bytes, in blocks of 1024: with it the response is 4096 bytes long, as
    the buffer. *)
Definition block_num (m : msg) : N := match parse_block_op (m_ops m) OP_BLOCK2 with Ok (Some b) => b_num b | _ => 0 end.
Definition serve_blocks (s : unit) (m : msg) : unit * res msg :=
  let n := block_num m in
  (tt, Ok (response [mkop 23 [n * 16 + (if n <? 3 then 8 else 0) + 6]] (repeat 120 (N.to_nat (N.min 1024 (4055 - 1024 * n)))))).

(** C57, full statement: the bytes written to the HTTP client are exactly the response.  False if the response is as long as the
    buffer: the last byte is replaced by the terminator of snprintf. *)
Theorem C57_refuted :
  exists h resp bytes w x, run serve_blocks [good] [HRead 4096 true] (http_text h) = (w, x, [(h, resp, bytes)], KWait) /\
    lenN (http_text resp) = 4096 /\ lenN bytes = 4096 /\ bytes <> http_text resp.
Proof.
  exists (hreq s_GET url). do 4 eexists. split; [vm_compute; reflexivity|]. split; [vm_compute; reflexivity|]. split; [vm_compute; reflexivity|].
  intro H. apply (f_equal (fun l => last l 1)) in H. vm_compute in H. discriminate.
Qed.
Print Assumptions C57_refuted.

(** C57, proved otherwise: connection_send writes exactly the response, or gives up, which it does only if the response is longer than 32768
    bytes or there is no memory or writing fails. *)
Theorem C57_partial :
  forall m w mem, no_nul m -> lenN (http_text m) < two64 -> forall fuel b, buffer b [] -> 32768 < d_size b * 2 ^ N.of_nat fuel ->
  exists b' r, connection_send fuel mem w m b = (b', r) /\ buffer b' [] /\
    match r with
    | KOk bytes => lenN (http_text m) <> d_size b' -> bytes = http_text m
    | KErr e => 32768 < lenN (http_text m) \/ w = WFail \/ mem (d_size b') = false
    | KClosed => w = WClosed
    | _ => False
    end.
Proof.
  intros m w mem H1 H2 fuel b H3 H4. destruct (send_spec m w mem H1 H2 fuel b H3 H4) as (b' & r & S1 & S2 & _ & S3). exists b', r. split; [exact S1|]. split; [exact S2|].
  destruct S3 as [[_ ->]|[[S3 ->]|(_ & S3 & ->)]]; [|left; exact S3|right; right; exact S3].
  destruct w; [|right; left; reflexivity|reflexivity]. intro Hn. unfold sent. destruct (N.eqb_spec (lenN (http_text m)) (d_size b')); [contradiction|reflexivity].
Qed.
Print Assumptions C57_partial.
Definition hresp (body : list N) : hmsg := mkhmsg (http_word, [50; 48; 48], [79; 75]) [] (Some body).
Example C57_example :
  let b := k_send start in
  no_nul (hresp [104; 0; 105]) /\ buffer b [] /\ 32768 < d_size b * 2 ^ N.of_nat 4 /\
  snd (connection_send 4 (fun _ => true) WAll (hresp [104; 0; 105]) b) = KOk (http_text (hresp [104; 0; 105])).
Proof.
  split; [unfold no_nul; cbn; repeat split; intuition discriminate|]. split; [|split; vm_compute; reflexivity].
  split; [split; reflexivity|]. split; [vm_compute; reflexivity|]. split; [reflexivity|]. split; [vm_compute; reflexivity|left; reflexivity].
Qed.

(** ** C58 *)

(** C58, full statement: every CoAP request is sent to the server named by the URI, and no request makes the proxy dereference a missing host or
    port.  The second half is false: after a request that has been served, a URI without port. *)
Theorem C58_refuted :
  exists h1 h2 resp bytes w x, run (answer (response [] [104; 105])) [good; good] [HRead (lenN (http_text h1)) true; HRead 4096 true] (http_text h1 ++ http_text h2) =
    (w, x, [(h1, resp, bytes)], KUB NullDeref).
Proof. exists (hreq s_GET url), (hreq s_GET url_no_port). do 4 eexists. vm_compute. reflexivity. Qed.
Print Assumptions C58_refuted.

(** C58, first half, proved: after any number of transactions, everything that is sent in the next one goes to the server that the URI of the request
    read in it names: the same host in any case, the same port. *)
Theorem C58_server_partial :
  forall St copen cclose exch sg fuel ts (s : St) evs wire k w evs1 wire1 k1 ds r t w' x' r', connection_new = Ok k ->
  connection_thread copen cclose exch sg fuel ts (s, []) (evs, wire, k) = (w, (evs1, wire1, k1), ds, r) ->
  connection_exchange copen cclose exch sg fuel t w (evs1, wire1, k1) = (w', x', r') ->
  exists log, snd w' = snd w ++ log /\ forall a m res b, log = a ++ CoSend m res :: b ->
    exists evs2 wire2 b2 req host port, connection_recv fuel evs1 wire1 (k_recv k1) = (evs2, wire2, b2, KOk req) /\
      connected (snd w ++ a) = Some (host, port) /\ names_server sg req host port.
Proof.
  intros St copen cclose exch sg fuel ts s evs wire k w evs1 wire1 k1 ds r t w' x' r' Hk E Ex. injection Hk as <-.
  apply (thread_connected copen cclose exch) in E; [|reflexivity].
  apply (exchange_log copen cclose exch) in Ex as (_ & log & L1 & L2); [|exact E]. exists log. split; [exact L1|]. intros a m res b X.
  destruct L2 as [->|(evs2 & wire2 & b2 & req & R & L2)]; [destruct a; discriminate|]. destruct (L2 a m res b X) as (host & port & Y). exists evs2, wire2, b2, req, host, port. auto.
Qed.
Print Assumptions C58_server_partial.
Definition url_other : list N := [99; 111; 97; 112; 58; 47; 47; 103; 58; 50; 47].   (* coap://g:2/ *)
Definition url_upper : list N := [99; 111; 97; 112; 58; 47; 47; 72; 58; 49; 47; 98].   (* coap://H:1/b *)
(** Three requests: the second goes to the same server, the third to another one. *)
Example C58_example :
  exists w x ds, run (answer (response [] [104; 105])) [good; good; good]
      [HRead (lenN (http_text (hreq s_GET url))) true; HRead (lenN (http_text (hreq s_GET url_upper))) true; HRead 4096 true]
      (http_text (hreq s_GET url) ++ http_text (hreq s_GET url_upper) ++ http_text (hreq s_GET url_other)) = (w, x, ds, KWait) /\
    length ds = 3%nat /\ map (fun o => match o with CoOpen h p => (1, h, p) | CoClose => (2, [], []) | CoSend _ _ => (3, [], []) end) (snd w) =
      [(1, [104], [49]); (3, [], []); (3, [], []); (2, [], []); (1, [103], [50]); (3, [], [])].
Proof. do 3 eexists. split; [vm_compute; reflexivity|]. split; vm_compute; reflexivity. Qed.

(** C58, second half, proved for URIs with a host and a port: see C79. *)

(** ** C75 *)

(** C75: whatever the pieces in which the bytes of a request arrive, it is read, exactly, and what follows it stays for the
    next one.  There may be bytes left from the previous read; at least one byte has to arrive. *)
Theorem C75_reassembly :
  forall m fuel, message_ok m -> (forall b, hm_body m = Some b -> ~ In 0 b) -> lenN (http_text m) <= 32641 ->
  forall evs wire b q rest, buffer b q -> q ++ wire = http_text m ++ rest -> wire <> [] -> Forall reads evs ->
  (0 < length evs)%nat -> (length (http_text m) - length q <= length evs)%nat ->
  exists used evs' wire' b' q', connection_recv fuel evs wire b = (evs', wire', b', KOk m) /\ evs = used ++ evs' /\ buffer b' q' /\ q' ++ wire' = rest.
Proof. exact recv_message. Qed.
Print Assumptions C75_reassembly.
(** The same for requests in chunked encoding. *)
Theorem C75_chunks :
  forall m ds t trailers fuel, let text := head_text m ++ t ++ headers_text trailers ++ crlf in
  start_ok m -> Forall header_ok (hm_headers m) -> is_chunked (hm_headers m) -> Forall header_ok trailers ->
  chunks_text ds t -> ~ In 0 (concat ds) -> lenN text <= 32641 -> 32641 <= N.of_nat fuel ->
  forall evs wire b q rest, buffer b q -> q ++ wire = text ++ rest -> wire <> [] -> Forall reads evs ->
  (0 < length evs)%nat -> (length text - length q <= length evs)%nat ->
  exists used evs' wire' b' q', connection_recv fuel evs wire b = (evs', wire', b', KOk (mkhmsg (hm_start m) (hm_headers m ++ trailers) (Some (concat ds)))) /\
    evs = used ++ evs' /\ buffer b' q' /\ q' ++ wire' = rest.
Proof. exact recv_chunked. Qed.
Print Assumptions C75_chunks.
Lemma one_word w : w <> [] -> existsb (fun c => (c =? 0) || ((9 <=? c) && (c <=? 13)) || (c =? 32)) w = false -> words w.
Proof.
  intros Hw H. apply words_one; [exact Hw|]. intros c Hc. assert (X : (c =? 0) || ((9 <=? c) && (c <=? 13)) || (c =? 32) = false).
  { destruct ((c =? 0) || ((9 <=? c) && (c <=? 13)) || (c =? 32)) eqn:E; [|reflexivity]. rewrite <- H. symmetry. apply existsb_exists. eauto. }
  apply orb_false_elim in X. destruct X as [X X3]. apply orb_false_elim in X. destruct X as [X1 X2]. apply N.eqb_neq in X1, X3. apply andb_false_iff in X2.
  split; [exact X1|]. unfold blank. destruct X2 as [X2|X2]; apply N.leb_gt in X2; lia.
Qed.
Definition put_hi : hmsg := mkhmsg (s_PUT, url, http_word) [(content_length, [50])] (Some [104; 105]).
Lemma put_hi_ok : message_ok put_hi.
Proof.
  split; [|split].
  - unfold start_ok. cbn. repeat split; try discriminate; try (intuition discriminate); intuition (subst; discriminate).
  - constructor; [|constructor]. unfold header_ok. cbn [fst snd]. split; [right; apply one_word; [discriminate|reflexivity]|]. split; [cbn; intuition discriminate|right; apply one_word; [discriminate|reflexivity]].
  - split; [intros h [<-|[]] [X _]; vm_compute in X; discriminate|]. cbn [hm_body put_hi]. split; [discriminate|]. exists [], (content_length, [50]), []. cbn. repeat split; try discriminate. intros h' [].
Qed.
(** The request in pieces of five bytes, after a read that has left two of them in the buffer; three bytes follow. *)
Definition began : dbuf := match data_buf_recv (k_recv start) [80; 85] with Ok (b, _) => b | _ => k_recv start end.
Example C75_example :
  message_ok put_hi /\ lenN (http_text put_hi) <= 32641 /\ buffer began [80; 85] /\
  exists b, connection_recv 200 (repeat (HRead 5 true) 60) (skipn 2 (http_text put_hi) ++ [71; 69; 84]) began = (repeat (HRead 5 true) 50, [84], b, KOk put_hi) /\
    buffer b [71; 69].
Proof.
  split; [exact put_hi_ok|]. split; [vm_compute; discriminate|]. split.
  { split; [split; reflexivity|]. split; [vm_compute; reflexivity|]. split; [reflexivity|]. split; [vm_compute; reflexivity|left; reflexivity]. }
  eexists. split; [vm_compute; reflexivity|].
  split; [split; reflexivity|]. split; [vm_compute; reflexivity|]. split; [reflexivity|]. split; [vm_compute; reflexivity|left; reflexivity].
Qed.
Definition put_chunks : hmsg := mkhmsg (s_PUT, url, http_word) [(transfer_encoding, chunked)] None.
Definition chunks_hi : list N := [49; 13; 10; 104; 13; 10; 49; 13; 10; 105; 13; 10; 48; 13; 10].
Example C75_chunks_example :
  start_ok put_chunks /\ Forall header_ok (hm_headers put_chunks) /\ is_chunked (hm_headers put_chunks) /\ chunks_text [[104]; [105]] chunks_hi /\
  exists b, connection_recv much (repeat (HRead 5 true) 60) (head_text put_chunks ++ chunks_hi ++ crlf ++ [71; 69; 84]) (k_recv start) =
    (repeat (HRead 5 true) 45, [69; 84], b, KOk (mkhmsg (s_PUT, url, http_word) [(transfer_encoding, chunked)] (Some [104; 105]))) /\
    buffer b [71].
Proof.
  split; [unfold start_ok; cbn; repeat split; try discriminate; try (intuition discriminate); intuition (subst; discriminate)|].
  split; [constructor; [|constructor]; unfold header_ok; cbn [fst snd]; split; [right; apply one_word; [discriminate|reflexivity]|]; split; [cbn; intuition discriminate|right; apply one_word; [discriminate|reflexivity]]|].
  split; [exists (transfer_encoding, chunked); split; [left; reflexivity|]; split; reflexivity|].
  split; [apply (chunks_more [104] _ [49]); [discriminate|apply (hex_one 1); lia|]; apply (chunks_more [105] _ [49]); [discriminate|apply (hex_one 1); lia|apply chunks_last]|].
  eexists. split; [vm_compute; reflexivity|].
  split; [split; reflexivity|]. split; [vm_compute; reflexivity|]. split; [reflexivity|]. split; [vm_compute; reflexivity|left; reflexivity].
Qed.

(** ** C76 *)

(** C76, full statement: a request that is completely in the buffer is answered without further input.  False: connection_recv waits for more before it
    looks at the buffer, so that the second of two requests that arrive together waits until the client sends something else. *)
Theorem C76_refuted :
  exists h1 h2 resp bytes w b client body bend sb, message_ok h2 /\
    run (answer (response [] [104; 105])) [good; good] [HRead 4096 true] (http_text h1 ++ http_text h2) =
      (w, ([], [], mkcon client body bend b sb), [(h1, resp, bytes)], KWait) /\
    buffer b (http_text h2).
Proof.
  exists (hreq s_GET url), put_hi. do 8 eexists. split; [exact put_hi_ok|]. split; [vm_compute; reflexivity|].
  split; [split; vm_compute; reflexivity|]. split; [vm_compute; reflexivity|]. split; [reflexivity|]. split; [vm_compute; reflexivity|left; reflexivity].
Qed.
Print Assumptions C76_refuted.

(** C76, what is true: with whatever arrives next, be it one byte, the request is read. *)
Theorem C76_partial :
  forall m fuel b rest n x wire evs, message_ok m -> (forall y, hm_body m = Some y -> ~ In 0 y) -> lenN (http_text m) <= 32641 ->
  buffer b (http_text m ++ rest) -> 0 < n ->
  exists wire' b' q', connection_recv fuel (HRead n true :: evs) (x :: wire) b = (evs, wire', b', KOk m) /\ buffer b' q' /\ q' ++ wire' = rest ++ x :: wire.
Proof. exact recv_held. Qed.
Print Assumptions C76_partial.
Definition held : dbuf := match data_buf_recv (k_recv start) (http_text put_hi ++ [71; 69]) with Ok (b, _) => b | _ => k_recv start end.
Example C76_example :
  buffer held (http_text put_hi ++ [71; 69]) /\ exists b, connection_recv 9 [HRead 1 true; HTimeout] [84; 32] held = ([HTimeout], [32], b, KOk put_hi) /\ buffer b [71; 69; 84].
Proof.
  split; [|eexists; split; [vm_compute; reflexivity|]]; (split; [split; vm_compute; reflexivity|]; split; [vm_compute; reflexivity|]; split; [vm_compute; reflexivity|]; split; [vm_compute; reflexivity|left; vm_compute; reflexivity]).
Qed.

(** ** C77 *)

Definition get_body : hmsg := mkhmsg (s_GET, url, http_word) [(content_length, [49; 48; 50; 53])] (Some (repeat 113 (N.to_nat 1025))).
(** C77, full statement: the body of the HTTP response is that of the CoAP response.  False for a GET with a body of more than 1024
    bytes, which is stored for a block-wise upload that does not take place: the client gets its own body back. *)
Theorem C77_refuted :
  exists h m rm resp bytes w x, run (answer (response [] [104; 105])) [good] [HRead 4096 true] (http_text h) = (w, x, [(h, resp, bytes)], KWait) /\
    sends (snd w) = [(m, Ok rm)] /\ m_payload rm = [104; 105] /\ body_of resp = body_of h /\ lenN (body_of h) = 1025 /\ status_of resp = Some 200.
Proof. exists get_body. do 6 eexists. split; [vm_compute; reflexivity|]. split; [vm_compute; reflexivity|]. split; [reflexivity|]. split; vm_compute; auto. Qed.
Print Assumptions C77_refuted.

(** Also false for a PUT or POST with a body of at most 1024 bytes: if the response is the first block of a longer one, the others are not asked for, and
    the client gets this block, as if it were all. *)
Theorem C77_first_block_refuted :
  exists h m rm b resp bytes w x, run (answer (mkmsg 1 2 2 4 7 [] [mkop 23 [8]] (repeat 104 16))) [good] [HRead 4096 true] (http_text h) = (w, x, [(h, resp, bytes)], KWait) /\
    sends (snd w) = [(m, Ok rm)] /\ parse_block_op (m_ops rm) OP_BLOCK2 = Ok (Some b) /\ b_more b = true /\ body_of resp = m_payload rm /\ status_of resp = Some 200.
Proof. exists put_hi. do 7 eexists. split; [vm_compute; reflexivity|]. split; [vm_compute; reflexivity|]. split; [reflexivity|]. split; [reflexivity|]. split; vm_compute; reflexivity. Qed.
Print Assumptions C77_first_block_refuted.

(** C77, proved for all other requests, after any number of transactions: the response reports an error and has no body, or its body is the payload of the last CoAP
    response, or the payloads of the responses of a block-wise transfer, in order; for a GET and after an upload the payload of the last response only if it is not a block of a longer representation.  The input is such that parsing it is safe (C49, C66), and the servers
    respond with messages as coap_msg_parse makes them, without empty block options (C10). *)
Theorem C77_partial :
  forall St copen cclose exch, (forall (s : St) m, sound_result (snd (exch s m))) ->
  (forall s h p, match snd (copen s h p) with Ok _ | Err _ => True | UB _ | OutOfFuel => False end) ->
  forall sg fuel ts s evs wire k w x ds t w' x' h resp bytes a b c,
  32768 < N.of_nat fuel -> tame wire -> bytes_ok wire -> connection_new = Ok k ->
  connection_thread copen cclose exch sg fuel ts (s, []) (evs, wire, k) = (w, x, ds, KWait) ->
  connection_exchange copen cclose exch sg fuel t w x = (w', x', KOk (h, resp, bytes)) ->
  hm_start h = (a, b, c) -> (a = s_GET -> lenN (body_of h) <= 1024) ->
  error_answer resp \/ exists new, sends (snd w') = sends (snd w) ++ new /\ body_from h (body_of resp) new.
Proof.
  intros St copen cclose exch Hex Hopen sg fuel ts s evs wire k w x ds t w' x' h resp bytes a b c Hf Ht Hb Hk Et Ex.
  eapply healthy_body; try eassumption. eapply (thread_healthy copen cclose exch Hex Hopen); [exact Hf| |exact Et]. eapply new_healthy; eassumption.
Qed.
Print Assumptions C77_partial.

(** ** C78 *)

(** C78, full statement: every request that is read is answered.  False: if the URI has no port, the connection is closed without an answer. *)
Theorem C78_refuted :
  exists h w x, message_ok h /\ run (answer (response [] [])) [good] [HRead 4096 true] (http_text h) = (w, x, [], KErr EINVAL) /\
    connection_recv much [HRead 4096 true] (http_text h) (k_recv start) = ([], [], k_recv (snd x), KOk h).
Proof.
  exists (mkhmsg (s_PUT, url_no_port, http_word) [(content_length, [50])] (Some [104; 105])). do 2 eexists. split.
  - destruct put_hi_ok as (H1 & H2 & H3). split; [|split; [exact H2|exact H3]]. unfold start_ok. cbn. repeat split; try discriminate; try (intuition discriminate); intuition (subst; discriminate).
  - split; vm_compute; reflexivity.
Qed.
Print Assumptions C78_refuted.

(** C78, proved, after any number of transactions, for requests whose URIs, if they are URIs, have a host and a port, if no resource is exhausted, the
    CoAP client can be created and the response is not longer than 32768 bytes. *)
Theorem C78_partial :
  forall St copen cclose exch, (forall (s : St) m, sound_result (snd (exch s m))) -> (forall s h p, snd (copen s h p) = Ok tt) ->
  forall sg fuel ts s evs wire k w evs1 wire1 k1 ds t evs2 wire2 b2 h a b c w' x' r,
  32768 < N.of_nat fuel -> tame wire -> bytes_ok wire -> connection_new = Ok k ->
  connection_thread copen cclose exch sg fuel ts (s, []) (evs, wire, k) = (w, (evs1, wire1, k1), ds, KWait) ->
  connection_recv fuel evs1 wire1 (k_recv k1) = (evs2, wire2, b2, KOk h) -> hm_start h = (a, b, c) ->
  (forall u, uri_parse sg mem_all b = Ok u -> ~ nameless u) ->
  t_mem t = mkpmem x_all mem_all true true -> t_write t = WAll -> (forall n, t_send t n = true) ->
  connection_exchange copen cclose exch sg fuel t w (evs1, wire1, k1) = (w', x', r) ->
  exists resp, (lenN (http_text resp) <= 32768 -> exists bytes, r = KOk (h, resp, bytes)) /\ (32768 < lenN (http_text resp) -> r = KErr EINVAL).
Proof.
  intros St copen cclose exch Hex Ho sg fuel ts s evs wire k w evs1 wire1 k1 ds t evs2 wire2 b2 h a b c w' x' r Hf Ht Hb Hk Et Er Es Hu T1 T2 T3 Ex.
  assert (Hopen : forall s h p, match snd (copen s h p) with Ok _ | Err _ => True | UB _ | OutOfFuel => False end) by (intros s0 h0 p0; rewrite Ho; exact I).
  eapply (healthy_answered copen cclose exch Hex Hopen); try eassumption.
  - eapply (thread_healthy copen cclose exch Hex Hopen); [exact Hf| |exact Et]. eapply new_healthy; eassumption.
  - intros s0 h0 p0. exists tt. apply Ho.
  - intros u Eu. specialize (Hu u Eu). unfold nameless in Hu. split; intro X; apply Hu; auto.
Qed.
Print Assumptions C78_partial.

(** ** C79 *)

(** C79, full statement: no sequence of requests and responses makes the proxy access memory out of bounds, or not terminate.  False, besides the causes
    of C49, C58 and C66: a response with an empty Block2 option (C10). *)
Theorem C79_refuted :
  exists h rm w x, tame (http_text h) /\ resp_ok rm /\ run (answer rm) [good] [HRead 4096 true] (http_text h) = (w, x, [], KUB OobRead).
Proof.
  exists (hreq s_GET url), (response [mkop 23 []] [104; 105]). do 2 eexists. split; [left; apply never_chunkedb_ok; vm_compute; reflexivity|].
  split; [|vm_compute; reflexivity]. repeat split; vm_compute; auto; discriminate.
Qed.
Print Assumptions C79_refuted.

(** C79, proved for input and responses without these causes: the thread always terminates, and the only undefined behaviour is that of C58. *)
Theorem C79_partial :
  forall St copen cclose exch, (forall (s : St) m, sound_result (snd (exch s m))) ->
  (forall s h p, match snd (copen s h p) with Ok _ | Err _ => True | UB _ | OutOfFuel => False end) ->
  forall sg fuel ts s evs wire k w x ds r,
  32768 < N.of_nat fuel -> tame wire -> bytes_ok wire -> connection_new = Ok k ->
  connection_thread copen cclose exch sg fuel ts (s, []) (evs, wire, k) = (w, x, ds, r) ->
  r <> KFuel /\ forall u, r = KUB u -> u = NullDeref.
Proof.
  intros St copen cclose exch Hex Hopen sg fuel ts s evs wire k w x ds r Hf Ht Hb Hk Et.
  eapply (thread_safe copen cclose exch Hex Hopen); [exact Hf| |exact Et]. eapply new_healthy; eassumption.
Qed.
Print Assumptions C79_partial.
(** In any transaction: there is none if the URI of the request that is read has a host and a port. *)
Theorem C79_named_partial :
  forall St copen cclose exch, (forall (s : St) m, sound_result (snd (exch s m))) ->
  (forall s h p, match snd (copen s h p) with Ok _ | Err _ => True | UB _ | OutOfFuel => False end) ->
  forall sg fuel ts s evs wire k w evs1 wire1 k1 ds t w' x' r,
  32768 < N.of_nat fuel -> tame wire -> bytes_ok wire -> connection_new = Ok k ->
  connection_thread copen cclose exch sg fuel ts (s, []) (evs, wire, k) = (w, (evs1, wire1, k1), ds, KWait) ->
  connection_exchange copen cclose exch sg fuel t w (evs1, wire1, k1) = (w', x', r) ->
  r <> KFuel /\ forall u, r = KUB u -> u = NullDeref /\
    exists evs2 wire2 b2 h, connection_recv fuel evs1 wire1 (k_recv k1) = (evs2, wire2, b2, KOk h) /\ nameless_request sg h.
Proof.
  intros St copen cclose exch Hex Hopen sg fuel ts s evs wire k w evs1 wire1 k1 ds t w' x' r Hf Ht Hb Hk Et Ex.
  eapply (turn_safe copen cclose exch Hex Hopen) in Ex; [apply Ex|exact Hf|]. eapply (thread_healthy copen cclose exch Hex Hopen); [exact Hf| |exact Et]. eapply new_healthy; eassumption.
Qed.
Print Assumptions C79_named_partial.
(** The hypotheses of C77 to C79 are met by a client that sends two requests, and a server that answers in blocks. *)
Example C77_C78_C79_example :
  let serve := fun (s : unit) (m : msg) => (tt, Ok (response [mkop 23 [6]] [104; 105])) in
  let wire := http_text put_hi ++ http_text (hreq s_GET url) in
  (forall s m, sound_result (snd (serve s m))) /\ 32768 < N.of_nat much /\ tame wire /\ bytes_ok wire /\ connection_new = Ok start /\
  (forall u, uri_parse SignedChar mem_all url = Ok u -> ~ nameless u) /\
  exists w x resp1 bytes1 resp2 bytes2, run serve [good; good] [HRead 60 true; HRead 4096 true] wire = (w, x, [(put_hi, resp1, bytes1); (hreq s_GET url, resp2, bytes2)], KWait) /\
    body_of resp1 = [104; 105] /\ body_of resp2 = [104; 105].
Proof.
  cbn zeta. split; [|split; [|split; [|split; [|split; [|split]]]]].
  - intros s m. cbn [snd]. split; [repeat split; vm_compute; auto; discriminate|]. split; [vm_compute; reflexivity|]. intros o [<-|[]] _. discriminate.
  - unfold much. rewrite N2Nat.id. reflexivity.
  - left. apply never_chunkedb_ok. vm_compute. reflexivity.
  - apply bytes_okb_spec. vm_compute. reflexivity.
  - reflexivity.
  - intros u Eu. vm_compute in Eu. injection Eu as <-. intros [X|X]; discriminate.
  - do 6 eexists. split; [vm_compute; reflexivity|]. split; vm_compute; reflexivity.
Qed.
