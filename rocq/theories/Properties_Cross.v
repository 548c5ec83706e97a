(** Properties of the translation between HTTP and CoAP: C55, C59, C69 to C74. *)
From Verif Require Import Base BaseLemmas BufModel UriModel UriSpec UriLemmas HttpModel HttpSpec HttpLemmas MsgModel MsgSpec ClientModel CrossModel CrossSpec CrossLemmas.

Definition coap_msg (class detail : N) (ops : list op) (payload : list N) : msg := mkmsg 1 2 class detail 7 [] ops payload.

(** C55, full statement: a successful CoAP response is never reported as an error, an error never as a
    success.  The first half is false: the cases fall through, so that 2.12 is reported as 412 Precondition Failed,
    and 2.31 Continue as 502 Bad Gateway. *)
Theorem C55_refuted :
  exists m h, m_class m = 2 /\ cross_resp_coap_to_http m [] 0 = Ok (h, None) /\ status_of h = Some 412.
Proof. exists (coap_msg 2 12 [] []). eexists. split; [reflexivity|]. split; [vm_compute; reflexivity|]. vm_compute. reflexivity. Qed.
Print Assumptions C55_refuted.
Theorem C55_continue_refuted :
  exists m h e, m_class m = 2 /\ m_detail m = 31 /\ cross_resp_coap_to_http m [] 0 = Ok (h, Some (502, e)).
Proof. exists (coap_msg 2 31 [] []). eexists. eexists. split; [reflexivity|]. split; [reflexivity|]. vm_compute. reflexivity. Qed.
Print Assumptions C55_continue_refuted.

(** C55, second half, proved: whatever the detail, a CoAP error is reported as a HTTP error: the status of the message, or the
    status set by a function that fails; and memory is accessed within bounds. *)
Theorem C55_error_partial :
  forall m body n, m_class m = 4 \/ m_class m = 5 -> n <= lenN body -> exists h r, cross_resp_coap_to_http m body n = Ok (h, r) /\
  match r with None => exists k, status_of h = Some k /\ http_error k | Some (code, _) => http_error code end.
Proof.
  intros m body n Hc Hn. destruct (resp_total m body n Hn) as (h & r & E). exists h, r. split; [exact E|]. exact (status_error m body n h r Hc E).
Qed.
Print Assumptions C55_error_partial.
(** C55, first half, proved for the codes that RFC 7252 registers, and then exactly: the status is that of the table
    [http_status].  Options longer than 255 bytes make the function fail. *)
Theorem C55_registered_partial :
  forall m body n, In (m_class m, m_detail m) registered -> short_ops (m_ops m) -> n <= lenN body ->
  exists h, cross_resp_coap_to_http m body n = Ok (h, None) /\ status_of h = Some (http_status (m_class m) (m_detail m)).
Proof. exact status_registered. Qed.
Print Assumptions C55_registered_partial.
Example C55_example :
  In (m_class (coap_msg 2 5 [] [104; 105]), m_detail (coap_msg 2 5 [] [104; 105])) registered /\ http_status 2 5 = 200 /\ http_status 4 4 = 404 /\ http_status 5 5 = 501 /\
  cross_resp_coap_to_http (coap_msg 2 5 [] [104; 105]) [] 0 =
    Ok (mkhmsg (s_http11, [50; 48; 48], [79; 75]) [(s_content_length, [50])] (Some [104; 105]), None).
Proof. split; [cbn; auto 10|]. vm_compute. auto. Qed.

(** C59, full statement: the Uri-Path and Uri-Query options are the non-empty segments and arguments of the URI, in order.
    False: the path is decoded before it is divided, so that the segment "a%2Fb" becomes two options. *)
Definition u_slash : list N := [99; 111; 97; 112; 58; 47; 47; 104; 47; 97; 37; 50; 70; 98].   (* coap://h/a%2Fb *)
Theorem C59_refuted :
  exists sg m m', u_slash = s_coap ++ [58; 47; 47] ++ auth_text None [104] None ++ path_text (listed 47 [[97; 37; 50; 70; 98]]) ++ tail_text None None /\
    decodes [97; 37; 50; 70; 98] [97; 47; 98] /\ cross_uri_http_to_coap sg x_all m u_slash = Ok m' /\ values 11 (m_ops m') = [[97]; [98]].
Proof.
  exists SignedChar, msg_create. eexists. split; [reflexivity|]. split.
  - apply decodes_char; [discriminate|lia|]. apply (decodes_octet 50 70 2 15).
    + split; [lia|left; reflexivity].
    + split; [lia|left; reflexivity].
    + apply decodes_char; [discriminate|lia|constructor].
  - split; [vm_compute; reflexivity|]. vm_compute. reflexivity.
Qed.
Print Assumptions C59_refuted.
(** C59, proved if no segment has a "/" when decoded, and no argument a "&": the options are host, port, the decoded segments and the
    decoded arguments that are not empty, in this order.  The URI has no user information and no character that uri_parse takes for
    a delimiter (C46). *)
Theorem C59_text_partial :
  forall sg X m sch s t h hd port p segs dsegs args dargs m',
  x_uri X = mem_all -> m_ops m = [] -> sch <> [] -> ~ In 58 sch -> nth 0 sch 0 <> 47 -> decodes sch s -> ~ In 0 s ->
  authority_ok None t h port -> decodes h hd -> ~ In 0 hd -> decodes_opt port p ->
  Forall2 decodes segs dsegs -> (forall x, In x segs -> forall c, In c [47; 63; 35; 64] -> ~ In c x) -> (port = None -> forall x, In x segs -> ~ In 58 x) ->
  (forall x, In x dsegs -> ~ In 0 x /\ ~ In 47 x) ->
  Forall2 decodes args dargs -> (forall x, In x args -> ~ In 35 x) -> (forall x, In x dargs -> ~ In 0 x /\ ~ In 38 x) ->
  let str := sch ++ [58; 47; 47] ++ auth_text None t port ++ path_text (listed 47 segs) ++ tail_text (listed 38 args) None in
  lenN str < two32 - 1 -> bytes_ok str ->
  cross_uri_http_to_coap sg X m str = Ok m' ->
  m_ops m' = opt_ops 3 (if is_empty hd then None else Some hd) ++ opt_ops 7 p ++ map (mkop 11) (nonempty dsegs) ++ map (mkop 15) (nonempty dargs).
Proof. exact uri_text_options. Qed.
Print Assumptions C59_text_partial.
(** C59, for every URI, in terms of what uri_parse makes of it: the function does not fail if memory is there, the scheme is that of CoAP and there is
    no fragment; its options are the non-empty pieces of the decoded path and query. *)
Theorem C59_parsed_partial :
  forall sg X m str u, uri_parse sg (x_uri X) str = Ok u -> lenN str < two32 - 1 -> bytes_ok str -> m_ops m = [] ->
  (X = x_all -> u_fragment u = None -> (exists s, u_scheme u = Some s /\ coap_scheme s) -> path_ok (u_path u) ->
     exists m', cross_uri_http_to_coap sg X m str = Ok m') /\
  (forall m', cross_uri_http_to_coap sg X m str = Ok m' -> m_ops m' = uri_ops u /\ m_payload m' = m_payload m /\
     m_type m' = m_type m /\ m_class m' = m_class m /\ m_detail m' = m_detail m).
Proof.
  intros sg X m str u H1 H2 H3 H4. split; [apply (uri_adds sg X m str u H1 H2 H3)|]. intros m' E. exact (uri_options sg X m str u m' H1 H2 H3 H4 E).
Qed.
Print Assumptions C59_parsed_partial.
Example C59_example :
  Forall2 decodes [[97]; []; [98; 37; 50; 48; 99]] [[97]; []; [98; 32; 99]] /\
  match cross_uri_http_to_coap SignedChar x_all msg_create (* coap://h:5/a//b%20c?x&y *)
    (s_coap ++ [58; 47; 47] ++ auth_text None [104] (Some [53]) ++ path_text (listed 47 [[97]; []; [98; 37; 50; 48; 99]]) ++ tail_text (listed 38 [[120]; [121]]) None) with
  | Ok m => m_ops m = [mkop 3 [104]; mkop 7 [53]; mkop 11 [97]; mkop 11 [98; 32; 99]; mkop 15 [120]; mkop 15 [121]]
  | _ => False
  end.
Proof.
  split; [|vm_compute; reflexivity]. constructor; [apply decodes_char; [discriminate|lia|constructor]|]. constructor; [constructor|]. constructor; [|constructor].
  apply decodes_char; [discriminate|lia|]. apply (decodes_octet 50 48 2 0); [split; [lia|left; reflexivity]|split; [lia|left; reflexivity]|]. apply decodes_char; [discriminate|lia|constructor].
Qed.

(** C69, full statement: cross_uri_coap_to_http writes to the first len bytes of the buffer only, and it
    succeeds only if the complete URI is there.  False for len = 0: the limit len - 1 wraps around, and success is reported
    though nothing is written. *)
Theorem C69_refuted :
  exists sg ops, ops_plain ops /\ cross_uri_coap_to_http sg mem_all ops [] 0 = Ok ([], None).
Proof.
  exists SignedChar, [mkop 3 [104]]. split; [|lazy; reflexivity]. intros o [<-|[]]. split; [apply bytes_okb_spec; reflexivity|reflexivity].
Qed.
Print Assumptions C69_refuted.
(** C69, proved for len > 0, whatever the options: no access out of bounds, the bytes after the first len stay as they are, and after a
    success the buffer holds the text of a URI, complete: any larger buffer receives the same text. *)
Theorem C69_safe_partial :
  forall sg mem ops buf len, ops_plain ops -> 0 < len -> len <= lenN buf -> lenN buf < two64 ->
  exists b r, cross_uri_coap_to_http sg mem ops buf len = Ok (b, r) /\ lenN b = lenN buf /\ skipn (N.to_nat len) b = skipn (N.to_nat len) buf /\
    (r = None -> exists u, strings_ok u /\ cstr (firstn (N.to_nat len) b) = Ok (uri_text u) /\
      forall buf' len', len <= len' -> len' <= lenN buf' -> lenN buf' < two64 ->
      exists b', cross_uri_coap_to_http sg mem ops buf' len' = Ok (b', None) /\ cstr (firstn (N.to_nat len') b') = Ok (uri_text u)).
Proof.
  intros sg mem ops buf len H1 H2 H3 H4. destruct (coap_to_http_safe sg mem ops buf len H1 H2 H3 H4) as (b & r & E1 & E2 & E3 & E4).
  exists b, r. split; [exact E1|]. split; [exact E2|]. split; [exact E3|]. intro Hr. destruct (E4 Hr) as (u & _ & Su & Et). subst r. exists u. split; [exact Su|]. split; [exact Et|].
  intros buf' len' G1 G2 G3. rewrite <- Et. exact (coap_to_http_larger sg mem ops buf len b buf' len' H1 H2 H3 H4 E1 G1 G2 G3).
Qed.
Print Assumptions C69_safe_partial.
Example C69_example :
  cross_uri_coap_to_http SignedChar mem_all [mkop 3 [104]; mkop 11 [97]; mkop 11 [98]] (repeat 7 16) 14 =
    Ok (s_coaps ++ [58; 47; 47; 104; 47; 97; 47; 98; 0; 7; 7], None) /\
  cross_uri_coap_to_http SignedChar mem_all [mkop 3 [104]; mkop 11 [97]; mkop 11 [98]] (repeat 7 16) 13 =
    Ok (s_coaps ++ [58; 47; 47; 104; 47; 97; 47; 0; 7; 7; 7], Some ENOSPC).
Proof. split; vm_compute; reflexivity. Qed.

(** C70, full statement: the URI made of the options of a request is translated to these options again.  False: the values
    are decoded as if they were percent-encoded, so that the segment "%41" comes back as "A". *)
Theorem C70_refuted :
  exists sg b t m', let ops := [mkop 3 [104]; mkop 11 [37; 52; 49]] in
    cross_uri_coap_to_http sg mem_all ops (repeat 7 32) 32 = Ok (b, None) /\ cstr b = Ok t /\
    cross_uri_http_to_coap sg x_all msg_create t = Ok m' /\ m_ops m' = [mkop 3 [104]; mkop 11 [65]].
Proof.
  exists SignedChar. eexists. eexists. eexists. cbv zeta. split; [vm_compute; reflexivity|]. split; [vm_compute; reflexivity|].
  split; [vm_compute; reflexivity|]. vm_compute. reflexivity.
Qed.
Print Assumptions C70_refuted.
(** C70, proved for values without percent sign, NUL and byte 255, and without separators: see [req_ok]. *)
Theorem C70_round_trip_partial :
  forall sg host port segs args buf len m, req_ok host port segs args -> 4096 <= len -> len <= lenN buf -> lenN buf < two64 -> m_ops m = [] ->
  exists b t m', cross_uri_coap_to_http sg mem_all (req_ops host port segs args) buf len = Ok (b, None) /\ cstr (firstn (N.to_nat len) b) = Ok t /\
    cross_uri_http_to_coap sg x_all m t = Ok m' /\ m_ops m' = req_ops host port segs args.
Proof. exact uri_round. Qed.
Print Assumptions C70_round_trip_partial.
Example C70_example : req_ok [104; 58; 195; 182] (Some [53]) [[97; 32]; [98; 58]] [[120; 61; 49]].
Proof.
  assert (P : forall s, bytes_okb s && forallb (fun c => negb (c =? 0) && negb (c =? 37) && negb (c =? 255)) s = true -> uri_plain s).
  { intros s H. apply andb_prop in H. destruct H as [H1 H2]. rewrite forallb_forall in H2. split; [apply bytes_okb_spec; exact H1|].
    split; [|split]; intro X; apply H2 in X; discriminate. }
  split; [apply P; reflexivity|]. split; [discriminate|]. split; [reflexivity|]. split.
  { intros p E. injection E as <-. split; [apply P; reflexivity|reflexivity]. }
  split; [|split; [|split; reflexivity]].
  - intros s [<-|[<-|[]]]; (split; [apply P; reflexivity|]; split; [discriminate|]; split; [cbn; intuition discriminate|]; split; [cbn; intuition discriminate|discriminate]).
  - intros s [<-|[]]. split; [apply P; reflexivity|]. split; [discriminate|cbn; intuition discriminate].
Qed.

(** C71, full statement: the values of the options Max-Age, Accept and Uri-Port are unsigned integers in the format of RFC 7252 3.2.  False: they are
    decimal text, so that "Cache-Control: max-age=60" becomes a Max-Age of 13872, and the Max-Age 60 of a response is not
    reported. *)
Theorem C71_refuted :
  exists m', cross_headers_http_to_coap x_all msg_create [(cache_name, max_age ++ [54; 48])] = COk m' /\ map uint_of (values 14 (m_ops m')) = [13872].
Proof. eexists. split; vm_compute; reflexivity. Qed.
Print Assumptions C71_refuted.
Theorem C71_response_refuted :
  exists h, uint_of [60] = 60 /\ cross_resp_coap_to_http (coap_msg 2 5 [mkop 14 [60]] [97]) [] 0 = Ok (h, None) /\ hm_headers h = [(s_content_length, [49])].
Proof. eexists. split; [reflexivity|]. split; vm_compute; reflexivity. Qed.
Print Assumptions C71_response_refuted.
Theorem C71_port_refuted :
  exists sg m', cross_uri_http_to_coap sg x_all msg_create (s_coap ++ [58; 47; 47; 104; 58; 53]) = Ok m' /\ map uint_of (values 7 (m_ops m')) = [53].
Proof. exists SignedChar. eexists. split; vm_compute; reflexivity. Qed.
Print Assumptions C71_port_refuted.
(** C71, what holds: the two translations of headers are inverse, if the options are in ascending order. *)
Theorem C71_headers_partial :
  forall ns hs, Forall2 header_as ns hs -> ascending 0 ns -> forall m, m_ops m = [] ->
  exists m', cross_headers_http_to_coap x_all m hs = COk m' /\ map o_num (m_ops m') = ns /\ cross_headers_coap_to_http (m_ops m') = (hs, Ok tt).
Proof. exact headers_round. Qed.
Print Assumptions C71_headers_partial.
Example C71_example :
  Forall2 header_as [4; 14; 17] [(etag_name, [97; 98]); (cache_name, max_age ++ [54; 48]); (accept_name, text_plain)] /\ ascending 0 [4; 14; 17].
Proof.
  split; [|cbn; lia]. constructor; [apply as_etag; [cbn; intuition discriminate|reflexivity]|]. constructor; [|constructor; [apply as_accept|constructor]].
  apply (as_max_age 60 [54; 48]); [reflexivity|]. apply (dec_more 6 [54] 0); [lia|lia|apply (dec_one 6); lia].
Qed.

(** C72, full statement: the HTTP response carries the body and the ETag of the CoAP response, and is read by the client as this
    one message.  False: an ETag is copied as it is, so that a CoAP server can add headers and messages of its own. *)
Theorem C72_refuted :
  exists h b n h', cross_resp_coap_to_http (coap_msg 2 5 [mkop 4 [97; 13; 10; 88; 58; 121]] [97]) [] 0 = Ok (h, None) /\
    http_msg_generate h (repeat 7 64) 64 = Ok (b, n) /\ http_msg_parse 9 (firstn (N.to_nat n) b) = Ok (h', Z.of_N n) /\
    hm_headers h' = [(s_etag, [97]); ([88], [121]); (s_content_length, [49])].
Proof.
  eexists. eexists. eexists. eexists. split; [vm_compute; reflexivity|]. split; [vm_compute; reflexivity|]. split; [vm_compute; reflexivity|]. vm_compute. reflexivity.
Qed.
Print Assumptions C72_refuted.
(** C72, proved if the ETags are words without control characters. *)
Theorem C72_faithful_partial :
  forall m body n h, cross_resp_coap_to_http m body n = Ok (h, None) -> etags_ok (m_ops m) -> lenN (m_payload m) < two64 -> n < two64 ->
  message_ok h /\ (n = 0 -> body_of h = m_payload m) /\ (0 < n -> n <= lenN body /\ body_of h = firstn (N.to_nat n) body) /\
  map snd (filter (fun h => str_eq (fst h) etag_name) (hm_headers h)) = values 4 (m_ops m).
Proof. exact resp_message_ok. Qed.
Print Assumptions C72_faithful_partial.
(** And as the client reads it, if the body has no NUL (C50). *)
Theorem C72_received_partial :
  forall m body n h fuel buf len b k more, cross_resp_coap_to_http m body n = Ok (h, None) -> etags_ok (m_ops m) -> lenN (m_payload m) < two64 -> n < two64 ->
  ~ In 0 (body_of h) -> lenN (body_of h) < 2147483648 -> len <= lenN buf -> lenN buf < two64 -> lenN (http_text h) < two64 ->
  http_msg_generate h buf len = Ok (b, k) -> k < len ->
  http_msg_parse fuel (firstn (N.to_nat k) b ++ more) = Ok (h, Z.of_N k).
Proof.
  intros m body n h fuel buf len b k more H1 H2 H3 H4 H5 H6 H7 H8 H9 H10 H11. destruct (resp_message_ok m body n h H1 H2 H3 H4) as [Hm _].
  apply (generate_parse h fuel buf len b k); try assumption. intros x Ex. unfold body_of in *. rewrite Ex in *. auto.
Qed.
Print Assumptions C72_received_partial.
Example C72_example :
  etags_ok [mkop 4 [97; 98]; mkop 12 []] /\
  cross_resp_coap_to_http (coap_msg 2 5 [mkop 4 [97; 98]; mkop 12 []] []) [104; 105; 0] 2 =
    Ok (mkhmsg (s_http11, [50; 48; 48], [79; 75]) [(s_etag, [97; 98]); (s_content_length, [50])] (Some [104; 105]), None).
Proof. split; [|vm_compute; reflexivity]. intros v [<-|[]]. right. apply word_ok. reflexivity. Qed.

(** C73, full statement: the client can tell where a response ends without the connection being closed.  False for a response without
    payload: there is no Content-Length, and the connection stays open. *)
Theorem C73_refuted :
  exists h, cross_resp_coap_to_http (coap_msg 2 4 [] []) [] 0 = Ok (h, None) /\ ~ self_delimiting h.
Proof.
  eexists. split; [vm_compute; reflexivity|]. intros [H|[(x & [] & _)|(x & n & [] & _)]]. vm_compute in H. discriminate.
Qed.
Print Assumptions C73_refuted.
(** C73, proved for responses with a payload. *)
Theorem C73_payload_partial :
  forall m body n h, cross_resp_coap_to_http m body n = Ok (h, None) -> etags_ok (m_ops m) -> lenN (m_payload m) < two64 -> n < two64 ->
  0 < n \/ m_payload m <> [] -> self_delimiting h.
Proof.
  intros m body n h H1 H2 H3 H4 H5. destruct (resp_message_ok m body n h H1 H2 H3 H4) as ((_ & _ & _ & Hb) & B1 & B2 & _).
  right. right. unfold body_of in *. destruct (hm_body h) as [b|].
  - destruct Hb as (_ & hs1 & x & hs2 & E & N1 & N2 & _). exists x, (lenN b). rewrite E. split; [apply in_or_app; right; left; reflexivity|]. auto.
  - exfalso. destruct H5 as [H5|H5].
    + destruct (B2 H5) as [L E]. apply (f_equal (@length N)) in E. rewrite firstn_length in E. unfold lenN in *. cbn in E. lia.
    + destruct (N.eq_dec n 0) as [->|Hn]; [apply H5; symmetry; apply B1; reflexivity|]. destruct (B2 ltac:(lia)) as [L E]. apply (f_equal (@length N)) in E. rewrite firstn_length in E. unfold lenN in *. cbn in E. lia.
Qed.
Print Assumptions C73_payload_partial.

(** C74: a HTTP request that is accepted is translated faithfully: it becomes a confirmable request with the code of its method, the options of its URI, its
    ETags, the Max-Age and Accept of its headers and no other option, and its body as payload, or, if it is too long, as the body of a block-wise transfer; one that is not is answered with the status of an error; and memory is
    accessed within bounds. *)
Theorem C74_request :
  forall sg X h body body_end a b c, hm_start h = (a, b, c) -> bytes_ok b -> lenN b < two32 - 1 ->
  match cross_req_http_to_coap sg X h body body_end with
  | COk (m, body', end') =>
    m_type m = 0 /\ m_class m = 0 /\ method_code a (m_detail m) /\ ops_sorted (m_ops m) /\
    (exists u, uri_parse sg (x_uri X) b = Ok u /\ u_fragment u = None /\ (exists s, u_scheme u = Some s /\ coap_scheme s) /\ path_ok (u_path u) /\
       forall n, n = 3 \/ n = 7 \/ n = 11 \/ n = 15 -> values n (m_ops m) = values n (uri_ops u)) /\
    values 4 (m_ops m) = header_values etag_name (hm_headers h) /\ age_ops (hm_headers h) (m_ops m) /\ accept_ops (hm_headers h) (m_ops m) /\
    (forall o, In o (m_ops m) -> In (o_num o) [3; 4; 7; 11; 14; 15; 17]) /\
    ((lenN (body_of h) <= 1024 /\ m_payload m = body_of h /\ body' = body /\ end' = body_end) \/
     (1024 < lenN (body_of h) <= lenN body /\ m_payload m = [] /\ end' = lenN (body_of h) /\ body' = body_of h ++ skipn (N.to_nat end') body))
  | CErr code _ => http_error code
  | CUB _ | CFuel => False
  end.
Proof.
  intros sg X h body body_end a b c H1 H2 H3. destruct (req_faithful sg X h body body_end a b c H1 H2 H3) as [R1 R2].
  destruct (cross_req_http_to_coap sg X h body body_end) as [[[m b'] e']|code e| |]; [apply R2; reflexivity|exact R1|exact R1|exact R1].
Qed.
Print Assumptions C74_request.
Example C74_example :
  match cross_req_http_to_coap SignedChar x_all (mkhmsg (s_PUT, s_coap ++ [58; 47; 47; 104; 47; 97], s_http11) [(s_etag, [120]); (s_accept, s_text_plain)] (Some [98; 111])) (repeat 0 9) 0 with
  | COk (m, _, _) => m_detail m = 3 /\ m_ops m = [mkop 3 [104]; mkop 4 [120]; mkop 11 [97]; mkop 17 [48]] /\ m_payload m = [98; 111]
  | _ => False
  end.
Proof. vm_compute. auto. Qed.
