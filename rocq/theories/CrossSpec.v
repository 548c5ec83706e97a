(** Specification of the translation between HTTP and CoAP: RFC 7252, sections 5.10, 6 and 10, as
    far as the proxy has it.  Options, messages and URIs are those of the models. *)
From Verif Require Import Base UriModel HttpModel MsgModel CrossModel UriSpec HttpSpec.

(** All memory allocations succeed. *)
Definition x_all : xmem := mkxmem (fun _ => true) (fun _ _ => true) (fun _ => true).

(** ** URIs *)

(** The pieces of a string between separators, and those that are not empty. *)
Fixpoint pieces (sep : N) (s : list N) : list (list N) :=
  match s with
  | [] => [[]]
  | c :: s =>
    if c =? sep then [] :: pieces sep s
    else match pieces sep s with p :: ps => (c :: p) :: ps | [] => [[c]] end
  end.
Definition nonempty (ps : list (list N)) : list (list N) := filter (fun p => negb (is_empty p)) ps.
(** The pieces with separators between them. *)
Fixpoint join (sep : N) (ps : list (list N)) : list N :=
  match ps with
  | [] => []
  | [p] => p
  | p :: ps => p ++ sep :: join sep ps
  end.

(** The options of a URI, RFC 7252 6.4, but for the port, which is left as it is. *)
Definition opt_ops (num : N) (s : option (list N)) : list op := match s with Some s => [mkop num s] | None => [] end.
Definition path_ops (path : option (list N)) : list op :=
  match path with Some path => map (mkop 11) (nonempty (pieces 47 path)) | None => [] end.
Definition query_ops (query : option (list N)) : list op :=
  match query with Some query => map (mkop 15) (nonempty (pieces 38 query)) | None => [] end.
Definition uri_ops (u : uri) : list op :=
  opt_ops 3 (u_host u) ++ opt_ops 7 (u_port u) ++ path_ops (u_path u) ++ query_ops (u_query u).

(** Schemes of CoAP, in any case. *)
Definition coap_scheme (s : list N) : Prop :=
  map upper s = [67; 79; 65; 80] \/ map upper s = [67; 79; 65; 80; 83].

(** A path that can be made into options. *)
Definition path_ok (p : option (list N)) : Prop := match p with Some p => exists t, p = 47 :: t | None => True end.
(** The pieces as part of a URI; nothing if there is none. *)
Definition listed (sep : N) (ps : list (list N)) : option (list N) := match ps with [] => None | _ => Some (join sep ps) end.
(** The options with a number, and their values. *)
Definition values (num : N) (ops : list op) : list (list N) := map o_val (filter (fun o => o_num o =? num) ops).

(** Strings of which the URI library makes the same string: no NUL, no percent sign, and no byte
    255, which is -1 if char is signed. *)
Definition uri_plain (s : list N) : Prop := bytes_ok s /\ ~ In 0 s /\ ~ In 37 s /\ ~ In 255 s.

(** Options as a message can have. *)
Definition ops_plain (ops : list op) : Prop := forall o, In o ops -> bytes_ok (o_val o) /\ lenN (o_val o) < two32 - 1.
(** The options of a request. *)
Definition req_ops (host : list N) (port : option (list N)) (segs args : list (list N)) : list op :=
  [mkop 3 host] ++ opt_ops 7 port ++ map (mkop 11) segs ++ map (mkop 15) args.
(** Requests of which the URI can be read again: no value has a character that the URI library
    decodes, nor a separator; the character at-sign, and the colon if there is no port, are taken for a part of the authority (C46);
    path and query fit the buffer. *)
Definition req_ok (host : list N) (port : option (list N)) (segs args : list (list N)) : Prop :=
  uri_plain host /\ host <> [] /\ lenN host < 256 /\ (forall p, port = Some p -> uri_plain p /\ lenN p < 256) /\
  (forall s, In s segs -> uri_plain s /\ s <> [] /\ ~ In 47 s /\ ~ In 64 s /\ (port = None -> ~ In 58 s)) /\
  (forall s, In s args -> uri_plain s /\ s <> [] /\ ~ In 38 s) /\
  lenN (concat (map (cons 47) segs)) < 255 /\ lenN (join 38 args) < 255.

(** ** Status, RFC 7252 5.9 and 12.1.2 *)

(** The response codes registered. *)
Definition registered : list (N * N) :=
  [(2, 1); (2, 2); (2, 3); (2, 4); (2, 5);
   (4, 0); (4, 1); (4, 2); (4, 3); (4, 4); (4, 5); (4, 6); (4, 12); (4, 13); (4, 15);
   (5, 0); (5, 1); (5, 2); (5, 3); (5, 4); (5, 5)].
(** The HTTP status for each: the same code if HTTP has one, else a related one; success is
    200, but for 2.03 Valid. *)
Definition http_status (class detail : N) : N :=
  if class =? 2 then (if detail =? 3 then 304 else 200) else
  if (class =? 4) && (detail =? 2) then 400 else
  if (class =? 5) && (detail =? 5) then 501 else 100 * class + detail.
(** The status of a message. *)
Definition status_of (h : hmsg) : option N := let '(_, b, _) := hm_start h in decimal_value 0 b.
Definition http_error (n : N) : Prop := 400 <= n < 600.

(** ** Headers and options *)

(** Unsigned integers in options, RFC 7252 3.2. *)
Definition uint_of (v : list N) : N := fold_left (fun a b => a * 256 + b) v 0.
Definition etag_name : list N := [69; 116; 97; 103].
Definition cache_name : list N := [67; 97; 99; 104; 101; 45; 67; 111; 110; 116; 114; 111; 108].
Definition accept_name : list N := [65; 99; 99; 101; 112; 116].
Definition text_plain : list N := [116; 101; 120; 116; 47; 112; 108; 97; 105; 110].
Definition max_age : list N := [109; 97; 120; 45; 97; 103; 101; 61].
(** Decimal numbers without leading zeros. *)
Inductive dec_of : N -> list N -> Prop :=
| dec_one d : d < 10 -> dec_of d [48 + d]
| dec_more n s d : 0 < n -> d < 10 -> dec_of n s -> dec_of (10 * n + d) (s ++ [48 + d]).

(** Headers the proxy translates both ways, with the number of the option. *)
Inductive header_as : N -> list N * list N -> Prop :=
| as_etag v : ~ In 0 v -> lenN v < 256 -> header_as 4 (etag_name, v)
| as_max_age n d : n < two32 -> dec_of n d -> header_as 14 (cache_name, max_age ++ d)
| as_accept : header_as 17 (accept_name, text_plain).

Fixpoint ascending (n : N) (ns : list N) : Prop := match ns with [] => True | k :: ns => n <= k /\ ascending k ns end.

(** A CoAP message of which the ETag options can be values of a header. *)
Definition etags_ok (ops : list op) : Prop := forall v, In v (values 4 ops) -> v = [] \/ words v.
Definition short_ops (ops : list op) : Prop := forall o, In o ops -> lenN (o_val o) < 256.

(** RFC 7230 3.3.3: the end of a response is known without closing the connection, if it has
    no body because of its status, or has a Content-Length, or is chunked. *)
Definition self_delimiting (h : hmsg) : Prop :=
  status_of h = Some 304 \/ is_chunked (hm_headers h) \/
  exists hd n, In hd (hm_headers h) /\ same_name (fst hd) content_length /\ decimal (snd hd) n /\ n = lenN (body_of h).

(** ** Requests *)
Definition method_code (a : list N) (d : N) : Prop :=
  (a = [71; 69; 84] /\ d = 1) \/ (a = [80; 79; 83; 84] /\ d = 2) \/ (a = [80; 85; 84] /\ d = 3) \/ (a = [68; 69; 76; 69; 84; 69] /\ d = 4).
(** The values of the headers with a name. *)
Definition header_values (name : list N) (hs : list (list N * list N)) : list (list N) :=
  map snd (filter (fun h => str_eq (map upper (fst h)) (map upper name)) hs).
(** The options Max-Age for a Cache-Control header: none without "max-age=", and the number
    that follows it, if one of 32 bits follows. *)
Definition age_header (v : list N) (o : list (list N)) : Prop :=
  ((forall a b, v <> a ++ max_age ++ b) -> o = []) /\
  (forall a n d b, v = a ++ max_age ++ d ++ b -> (forall a' b', a ++ max_age = a' ++ max_age ++ b' -> b' = []) ->
     dec_of n d -> n < two32 -> (forall c t, b = c :: t -> c < 48 \/ 57 < c) -> o = [d]).
Definition age_ops (hs : list (list N * list N)) (ops : list op) : Prop :=
  exists os, Forall2 age_header (header_values cache_name hs) os /\ values 14 ops = concat os.
(** The options Accept: each such header begins with "text/plain", in any case, and is the text "0". *)
Definition accept_ops (hs : list (list N * list N)) (ops : list op) : Prop :=
  values 17 ops = map (fun _ => [48]) (header_values accept_name hs) /\
  forall v, In v (header_values accept_name hs) -> exists a b, v = a ++ b /\ map upper a = map upper text_plain.
