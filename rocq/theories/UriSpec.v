(** Specification of URIs: RFC 3986, sections 2 and 3.  The structure [uri] is that of
    the model. *)
From Verif Require Import Base UriModel.

Definition mem_all : N -> bool := fun _ => true.

(** Unreserved characters and sub-delimiters, RFC 3986 2.2 and 2.3. *)
Definition plain_chars : list N :=
  [65;66;67;68;69;70;71;72;73;74;75;76;77;78;79;80;81;82;83;84;85;86;87;88;89;90] ++
  [97;98;99;100;101;102;103;104;105;106;107;108;109;110;111;112;113;114;115;116;117;118;119;120;121;122] ++
  [48;49;50;51;52;53;54;55;56;57] ++ [45; 46; 95; 126] ++ [33; 36; 38; 39; 40; 41; 42; 43; 44; 59; 61].
Definition hex_digits : list N := [48;49;50;51;52;53;54;55;56;57;65;66;67;68;69;70].

(** Percent-encoding of every character but the plain ones and those of [exc]. *)
Definition pct1 (exc : list N) (c : N) : list N :=
  if existsb (N.eqb c) (plain_chars ++ exc) then [c]
  else [37; nth (N.to_nat (c / 16)) hex_digits 0; nth (N.to_nat (c mod 16)) hex_digits 0].
Definition pct (exc s : list N) : list N := flat_map (pct1 exc) s.

(** The exceptions used in the library: for a scheme, a host or a port; for user information or an
    IPv6 address; for a path; for a query or a fragment. *)
Definition exceptions : list (list N) := [[]; [58]; [47; 58; 64]; [63; 47; 58; 64]].

(** Hexadecimal digits, of either case. *)
Definition hex_value (c v : N) : Prop :=
  v < 16 /\ (c = nth (N.to_nat v) hex_digits 0 \/ 10 <= v /\ c = 97 + (v - 10)).

(** [decodes raw s]: [raw] is an encoding of [s]; the characters that stand for themselves are not 255, which is -1 if char is signed. *)
Inductive decodes : list N -> list N -> Prop :=
| decodes_nil : decodes [] []
| decodes_char c raw s : c <> 37 -> c < 255 -> decodes raw s -> decodes (c :: raw) (c :: s)
| decodes_octet a b h l raw s : hex_value a h -> hex_value b l -> decodes raw s ->
    decodes (37 :: a :: b :: raw) (16 * h + l :: s).

(** Every percent sign is followed by two hexadecimal digits. *)
Definition is_hex (c : N) : Prop := exists v, hex_value c v.
Definition well_escaped (s : list N) : Prop :=
  forall a b, s = a ++ 37 :: b -> exists x y r, b = x :: y :: r /\ is_hex x /\ is_hex y.
(** "%00" occurs in it. *)
Definition has_nul_octet (s : list N) : Prop := exists a b, s = a ++ [37; 48; 48] ++ b.

(** The text of a URI. *)
Definition part (pre : list N) (s : option (list N)) (exc post : list N) : list N :=
  match s with Some s => pre ++ pct exc s ++ post | None => [] end.
Definition some {A} (o : option A) : bool := match o with Some _ => true | None => false end.
Definition has_authority (u : uri) : bool := some (u_userinfo u) || some (u_host u) || some (u_port u).
Definition host_text (h : option (list N)) : list N :=
  match h with
  | Some h => if existsb (N.eqb 58) h then [91] ++ pct [58] h ++ [93] else pct [] h
  | None => []
  end.
Definition uri_text (u : uri) : list N :=
  part [] (u_scheme u) [] [58] ++
  (if has_authority u then [47; 47] else []) ++
  part [] (u_userinfo u) [58] [64] ++
  host_text (u_host u) ++
  part [58] (u_port u) [] [] ++
  part [] (u_path u) [47; 58; 64] [] ++
  part [63] (u_query u) [63; 47; 58; 64] [] ++
  part [35] (u_fragment u) [63; 47; 58; 64] [].

(** Strings. *)
Definition str_ok (s : option (list N)) : Prop := match s with Some s => bytes_ok s /\ ~ In 0 s | None => True end.
Definition strings_ok (u : uri) : Prop :=
  str_ok (u_scheme u) /\ str_ok (u_userinfo u) /\ str_ok (u_host u) /\ str_ok (u_port u) /\
  str_ok (u_path u) /\ str_ok (u_query u) /\ str_ok (u_fragment u).

(** Structures that have a text by RFC 3986, section 3: a scheme or a host is not empty;
    after an authority the path is empty or starts with a slash; without one it does
    not start with two; without scheme or authority, the first segment of the path has
    no colon. *)
Fixpoint first_segment (s : list N) : list N :=
  match s with [] => [] | c :: s => if c =? 47 then [] else c :: first_segment s end.
Definition uri_valid (u : uri) : Prop :=
  strings_ok u /\ u_scheme u <> Some [] /\ u_host u <> Some [] /\
  (if has_authority u then u_path u = None \/ exists t, u_path u = Some (47 :: t)
   else u_path u <> Some [] /\ (forall t, u_path u <> Some (47 :: 47 :: t)) /\
        (u_scheme u = None -> forall s, u_path u = Some s -> ~ In 58 (first_segment s))).

(** A character in a component. *)
Definition has (c : N) (s : option (list N)) : Prop := match s with Some s => In c s | None => False end.

(** What is needed in addition: no character of the path, the query or the fragment is
    taken for a delimiter that is missing before it. *)
Definition no_confusion (u : uri) : Prop :=
  if has_authority u then (u_userinfo u = None -> ~ has 64 (u_path u)) /\ (u_port u = None -> ~ has 58 (u_path u))
  else u_scheme u = None -> (exists t, u_path u = Some (47 :: t)) \/ ~ has 58 (u_path u) /\ ~ has 58 (u_query u) /\ ~ has 58 (u_fragment u).

(** ** Authorities, RFC 3986 3.2, as they are written *)

(** The host is an address in brackets, or has no colon. *)
Inductive host_is : list N -> list N -> Prop :=
| host_plain h : ~ In 58 h -> ~ In 91 h -> host_is h h
| host_brackets h : h <> [] -> ~ In 93 h -> host_is ([91] ++ h ++ [93]) h.
Definition auth_text (ui : option (list N)) (h : list N) (port : option (list N)) : list N :=
  match ui with Some ui => ui ++ [64] | None => [] end ++ h ++ match port with Some p => 58 :: p | None => [] end.
(** What [raw] decodes to; nothing if there is nothing. *)
Definition decodes_opt (raw s : option (list N)) : Prop :=
  match raw, s with Some raw, Some s => decodes raw s /\ ~ In 0 s | None, None => True | _, _ => False end.
Definition path_text (p : option (list N)) : list N := match p with Some p => 47 :: p | None => [] end.
Definition tail_text (q f : option (list N)) : list N :=
  match q with Some q => 63 :: q | None => [] end ++ match f with Some f => 35 :: f | None => [] end.
(** An authority of user information [ui], a host written [t], of which [h] is between
    the brackets, and a port. *)
Definition authority_ok (ui : option (list N)) (t h : list N) (port : option (list N)) : Prop :=
  host_is t h /\ (forall c, In c [47; 63; 35; 64] -> ~ In c t) /\
  (forall x, ui = Some x -> forall c, In c [47; 63; 35; 64] -> ~ In c x) /\
  (forall x, port = Some x -> forall c, In c [47; 63; 35; 64] -> ~ In c x).
Definition is_empty (s : list N) : bool := match s with [] => true | _ => false end.

(** The memory allocations that copying takes, by their numbers: one for each component. *)
Definition allocs (u : uri) : list N :=
  (if some (u_scheme u) then [1] else []) ++ (if some (u_userinfo u) then [2] else []) ++
  (if some (u_host u) then [3] else []) ++ (if some (u_port u) then [4] else []) ++
  (if some (u_path u) then [5] else []) ++ (if some (u_query u) then [6] else []) ++
  (if some (u_fragment u) then [7] else []).
