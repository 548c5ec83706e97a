(** Property theorems for URIs (C44 to C48, C65, C85, C86). *)
From Verif Require Import Base BaseLemmas BufModel UriModel UriSpec UriLemmas UriOctetLemmas.

(** C44: the percent-encoding of a string of bytes, none of them NUL, written to a block
    large enough, is decoded to that string, whether char is signed or not. *)
Theorem C44_round_trip :
  forall sg exc s len, In exc exceptions -> bytes_ok s -> ~ In 0 s -> 3 * lenN s < len -> len < two64 ->
  exists d e, uri_encode_str (repeat 0 (N.to_nat len)) s 0 len exc = Ok (d, lenN e) /\ cstr d = Ok e /\ e = pct exc s /\
    uri_component sg true e = Ok s.
Proof. exact encode_round_trip. Qed.
Print Assumptions C44_round_trip.

(** "a/%", byte 255 and a space; the slash is kept in a path only. *)
Example C44_example :
  uri_encode_str (repeat 0 32) [97; 47; 37; 255; 32] 0 32 [47; 58; 64] =
    Ok ([97; 47; 37; 50; 53; 37; 70; 70; 37; 50; 48] ++ repeat 0 21, 11) /\
  pct [] [97; 47] = [97; 37; 50; 70] /\
  uri_component SignedChar true [37; 70; 102] = Ok [255].
Proof. vm_compute. auto. Qed.

(** C45: generating a URI in a block of at least [len] bytes touches the first [len] only, returns
    the length of the whole text, and leaves in them a prefix of the text and NULs, of
    which there is one at least; the prefix is all of the text if it is shorter than
    [len]. *)
Theorem C45_generate :
  forall u buf len, strings_ok u -> len <= lenN buf -> len < two64 -> lenN (uri_text u) < two64 ->
  exists b k, uri_generate u buf len = Ok (b, lenN (uri_text u)) /\
    b = firstn k (uri_text u) ++ repeat 0 (N.to_nat len - k) ++ skipn (N.to_nat len) buf /\
    (0 < len -> N.of_nat k < len) /\ (len = 0 -> k = 0%nat) /\ (lenN (uri_text u) < len -> k = length (uri_text u)).
Proof. exact wrote_text. Qed.
Print Assumptions C45_generate.

(** coap://u@[::1]:5/a%3F?q#f. *)
Definition uri1 : uri :=
  mkuri (Some [99; 111; 97; 112]) (Some [117]) (Some [58; 58; 49]) (Some [53]) (Some [47; 97; 63]) (Some [113]) (Some [102]).
Definition uri1_text : list N :=
  [99; 111; 97; 112; 58; 47; 47; 117; 64; 91; 58; 58; 49; 93; 58; 53; 47; 97; 37; 51; 70; 63; 113; 35; 102].
Lemma uri1_valid : uri_valid uri1 /\ no_confusion uri1.
Proof.
  unfold uri_valid, strings_ok, no_confusion, str_ok, uri1. cbn [u_scheme u_userinfo u_host u_port u_path u_query u_fragment has_authority some orb].
  assert (S : forall s, bytes_okb s = true -> existsb (N.eqb 0) s = false -> bytes_ok s /\ ~ In 0 s).
  { intros s H1 H2. split; [apply bytes_okb_spec; exact H1|]. apply existsb_neq. exact H2. }
  split; [|split; discriminate]. split; [|split; [discriminate|split; [discriminate|right; eauto]]].
  repeat (split; [apply S; reflexivity|]). apply S; reflexivity.
Qed.
Example C45_example :
  strings_ok uri1 /\ uri_text uri1 = uri1_text /\
  uri_generate uri1 (repeat 7 30) 26 = Ok (uri1_text ++ [0; 7; 7; 7; 7], 25) /\
  uri_generate uri1 (repeat 7 30) 20 = Ok (firstn 18 uri1_text ++ [0; 0] ++ repeat 7 10, 25).
Proof. split; [apply uri1_valid|]. vm_compute. auto. Qed.

(** C46, full statement: for a structure whose components are valid, the text generated is
    parsed to the structure.  False: after an authority without user information, an at
    sign in the path ends the user information; and without a port, a colon in the path
    starts one. *)
Theorem C46_at_refuted :
  exists u v, uri_valid u /\ uri_parse UnsignedChar mem_all (uri_text u) = Ok v /\ v <> u /\ u_host v <> u_host u.
Proof.
  exists (mkuri (Some [99]) None (Some [104]) None (Some [47; 97; 64; 98]) None None). eexists.
  split; [|split; [vm_compute; reflexivity|split; discriminate]].
  unfold uri_valid, strings_ok, str_ok. cbn. repeat split; try discriminate; try (apply bytes_okb_spec; reflexivity); try (intuition discriminate).
  right. eexists. reflexivity.
Qed.
Print Assumptions C46_at_refuted.
Theorem C46_colon_refuted :
  exists u v, uri_valid u /\ uri_parse UnsignedChar mem_all (uri_text u) = Ok v /\ v <> u /\ u_host v <> u_host u.
Proof.
  exists (mkuri (Some [99]) None (Some [104]) None (Some [47; 97; 58; 98]) None None). eexists.
  split; [|split; [vm_compute; reflexivity|split; discriminate]].
  unfold uri_valid, strings_ok, str_ok. cbn. repeat split; try discriminate; try (apply bytes_okb_spec; reflexivity); try (intuition discriminate).
  right. eexists. reflexivity.
Qed.
Print Assumptions C46_colon_refuted.
(** And without scheme or authority, a colon in the query ends a scheme. *)
Theorem C46_query_refuted :
  exists u v, uri_valid u /\ uri_parse UnsignedChar mem_all (uri_text u) = Ok v /\ v <> u /\ u_scheme v <> u_scheme u.
Proof.
  exists (mkuri None None None None (Some [97]) (Some [98; 58; 99]) None). eexists.
  split; [|split; [vm_compute; reflexivity|split; discriminate]].
  unfold uri_valid, strings_ok, str_ok. cbn. repeat split; try discriminate; try (apply bytes_okb_spec; reflexivity); try (intuition discriminate).
  intros _ s E. injection E as <-. apply existsb_neq. reflexivity.
Qed.
Print Assumptions C46_query_refuted.

(** C46 for the structures where this does not happen: generating the text in a buffer
    that it fits in, and parsing the string that is then in the buffer, gives the
    structure.  Missing: the structures above. *)
Theorem C46_round_trip_partial :
  forall sg u buf len b n, uri_valid u -> no_confusion u -> lenN (uri_text u) + 1 < two64 ->
  len <= lenN buf -> len < two64 -> uri_generate u buf len = Ok (b, n) -> n < len ->
  exists t, cstr b = Ok t /\ uri_parse sg mem_all t = Ok u.
Proof. exact generated_parsed. Qed.
Print Assumptions C46_round_trip_partial.

Example C46_example :
  uri_valid uri1 /\ no_confusion uri1 /\ uri_generate uri1 (repeat 7 30) 26 = Ok (uri1_text ++ [0; 7; 7; 7; 7], 25) /\
  uri_parse SignedChar mem_all uri1_text = Ok uri1.
Proof. split; [apply uri1_valid|]. split; [apply uri1_valid|]. vm_compute. auto. Qed.

(** C47, full statement: the user information, host and port of the structure are those of the authority.
    False: a URI "c://a/b@evil" has the authority "a", but the host reported is "evil". *)
Theorem C47_path_refuted :
  exists sch t path v, authority_ok None t t None /\ (forall x, In x t -> In x plain_chars) /\
    uri_parse UnsignedChar mem_all (sch ++ [58; 47; 47] ++ auth_text None t None ++ path_text (Some path) ++ tail_text None None) = Ok v /\
    u_host v = Some [101; 118; 105; 108] /\ t = [97] /\ u_userinfo v <> None.
Proof.
  exists [99], [97], [98; 64; 101; 118; 105; 108]. eexists. split; [|split; [|split; [vm_compute; reflexivity|split; [reflexivity|split; [reflexivity|discriminate]]]]].
  - split; [constructor; cbn; intros [E|[]]; discriminate|]. split; [|split; discriminate].
    intros c Hc [E|[]]. subst c. cbn in Hc. intuition discriminate.
  - intros x [<-|[]]. apply existsb_eq. reflexivity.
Qed.
Print Assumptions C47_path_refuted.

(** C47 if the path has no at sign, or there is user information, and no colon, or there
    is a port: every component is what its part of the text decodes to.  Missing: other
    paths. *)
Theorem C47_authority_partial :
  forall sg sch s ui u t h hd port p path pd q qd f fd,
  sch <> [] -> ~ In 58 sch -> nth 0 sch 0 <> 47 -> decodes sch s -> ~ In 0 s ->
  authority_ok ui t h port -> decodes h hd -> ~ In 0 hd -> decodes_opt ui u -> decodes_opt port p -> decodes_opt path pd ->
  (forall x, path = Some x -> ~ In 63 x /\ ~ In 35 x) -> decodes_opt q qd -> (forall x, q = Some x -> ~ In 35 x) -> decodes_opt f fd ->
  (ui = None -> forall x, path = Some x -> ~ In 64 x) -> (port = None -> forall x, path = Some x -> ~ In 58 x) ->
  lenN (sch ++ [58; 47; 47] ++ auth_text ui t port ++ path_text path ++ tail_text q f) + 1 < two64 ->
  uri_parse sg mem_all (sch ++ [58; 47; 47] ++ auth_text ui t port ++ path_text path ++ tail_text q f) =
    Ok (mkuri (Some s) u (if is_empty hd then None else Some hd) p (match pd with Some x => Some (47 :: x) | None => None end) qd fd).
Proof. exact authority_parsed. Qed.
Print Assumptions C47_authority_partial.

(** c://[::1]:5/b:%63@d?e. *)
Example C47_example :
  authority_ok (Some [117]) [91; 58; 58; 49; 93] [58; 58; 49] (Some [53]) /\ decodes [58; 58; 49] [58; 58; 49] /\
  decodes [98; 58; 37; 54; 51; 64; 100] [98; 58; 99; 64; 100] /\
  uri_parse SignedChar mem_all ([99] ++ [58; 47; 47] ++ auth_text (Some [117]) [91; 58; 58; 49; 93] (Some [53]) ++
    path_text (Some [98; 58; 37; 54; 51; 64; 100]) ++ tail_text (Some [101]) None) =
  Ok (mkuri (Some [99]) (Some [117]) (Some [58; 58; 49]) (Some [53]) (Some [47; 98; 58; 99; 64; 100]) (Some [101]) None).
Proof.
  split; [|split; [|split; [|vm_compute; reflexivity]]].
  - split; [apply (host_brackets [58; 58; 49]); [discriminate|apply existsb_neq; reflexivity]|].
    assert (N : forall l, forallb (fun c => negb (existsb (N.eqb c) l)) [47; 63; 35; 64] = true -> forall c, In c [47; 63; 35; 64] -> ~ In c l).
    { intros l H c Hc. rewrite forallb_forall in H. specialize (H c Hc). apply existsb_neq. destruct (existsb _ _); [discriminate|reflexivity]. }
    split; [apply N; reflexivity|]. split; intros x E; injection E as <-; apply N; reflexivity.
  - repeat (apply decodes_char; [discriminate|reflexivity|]). constructor.
  - do 2 (apply decodes_char; [discriminate|reflexivity|]). apply (decodes_octet 54 51 6 3).
    + split; [reflexivity|left; reflexivity].
    + split; [reflexivity|left; reflexivity].
    + repeat (apply decodes_char; [discriminate|reflexivity|]). constructor.
Qed.

(** C48, full statement: uri_copy gives a structure equal to the source, or -ENOMEM if
    there is no memory for one of the components.  False: a structure without scheme
    but with host is never copied; and if there is no memory for the host, the copy may
    succeed without it. *)
Theorem C48_scheme_refuted :
  exists u, strings_ok u /\ uri_copy mem_all u = Err ENOMEM.
Proof.
  exists (mkuri None None (Some [104]) None None None None). split; [|reflexivity].
  unfold strings_ok, str_ok. cbn. repeat split. apply bytes_okb_spec; reflexivity. intuition discriminate.
Qed.
Print Assumptions C48_scheme_refuted.
Theorem C48_memory_refuted :
  exists mem u v, strings_ok u /\ uri_copy mem u = Ok v /\ u_host u <> None /\ u_host v = None.
Proof.
  exists (fun k => negb (k =? 3)), (mkuri (Some [99]) None (Some [104]) None None None None). eexists.
  split; [|split; [vm_compute; reflexivity|split; [discriminate|reflexivity]]].
  unfold strings_ok, str_ok. cbn. repeat split; try (apply bytes_okb_spec; reflexivity); intuition discriminate.
Qed.
Print Assumptions C48_memory_refuted.

(** C48 for a structure with a scheme, or without host and port, if there is memory for
    the host and the port.  Missing: the cases above. *)
Theorem C48_copy_partial :
  forall mem u, (u_scheme u <> None \/ u_host u = None /\ u_port u = None) -> mem 3 = true -> mem 4 = true ->
  uri_copy mem u = if forallb mem (allocs u) then Ok u else Err ENOMEM.
Proof. exact copy_ok. Qed.
Print Assumptions C48_copy_partial.
Example C48_example :
  u_scheme uri1 <> None /\ uri_copy mem_all uri1 = Ok uri1 /\ allocs uri1 = [1; 2; 3; 4; 5; 6; 7] /\
  uri_copy (fun k => negb (k =? 6)) uri1 = Err ENOMEM.
Proof. split; [discriminate|]. vm_compute. auto. Qed.

(** C65: parsing any string of bytes, and setting a component to any string, whichever
    memory allocations fail, has no undefined behaviour, and the components are
    strings of bytes. *)
Theorem C65_parse_safe :
  forall sg mem s, bytes_ok s -> lenN s + 1 < two64 ->
  (exists u, uri_parse sg mem s = Ok u /\ strings_ok u) \/ (exists e, uri_parse sg mem s = Err e).
Proof.
  intros sg mem s H1 H2. pose proof (parse_safe sg mem s H1 H2) as H.
  destruct (uri_parse sg mem s); cbn in H; try contradiction; eauto.
Qed.
Print Assumptions C65_parse_safe.
Theorem C65_set_safe :
  forall sg mem s, bytes_ok s -> lenN s + 2 < two64 ->
  ((exists c, uri_set sg mem s = Ok c /\ bytes_ok c /\ ~ In 0 c) \/ (exists e, uri_set sg mem s = Err e)) /\
  ((exists c, uri_set_path sg mem s = Ok c /\ bytes_ok c /\ ~ In 0 c) \/ (exists e, uri_set_path sg mem s = Err e)).
Proof.
  intros sg mem s H1 H2. split.
  - pose proof (component_safe sg mem s H1 ltac:(lia)) as H. unfold uri_set. destruct (uri_component sg mem s); cbn in H; try contradiction; eauto.
  - pose proof (set_path_safe sg mem s H1 H2) as H. destruct (uri_set_path sg mem s); cbn in H; try contradiction; eauto.
Qed.
Print Assumptions C65_set_safe.
(** Octets that are cut off, not hexadecimal, or NUL: "%4", "%4g", "a%00b". *)
Example C65_example :
  uri_parse SignedChar mem_all [37; 52] = Err EBADMSG /\ uri_parse SignedChar mem_all [37; 52; 103] = Err EBADMSG /\
  uri_parse UnsignedChar mem_all [97; 37; 48; 48; 98] = Ok (mkuri None None None None (Some [97]) None None) /\
  uri_set_path SignedChar true [97] = Ok [47; 97].
Proof. vm_compute. auto. Qed.

(** C85, full statement: a string that is not an encoding of strings without NUL is not accepted, neither
    as a URI nor as a component.  False: an encoded NUL is, and ends the component, of which the rest is
    lost: the host of "c://a%00.b" is "a", the path of "a%00b" is "a". *)
Theorem C85_refuted :
  (exists s u, s = [99; 58; 47; 47; 97; 37; 48; 48; 46; 98] /\ uri_parse SignedChar mem_all s = Ok u /\ u_host u = Some [97]) /\
  (exists s, has_nul_octet s /\ s = [97; 37; 48; 48; 98] /\ uri_set UnsignedChar true s = Ok [97]).
Proof.
  split; [eexists; eexists; split; [reflexivity|split; vm_compute; reflexivity]|].
  eexists. split; [|split; [reflexivity|vm_compute; reflexivity]]. exists [97], [98]. reflexivity.
Qed.
Print Assumptions C85_refuted.

(** C85, proved: nothing is accepted in which a percent sign is not followed by two hexadecimal digits.
    Missing: encoded NULs. *)
Theorem C85_malformed_partial :
  forall sg mem s, lenN s + 1 < two64 -> ~ well_escaped s ->
  (forall u, uri_parse sg mem s <> Ok u) /\ (forall m c, uri_set sg m s <> Ok c) /\ (forall m c, uri_set_path sg m s <> Ok c).
Proof.
  intros sg mem s Hl H. repeat split; intros.
  - intro E. apply H. apply octets_escaped. eapply parse_octets; [exact Hl|exact E].
  - intro E. apply H. apply octets_escaped. eapply component_octets. exact E.
  - intro E. apply H. apply octets_escaped. eapply set_path_octets. exact E.
Qed.
Print Assumptions C85_malformed_partial.
(** "c://h/a%4" and "%g0"; "a%4F" is well formed. *)
Example C85_example :
  ~ well_escaped [99; 58; 47; 47; 104; 47; 97; 37; 52] /\ ~ well_escaped [37; 103; 48] /\ well_escaped [97; 37; 52; 70] /\
  uri_parse SignedChar mem_all [99; 58; 47; 47; 104; 47; 97; 37; 52] = Err EBADMSG /\ uri_set SignedChar true [37; 103; 48] = Err EBADMSG.
Proof.
  split; [intro H; destruct (H [99; 58; 47; 47; 104; 47; 97] [52] eq_refl) as (x & y & r & E & _); discriminate|].
  split; [intro H; destruct (H [] [103; 48] eq_refl) as (x & y & r & E & (v & Hv & Hx) & _); injection E as <- <- <-|].
  - destruct Hx as [Hx|Hx]; [|lia].
    assert (F : forallb (fun x => negb (x =? 103)) hex_digits = true) by reflexivity.
    rewrite forallb_forall in F. specialize (F _ (nth_In hex_digits 0 (n := N.to_nat v) ltac:(cbn [length hex_digits]; lia))).
    rewrite <- Hx in F. discriminate.
  - split; [|vm_compute; auto]. apply octets_escaped. apply octets_char; [discriminate|].
    apply (octets_octet 52 70 4 15); [split; [reflexivity|left; reflexivity]|split; [reflexivity|left; reflexivity]|constructor].
Qed.

(** C86: a component is set to what the string decodes to; a path gets a slash in front if the string has
    none.  Without memory the result is -ENOMEM. *)
Theorem C86_set :
  forall sg raw s, decodes raw s -> ~ In 0 s -> lenN raw + 2 < two64 ->
  uri_set sg true raw = Ok s /\
  (forall t, raw = 47 :: t -> uri_set_path sg true raw = Ok s) /\
  ((forall t, raw <> 47 :: t) -> uri_set_path sg true raw = Ok (47 :: s)) /\
  uri_set sg false raw = Err ENOMEM /\ uri_set_path sg false raw = Err ENOMEM.
Proof.
  intros sg raw s H1 H2 H3. split; [apply component_ok; [assumption|assumption|lia]|].
  pose proof (set_path_ok sg raw s H1 H2 H3) as P. split; [intros t ->; exact P|]. split; [|split; reflexivity].
  intro Hn. rewrite P. destruct raw as [|c t]; [reflexivity|]. cbn [nth]. destruct (N.eqb_spec c 47) as [->|]; [exfalso; eapply Hn; reflexivity|reflexivity].
Qed.
Print Assumptions C86_set.
(** "a%2fb", and "/". *)
Example C86_example :
  decodes [97; 37; 50; 102; 98] [97; 47; 98] /\ uri_set SignedChar true [97; 37; 50; 102; 98] = Ok [97; 47; 98] /\
  uri_set_path UnsignedChar true [97; 37; 50; 102; 98] = Ok [47; 97; 47; 98] /\ uri_set_path SignedChar true [47] = Ok [47].
Proof.
  split; [|vm_compute; auto]. apply decodes_char; [discriminate|reflexivity|].
  apply (decodes_octet 50 102 2 15); [split; [reflexivity|left; reflexivity]|split; [reflexivity|right; split; [lia|reflexivity]]|].
  apply decodes_char; [discriminate|reflexivity|constructor].
Qed.
