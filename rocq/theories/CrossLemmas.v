(** Lemmas on the translation between HTTP and CoAP. *)
From Verif Require Import Base BaseLemmas BufModel BufLemmas UriModel UriSpec UriLemmas HttpModel HttpSpec HttpLemmas
  MsgModel MsgSpec MsgFormatLemmas ClientModel CrossModel CrossSpec.

(** ** Pieces *)
Lemma pieces_cut sep s : match str_cut sep s with
  | Some (a, b) => pieces sep s = a :: pieces sep b /\ ~ In sep a
  | None => pieces sep s = [s] /\ ~ In sep s
  end.
Proof.
  induction s as [|c s IH]; [split; auto|]. cbn [str_cut pieces]. destruct (N.eqb_spec c sep) as [->|Hc]; [split; auto|].
  destruct (str_cut sep s) as [[a b]|]; destruct IH as [-> Hn]; (split; [reflexivity|intros [|]; [congruence|contradiction]]).
Qed.
Lemma pieces_app sep a b : ~ In sep a -> pieces sep (a ++ sep :: b) = a :: pieces sep b.
Proof.
  intro H. pose proof (pieces_cut sep (a ++ sep :: b)) as P. rewrite cut_at in P by exact H. apply P.
Qed.
Lemma pieces_one sep a : ~ In sep a -> pieces sep a = [a].
Proof. intro H. pose proof (pieces_cut sep a) as P. rewrite cut_none in P by exact H. apply P. Qed.
Lemma pieces_join sep ps : ps <> [] -> Forall (fun p => ~ In sep p) ps -> pieces sep (join sep ps) = ps.
Proof.
  intros Hn H. induction H as [|p ps Hp Hps IH]; [congruence|]. destruct ps as [|q ps].
  - apply pieces_one. exact Hp.
  - change (join sep (p :: q :: ps)) with (p ++ sep :: join sep (q :: ps)). rewrite pieces_app by exact Hp. rewrite IH by discriminate. reflexivity.
Qed.

(** ** Adding options *)
Definition adds (m : msg) (os : list op) : msg :=
  mkmsg (m_ver m) (m_type m) (m_class m) (m_detail m) (m_id m) (m_token m) (fold_left op_list_add os (m_ops m)) (m_payload m).
Lemma adds_nil m : adds m [] = m.
Proof. destruct m. reflexivity. Qed.
Lemma adds_app m a b : adds (adds m a) b = adds m (a ++ b).
Proof. unfold adds. cbn. rewrite fold_left_app. reflexivity. Qed.
Lemma add_op_adds X m num v m' : x_add_op X m num v = Ok m' -> m' = adds m [mkop num v].
Proof. unfold x_add_op, add_op. destruct (x_op _ _ _); [|discriminate]. intro E. injection E as <-. reflexivity. Qed.
Definition res_safe {A} (r : res A) : Prop := match r with Ok _ | Err _ => True | _ => False end.
Lemma add_op_safe X m num v : res_safe (x_add_op X m num v).
Proof. unfold x_add_op, add_op. destruct (x_op _ _ _); exact I. Qed.

Lemma piece_len (s : list N) : lenN s < two32 -> firstn (N.to_nat (lenN s mod two32)) s = s /\ lenN s mod two32 = lenN s.
Proof. intro H. rewrite N.mod_small by exact H. rewrite lenN_to_nat, firstn_all. auto. Qed.

Definition add_piece (X : xmem) (num : N) (m : msg) (s : list N) : res msg :=
  if 0 <? lenN s mod two32 then x_add_op X m num (firstn (N.to_nat (lenN s mod two32)) s) else Ok m.
Lemma split_adds X num sep fuel : forall str m, (length str < fuel)%nat -> lenN str < two32 ->
  res_safe (cross_split fuel X m num sep str) /\
  (forall m', cross_split fuel X m num sep str = Ok m' -> m' = adds m (map (mkop num) (nonempty (pieces sep str)))) /\
  (X = x_all -> exists m', cross_split fuel X m num sep str = Ok m').
Proof.
  induction fuel as [|fuel IH]; intros str m Hf Hl; [lia|].
  change (cross_split (S fuel) X m num sep str) with (match str_cut sep str with
    | None => add_piece X num m str | Some (a, b) => let* m := add_piece X num m a in cross_split fuel X m num sep b end).
  set (add := add_piece X num).
  assert (A : forall m s, lenN s < two32 -> res_safe (add m s) /\
    (forall m', add m s = Ok m' -> m' = adds m (map (mkop num) (nonempty [s]))) /\ (X = x_all -> exists m', add m s = Ok m')).
  { intros m0 s Hs. destruct (piece_len s Hs) as [E1 E2]. unfold add, add_piece. rewrite E1, E2. clear E1 E2. destruct s as [|c s].
    - change (0 <? @lenN N []) with false. split; [exact I|]. split; [|eauto]. intros m' E. injection E as <-. symmetry. apply adds_nil.
    - rewrite lenN_cons. destruct (N.ltb_spec 0 (lenN s + 1)); [|lia]. split; [apply add_op_safe|]. split; [apply add_op_adds|].
      intros ->. eexists. reflexivity. }
  pose proof (pieces_cut sep str) as P. destruct (str_cut sep str) as [[a b]|] eqn:E.
  - apply cut_sub in E. subst str. rewrite app_length in Hf. cbn [length] in Hf. rewrite lenN_app, lenN_cons in Hl.
    destruct P as [-> _]. change (a :: pieces sep b) with ([a] ++ pieces sep b). unfold nonempty. rewrite filter_app, map_app.
    destruct (A m a ltac:(lia)) as (A1 & A2 & A3). destruct (add m a) as [m1| | |]; cbn [bind res_safe] in *; try contradiction.
    + specialize (A2 m1 eq_refl). subst m1. destruct (IH b (adds m (map (mkop num) (nonempty [a]))) ltac:(lia) ltac:(lia)) as (B1 & B2 & B3).
      split; [exact B1|]. split; [|exact B3]. intros m' E. apply B2 in E. rewrite E, adds_app. reflexivity.
    + split; [exact I|]. split; [discriminate|]. intro HX. destruct (A3 HX). discriminate.
  - destruct P as [-> _]. apply A. exact Hl.
Qed.

(** ** URIs to options *)
Lemma coap_scheme_ok s : coap_scheme s <-> same_word s s_coap || same_word s s_coaps = true.
Proof.
  unfold coap_scheme. rewrite orb_true_iff, !same_word_spec. unfold same_name. cbn. reflexivity.
Qed.

Definition add_opt (X : xmem) (m : msg) (num : N) (s : option (list N)) : res msg :=
  match s with Some s => x_add_op X m num (firstn (N.to_nat (lenN s mod two32)) s) | None => Ok m end.
Lemma add_opt_ok X m num s : (forall x, s = Some x -> lenN x < two32) ->
  res_safe (add_opt X m num s) /\ (forall m', add_opt X m num s = Ok m' -> m' = adds m (opt_ops num s)) /\
  (X = x_all -> exists m', add_opt X m num s = Ok m').
Proof.
  intro H. destruct s as [s|]; cbn [add_opt opt_ops].
  - destruct (piece_len s (H s eq_refl)) as [-> _]. split; [apply add_op_safe|]. split; [apply add_op_adds|]. intros ->. eexists. reflexivity.
  - split; [exact I|]. split; [|eauto]. intros m' E. injection E as <-. symmetry. apply adds_nil.
Qed.

Lemma uri_sorted u : ops_sorted (uri_ops u).
Proof.
  assert (S : forall n k l r, n <= k -> ops_sorted_from k r -> ops_sorted_from n (map (mkop k) l ++ r)).
  { intros n k l r H Hr. revert n H. induction l as [|x l IH]; intros n H; cbn [map List.app].
    - destruct r as [|o r]; [exact I|]. cbn in *. split; [lia|apply Hr].
    - split; [exact H|]. apply IH. cbn. lia. }
  assert (W : forall n k r, n <= k -> ops_sorted_from k r -> ops_sorted_from n r).
  { intros n k [|o r] H; cbn; [auto|]. intros [H1 H2]. split; [lia|exact H2]. }
  assert (O : forall n k s r, n <= k -> ops_sorted_from k r -> ops_sorted_from n (opt_ops k s ++ r)).
  { intros n k [s|] r H Hr; [split; [exact H|exact Hr]|]. apply (W n k); assumption. }
  unfold ops_sorted, uri_ops. apply O; [lia|]. apply (W 3 7); [lia|]. apply O; [lia|]. apply (W 7 11); [lia|].
  assert (Q : ops_sorted_from 15 (query_ops (u_query u))).
  { unfold query_ops. destruct (u_query u); [|exact I]. rewrite <- app_nil_r. apply S; [lia|exact I]. }
  unfold path_ops. destruct (u_path u); [|apply (W 11 15); [lia|exact Q]]. apply S; [lia|]. apply (W 11 15); [lia|exact Q].
Qed.

Lemma uri_adds sg X m str u : uri_parse sg (x_uri X) str = Ok u -> lenN str < two32 - 1 -> bytes_ok str ->
  res_safe (cross_uri_http_to_coap sg X m str) /\
  (forall m', cross_uri_http_to_coap sg X m str = Ok m' ->
     u_fragment u = None /\ (exists s, u_scheme u = Some s /\ coap_scheme s) /\ path_ok (u_path u) /\ m' = adds m (uri_ops u)) /\
  (X = x_all -> u_fragment u = None -> (exists s, u_scheme u = Some s /\ coap_scheme s) -> path_ok (u_path u) ->
     exists m', cross_uri_http_to_coap sg X m str = Ok m').
Proof.
  intros Hp Hl Hb. unfold cross_uri_http_to_coap. rewrite Hp. cbn [bind].
  pose proof (parse_sized (lenN str) ltac:(unfold two32, two64 in *; lia) sg (x_uri X) str (conj Hb (N.le_refl _))) as Z.
  rewrite Hp in Z. cbn in Z. destruct Z as (_ & _ & Z3 & Z4 & Z5 & Z6 & _).
  assert (Zl : forall o, sized (lenN str) o -> forall x, o = Some x -> lenN x < two32).
  { intros o Ho x ->. destruct Ho as [_ Ho]. unfold two32 in *. lia. }
  destruct (u_fragment u) as [f|]; cbn [is_null negb].
  { split; [exact I|]. split; [discriminate|]. discriminate. }
  destruct (u_scheme u) as [s|].
  2:{ split; [exact I|]. split; [discriminate|]. intros _ _ (s & E & _). discriminate. }
  rewrite <- negb_orb. destruct (same_word s s_coap || same_word s s_coaps) eqn:Es; cbn [negb].
  2:{ split; [exact I|]. split; [discriminate|]. intros _ _ (s' & E & Hs). injection E as <-. apply coap_scheme_ok in Hs. congruence. }
  apply coap_scheme_ok in Es.
  change (match u_host u with Some s0 => x_add_op X m OP_URI_HOST (firstn (N.to_nat (lenN s0 mod two32)) s0) | None => Ok m end) with (add_opt X m 3 (u_host u)).
  destruct (add_opt_ok X m 3 (u_host u) (Zl _ Z3)) as (A1 & A2 & A3).
  destruct (add_opt X m 3 (u_host u)) as [m1| | |]; cbn [bind res_safe] in *; try contradiction.
  2:{ split; [exact I|]. split; [discriminate|]. intro HX. destruct (A3 HX). discriminate. }
  specialize (A2 m1 eq_refl). clear A1 A3.
  change (match u_port u with Some s0 => x_add_op X m1 OP_URI_PORT (firstn (N.to_nat (lenN s0 mod two32)) s0) | None => Ok m1 end) with (add_opt X m1 7 (u_port u)).
  destruct (add_opt_ok X m1 7 (u_port u) (Zl _ Z4)) as (B1 & B2 & B3).
  destruct (add_opt X m1 7 (u_port u)) as [m2| | |]; cbn [bind res_safe] in *; try contradiction.
  2:{ split; [exact I|]. split; [discriminate|]. intro HX. destruct (B3 HX). discriminate. }
  specialize (B2 m2 eq_refl). clear B1 B3.
  assert (C : forall r, r = match u_path u with None => Ok m2 | Some [] => Err EBADMSG | Some (c :: str0) =>
       if negb (c =? 47) then Err EBADMSG else cross_split (S (length str0)) X m2 OP_URI_PATH 47 str0 end ->
     res_safe r /\ (forall m', r = Ok m' -> path_ok (u_path u) /\ m' = adds m2 (path_ops (u_path u))) /\ (X = x_all -> path_ok (u_path u) -> exists m', r = Ok m')).
  { intros r ->. destruct (u_path u) as [[|c p]|]; cbn [path_ok path_ops].
    - split; [exact I|]. split; [discriminate|]. intros _ (t & E). discriminate.
    - destruct (N.eqb_spec c 47) as [->|Hc]; cbn [negb].
      2:{ split; [exact I|]. split; [discriminate|]. intros _ (t & E). injection E as -> _. congruence. }
      destruct (split_adds X OP_URI_PATH 47 (S (length p)) p m2 ltac:(lia)) as (D1 & D2 & D3).
      { pose proof (Zl _ Z5 _ eq_refl) as Q. rewrite lenN_cons in Q. lia. }
      split; [exact D1|]. split; [|intros HX _; apply D3; exact HX]. intros m' E. apply D2 in E. split; [eauto|].
      cbn [pieces]. destruct (N.eqb_spec 47 47); [|congruence]. exact E.
    - split; [exact I|]. split; [|eauto]. intros m' E. injection E as <-. split; [exact I|]. symmetry. apply adds_nil. }
  match goal with |- context [bind ?x _] => specialize (C x eq_refl); destruct x as [m3| | |] end;
    destruct C as (C1 & C2 & C3); cbn [bind res_safe] in *; try contradiction.
  2:{ split; [exact I|]. split; [discriminate|]. intros HX _ _ HP. destruct (C3 HX HP). discriminate. }
  specialize (C2 m3 eq_refl). destruct C2 as [C2 E3].
  assert (Fin : forall m', m' = adds m3 (query_ops (u_query u)) -> @None (list N) = None /\
    (exists s0, Some s = Some s0 /\ coap_scheme s0) /\ path_ok (u_path u) /\ m' = adds m (uri_ops u)).
  { intros m' ->. split; [reflexivity|]. split; [eauto|]. split; [exact C2|]. rewrite E3, B2, A2, !adds_app. unfold uri_ops. rewrite ?app_assoc. reflexivity. }
  destruct (u_query u) as [q|]; cbn [query_ops] in *.
  - destruct (split_adds X OP_URI_QUERY 38 (S (length q)) q m3 ltac:(lia) (Zl _ Z6 _ eq_refl)) as (D1 & D2 & D3).
    split; [exact D1|]. split; [intros m' E; apply Fin, D2, E|]. intros HX _ _ _. apply D3. exact HX.
  - split; [exact I|]. split; [|eauto]. intros m' E. injection E as <-. apply Fin. rewrite adds_nil. reflexivity.
Qed.

Lemma uri_options sg X m str u m' : uri_parse sg (x_uri X) str = Ok u -> lenN str < two32 - 1 -> bytes_ok str -> m_ops m = [] ->
  cross_uri_http_to_coap sg X m str = Ok m' ->
  m_ops m' = uri_ops u /\ m_payload m' = m_payload m /\ m_type m' = m_type m /\ m_class m' = m_class m /\ m_detail m' = m_detail m.
Proof.
  intros H1 H2 H3 H4 H5. destruct (uri_adds sg X m str u H1 H2 H3) as (_ & A & _). destruct (A m' H5) as (_ & _ & _ & ->).
  unfold adds. cbn. rewrite H4. rewrite adds_copy by apply uri_sorted. auto.
Qed.

(** ** The text of a URI to options *)
Lemma decodes_join sep segs dsegs : sep <> 37 -> sep < 255 -> Forall2 decodes segs dsegs -> decodes (join sep segs) (join sep dsegs).
Proof.
  intros H1 H2 H. induction H as [|a b segs dsegs Hab H IH]; [constructor|]. destruct H as [|c d segs dsegs Hcd H].
  - exact Hab.
  - change (join sep (a :: c :: segs)) with (a ++ sep :: join sep (c :: segs)). change (join sep (b :: d :: dsegs)) with (b ++ sep :: join sep (d :: dsegs)).
    apply decodes_app; [exact Hab|]. constructor; assumption.
Qed.
Lemma join_in sep ps c : In c (join sep ps) -> c = sep \/ exists p, In p ps /\ In c p.
Proof.
  induction ps as [|p ps IH]; [intros []|]. destruct ps as [|q ps]; [intro H; right; exists p; cbn; auto|].
  change (join sep (p :: q :: ps)) with (p ++ sep :: join sep (q :: ps)). intro H. apply in_app_or in H. destruct H as [H|[H|H]].
  - right. exists p. cbn. auto.
  - auto.
  - destruct (IH H) as [E|(r & H1 & H2)]; [auto|]. right. exists r. split; [right; exact H1|exact H2].
Qed.
Lemma listed_decodes sep segs dsegs : sep <> 37 -> sep < 255 -> sep <> 0 -> Forall2 decodes segs dsegs -> (forall p, In p dsegs -> ~ In 0 p) ->
  decodes_opt (listed sep segs) (listed sep dsegs).
Proof.
  intros H1 H2 H3 H Hn. pose proof (decodes_join sep _ _ H1 H2 H) as D. destruct H as [|a b segs dsegs Hab H]; [exact I|].
  cbn [listed]. cbn [decodes_opt]. split; [exact D|]. intro X. apply join_in in X. destruct X as [X|(p & X1 & X2)]; [congruence|]. apply (Hn p); assumption.
Qed.
Lemma nonempty_path segs : Forall (fun p => ~ In 47 p) segs ->
  path_ops (match listed 47 segs with Some x => Some (47 :: x) | None => None end) = map (mkop 11) (nonempty segs).
Proof.
  intro H. destruct segs as [|a segs]; [reflexivity|]. cbn [listed path_ops]. cbn [pieces].
  destruct (N.eqb_spec 47 47); [|congruence]. rewrite pieces_join by (assumption || discriminate). reflexivity.
Qed.
Lemma nonempty_query args : Forall (fun p => ~ In 38 p) args -> query_ops (listed 38 args) = map (mkop 15) (nonempty args).
Proof. intro H. destruct args as [|a args]; [reflexivity|]. cbn [listed query_ops]. rewrite pieces_join by (assumption || discriminate). reflexivity. Qed.

(** ** Decimal numbers *)
Lemma dec_from_of fuel : forall n, n < 10 ^ N.of_nat fuel -> fuel <> 0%nat -> dec_of n (dec_from fuel n).
Proof.
  induction fuel as [|fuel IH]; intros n Hn Hf; [congruence|]. cbn [dec_from]. destruct (N.ltb_spec n 10) as [H|H]; [constructor; exact H|].
  rewrite (N.div_mod n 10) at 1 by lia.
  constructor; [pose proof (N.div_str_pos n 10); lia|apply N.mod_lt; lia|]. apply IH.
  - apply N.div_lt_upper_bound; [lia|]. rewrite <- N.pow_succ_r'. replace (N.succ (N.of_nat fuel)) with (N.of_nat (S fuel)) by lia. exact Hn.
  - intros ->. cbn in Hn. lia.
Qed.
Lemma dec_text_of n : n < two64 -> dec_of n (dec_text n).
Proof. intro H. apply dec_from_of; [|discriminate]. change (10 ^ N.of_nat 20) with 100000000000000000000. unfold two64 in *. lia. Qed.
Lemma dec_of_fun n s : dec_of n s -> forall t, dec_of n t -> s = t.
Proof.
  induction 1 as [d Hd|n s d Hn Hd H IH]; intros t Ht.
  - inversion Ht; subst; [reflexivity|]. lia.
  - inversion Ht as [d' Hd'|n' s' d' Hn' Hd' H']; subst; [lia|]. assert (n' = n) by lia. subst n'. assert (d' = d) by lia. subst d'.
    rewrite (IH _ H'). reflexivity.
Qed.
Lemma decimal_app s t v : decimal_value v (s ++ t) = match decimal_value v s with Some w => decimal_value w t | None => None end.
Proof. revert v. induction s as [|c s IH]; intro v; [reflexivity|]. cbn [List.app decimal_value]. destruct (_ && _); [apply IH|reflexivity]. Qed.
Lemma dec_of_decimal n s : dec_of n s -> decimal s n.
Proof.
  assert (D : forall d v, d < 10 -> decimal_value v [48 + d] = Some (v * 10 + d)).
  { intros d v Hd. cbn [decimal_value]. destruct (N.leb_spec 48 (48 + d)); [|lia]. destruct (N.leb_spec (48 + d) 57); [|lia]. cbn [andb]. f_equal. lia. }
  induction 1 as [d Hd|n s d Hn Hd H IH]; (split; [|]).
  - discriminate.
  - rewrite D by exact Hd. reflexivity.
  - intro E. apply app_eq_nil in E. destruct E. discriminate.
  - rewrite decimal_app. destruct IH as [_ ->]. rewrite D by exact Hd. f_equal. lia.
Qed.
Lemma dec_of_digits n s : dec_of n s -> forall c, In c s -> 48 <= c <= 57.
Proof.
  induction 1 as [d Hd|n s d Hn Hd H IH]; intros c Hc.
  - destruct Hc as [<-|[]]. lia.
  - apply in_app_or in Hc. destruct Hc as [Hc|[<-|[]]]; [apply IH; exact Hc|lia].
Qed.
Lemma dec_of_nonnil n s : dec_of n s -> s <> [].
Proof. intro H. apply dec_of_decimal in H. apply H. Qed.

Lemma scan_decimal s n : decimal s n -> n < two32 -> scan_dec s = Some n.
Proof.
  intros [Hs Hd] Hn. destruct s as [|c s]; [congruence|]. pose proof (decimal_head _ _ _ _ Hd) as Hc.
  unfold scan_dec. cbn [drop_ws]. rewrite not_space by (unfold blank; lia). cbn [sign_of].
  destruct (N.eqb_spec c 45); [lia|]. destruct (N.eqb_spec c 43); [lia|].
  pose proof (decimal_digits _ 0 n Hd) as V. change (Z.of_N 0) with 0%Z in V.
  assert (D : digits_of dec_digit (c :: s) <> []).
  { cbn [digits_of]. unfold dec_digit, is_digit. destruct (N.leb_spec 48 c); [|lia]. destruct (N.leb_spec c 57); [|lia]. discriminate. }
  unfold value_of. destruct (digits_of dec_digit (c :: s)) as [|d ds]; [congruence|]. rewrite V. f_equal.
  unfold two32 in Hn. destruct (Z.ltb_spec 18446744073709551615 (Z.of_N n)); [lia|]. rewrite Z.mod_small by lia. lia.
Qed.
Lemma dec_round n d : n < two32 -> dec_of n d -> scan_dec d = Some n /\ dec_text n = d.
Proof.
  intros Hn H. split; [apply scan_decimal; [apply dec_of_decimal; exact H|exact Hn]|].
  apply (dec_of_fun n); [apply dec_text_of; unfold two32, two64 in *; lia|exact H].
Qed.

(** ** Headers there and back *)
Lemma tmp_str_in o : lenN (o_val o) < 256 -> tmp_str o = cstr (o_val o ++ [0]).
Proof. intro H. unfold tmp_str, o_len. destruct (N.ltb_spec 256 (lenN (o_val o) + 1)); [lia|reflexivity]. Qed.
Lemma header_there n h : header_as n h -> exists v,
  (forall X m hs, X = x_all -> cross_headers_http_to_coap X m (h :: hs) = cross_headers_http_to_coap X (adds m [mkop n v]) hs) /\
  (forall ops hs r, cross_headers_coap_to_http ops = (hs, r) -> cross_headers_coap_to_http (mkop n v :: ops) = (h :: hs, r)).
Proof.
  intro H. destruct H as [v H0 Hl|n d Hn Hd|].
  - exists v. split.
    + intros X m hs ->. reflexivity.
    + intros ops hs r E. cbn [cross_headers_coap_to_http]. change (o_len (mkop 4 v)) with (lenN v).
      destruct (N.leb_spec 256 (lenN v)); [lia|]. rewrite tmp_str_in by exact Hl. cbn [o_val]. rewrite cstr_ok by exact H0. change (o_num (mkop 4 v) =? OP_ETAG) with true. cbv iota.
      rewrite E. reflexivity.
  - destruct (dec_round n d Hn Hd) as [E1 E2]. exists d. split.
    + intros X m hs ->. cbn [cross_headers_http_to_coap]. change (same_word cache_name s_etag) with false.
      change (same_word cache_name s_cache_control) with true. cbv iota.
      assert (S : str_str s_max_age (max_age ++ d) = Some d) by reflexivity. rewrite S, E1, E2. reflexivity.
    + intros ops hs r E. cbn [cross_headers_coap_to_http]. change (o_len (mkop 14 d)) with (lenN d).
      assert (Hld : lenN d < 256).
      { rewrite <- E2. unfold dec_text. assert (L : forall f k, (length (dec_from f k) <= f)%nat).
        { intro f. induction f as [|f IH]; intro k; cbn [dec_from]; [cbn; lia|]. destruct (k <? 10); [cbn; lia|]. rewrite app_length. cbn. specialize (IH (k / 10)). lia. }
        specialize (L 20%nat n). unfold lenN. lia. }
      destruct (N.leb_spec 256 (lenN d)); [lia|]. rewrite tmp_str_in by exact Hld. cbn [o_val].
      rewrite cstr_ok by (intro X; apply (dec_of_digits _ _ Hd) in X; lia).
      change (o_num (mkop 14 d) =? OP_ETAG) with false. change (o_num (mkop 14 d) =? OP_MAX_AGE) with true. cbv iota.
      rewrite E, E1, E2. reflexivity.
  - exists [48]. split.
    + intros X m hs ->. reflexivity.
    + intros ops hs r E. cbn [cross_headers_coap_to_http]. change (tmp_str (mkop 17 [48])) with (@Ok (list N) [48]).
      change (256 <=? o_len (mkop 17 [48])) with false. cbv iota. rewrite E. reflexivity.
Qed.

Lemma headers_round ns hs : Forall2 header_as ns hs -> ascending 0 ns -> forall m, m_ops m = [] ->
  exists m', cross_headers_http_to_coap x_all m hs = COk m' /\ map o_num (m_ops m') = ns /\ cross_headers_coap_to_http (m_ops m') = (hs, Ok tt).
Proof.
  intro H. assert (A : exists os, map o_num os = ns /\ (forall m, cross_headers_http_to_coap x_all m hs = COk (adds m os)) /\
    cross_headers_coap_to_http os = (hs, Ok tt)).
  { induction H as [|n h ns hs Hh H IH].
    - exists []. split; [reflexivity|]. split; [intro m; rewrite adds_nil; reflexivity|reflexivity].
    - destruct IH as (os & I1 & I2 & I3). destruct (header_there n h Hh) as (v & V1 & V2). exists (mkop n v :: os).
      split; [cbn; congruence|]. split; [|apply V2; exact I3]. intro m. rewrite V1 by reflexivity. rewrite I2, adds_app. reflexivity. }
  destruct A as (os & A1 & A2 & A3). intros Hs m Hm. exists (adds m os). split; [apply A2|].
  assert (S : forall n l, ascending n (map o_num l) -> ops_sorted_from n l).
  { intros n l. revert n. induction l as [|o l IH]; intros n; cbn; [auto|]. intros [X1 X2]. split; [exact X1|apply IH; exact X2]. }
  unfold adds. cbn [m_ops]. rewrite Hm. rewrite adds_copy by (apply S; cbn [List.app]; rewrite A1; exact Hs). cbn [List.app]. auto.
Qed.

(** ** Status *)
Definition texts : list (list N * list N) :=
  flat_map (fun d => match status_success d with Some x => [x] | None => [] end ++ match status_client d with Some x => [x] | None => [] end ++
    match status_server d with Some x => [x] | None => [] end) [0; 1; 2; 3; 4; 5; 6; 12; 13; 15].
Definition text_good (bc : list N * list N) : bool :=
  let (b, c) := bc in
  forallb (fun x => (48 <=? x) && (x <=? 57)) b && (length b =? 3)%nat && negb (is_empty c) && forallb (fun x => negb (x =? 0) && negb (x =? 13)) c.
Lemma server_texts d x : status_server d = Some x -> In x texts.
Proof.
  unfold status_server. intro H. repeat match type of H with (if ?c then _ else _) = _ => destruct c eqn:? end; try discriminate; injection H as <-; cbv; tauto.
Qed.
Lemma client_texts d x : status_client d = Some x -> In x texts.
Proof.
  unfold status_client. intro H. repeat match type of H with (if ?c then _ else _) = _ => destruct c eqn:? end; try (injection H as <-; cbv; tauto).
  apply (server_texts d x H).
Qed.
Lemma success_texts d x : status_success d = Some x -> In x texts.
Proof.
  unfold status_success. intro H. repeat match type of H with (if ?c then _ else _) = _ => destruct c eqn:? end; try (injection H as <-; cbv; tauto).
  apply (client_texts d x H).
Qed.
Lemma status_text m st : cross_status m = Ok st -> exists b c, st = (s_http11, b, c) /\ text_good (b, c) = true.
Proof.
  unfold cross_status. intro H.
  set (s := if m_class m =? CL_SUCCESS then status_success (m_detail m) else if m_class m =? CL_CLIENT_ERR then status_client (m_detail m) else
    if m_class m =? CL_SERVER_ERR then status_server (m_detail m) else None) in H.
  assert (T : forall x, s = Some x -> In x texts).
  { intros x E. unfold s in E. destruct (_ =? CL_SUCCESS); [apply (success_texts _ _ E)|]. destruct (_ =? CL_CLIENT_ERR); [apply (client_texts _ _ E)|].
    destruct (_ =? CL_SERVER_ERR); [apply (server_texts _ _ E)|]. discriminate. }
  destruct s as [[b c]|]; [|discriminate]. injection H as <-. exists b, c. split; [reflexivity|]. specialize (T _ eq_refl).
  assert (G : forallb text_good texts = true) by (vm_compute; reflexivity). rewrite forallb_forall in G. apply G. exact T.
Qed.

Definition resp_status (h : hmsg) (r : option (N * errno)) : option N := match r with None => status_of h | Some (code, _) => Some code end.
Lemma resp_cases m body n h r : cross_resp_coap_to_http m body n = Ok (h, r) ->
  match r with
  | None => exists st hs, cross_status m = Ok st /\ cross_headers_coap_to_http (m_ops m) = (hs, Ok tt) /\ hm_start h = st /\
      ((0 < n /\ n <= lenN body /\ hm_body h = Some (firstn (N.to_nat n) body)) \/
       (n = 0 /\ m_payload m <> [] /\ hm_body h = Some (m_payload m)) \/ (n = 0 /\ m_payload m = [] /\ hm_body h = None)) /\
      hm_headers h = hs ++ match hm_body h with Some b => [(s_content_length, dec_text (lenN b))] | None => [] end
  | Some (code, e) => code = 502
  end.
Proof.
  unfold cross_resp_coap_to_http. destruct (cross_status m) as [st|e| |]; try discriminate.
  2:{ intro E. injection E as <- <-. reflexivity. }
  destruct (cross_headers_coap_to_http (m_ops m)) as [hs [[]|e| |]]; try discriminate.
  2:{ intro E. injection E as <- <-. reflexivity. }
  destruct (N.ltb_spec 0 n) as [Hn|Hn].
  - destruct (N.ltb_spec (lenN body) n); [discriminate|]. cbn [bind]. intro E. injection E as <- <-. exists st, hs. cbn [hm_start hm_body hm_headers].
    repeat (split; [reflexivity|]). split; [left; auto|reflexivity].
  - assert (n = 0) by lia. subst n. destruct (N.ltb_spec 0 (lenN (m_payload m))) as [Hp|Hp]; cbn [bind]; intro E; injection E as <- <-; exists st, hs; cbn [hm_start hm_body hm_headers];
      repeat (split; [reflexivity|]).
    + split; [right; left; repeat split; intro X; rewrite X in Hp; unfold lenN in Hp; cbn [length] in Hp; lia|reflexivity].
    + split; [right; right; repeat split; apply lenN_0; lia|]. rewrite app_nil_r. reflexivity.
Qed.

Lemma headers_short ops : short_ops ops -> exists hs, cross_headers_coap_to_http ops = (hs, Ok tt).
Proof.
  intro H. induction ops as [|o ops IH]; [eexists; reflexivity|]. cbn [cross_headers_coap_to_http].
  pose proof (H o (or_introl eq_refl)) as Ho. unfold o_len at 1. destruct (N.leb_spec 256 (lenN (o_val o))); [lia|].
  assert (S : exists t, cstr (o_val o ++ [0]) = Ok t).
  { generalize (o_val o). clear. intro l. induction l as [|c l [t IH]]; [eexists; reflexivity|]. cbn [List.app cstr]. destruct (c =? 0); [eauto|]. rewrite IH. eexists. reflexivity. }
  rewrite tmp_str_in by exact Ho. destruct S as [t ->]. destruct IH as [hs ->]; [intros x Hx; apply H; right; exact Hx|]. eexists. reflexivity.
Qed.

Lemma status_registered m body n : In (m_class m, m_detail m) registered -> short_ops (m_ops m) -> n <= lenN body ->
  exists h, cross_resp_coap_to_http m body n = Ok (h, None) /\ status_of h = Some (http_status (m_class m) (m_detail m)).
Proof.
  intros Hr Hs Hn. destruct (headers_short _ Hs) as [hs Hh].
  assert (St : exists b c, cross_status m = Ok (s_http11, b, c) /\ decimal_value 0 b = Some (http_status (m_class m) (m_detail m))).
  { unfold cross_status. cbn [In registered] in Hr.
    repeat (destruct Hr as [Hr|Hr]; [injection Hr as <- <-; eexists; eexists; split; reflexivity|]). contradiction. }
  destruct St as (b & c & E1 & E2). unfold cross_resp_coap_to_http. rewrite E1, Hh.
  assert (Ob : exists o, (if 0 <? n then if lenN body <? n then UB OobRead else Ok (Some (firstn (N.to_nat n) body))
     else if 0 <? lenN (m_payload m) then Ok (Some (m_payload m)) else Ok None) = Ok o).
  { destruct (0 <? n); [|destruct (0 <? lenN (m_payload m)); eauto]. destruct (N.ltb_spec (lenN body) n); [lia|eauto]. }
  destruct Ob as [o ->]. cbn [bind]. destruct o; eexists; (split; [reflexivity|exact E2]).
Qed.

Definition range_ok (lo : N) (bc : list N * list N) : bool :=
  match decimal_value 0 (fst bc) with Some n => (lo <=? n) && (n <? 600) | None => false end.
Lemma client_range d x : status_client d = Some x -> range_ok 400 x = true.
Proof.
  unfold status_client, status_server. intro H. repeat match type of H with (if ?c then _ else _) = _ => destruct c eqn:? end; try discriminate; injection H as <-; reflexivity.
Qed.
Lemma server_range d x : status_server d = Some x -> range_ok 500 x = true.
Proof.
  unfold status_server. intro H. repeat match type of H with (if ?c then _ else _) = _ => destruct c eqn:? end; try discriminate; injection H as <-; reflexivity.
Qed.
Lemma status_error m body n h r : m_class m = 4 \/ m_class m = 5 -> cross_resp_coap_to_http m body n = Ok (h, r) ->
  match r with None => exists k, status_of h = Some k /\ http_error k | Some (code, _) => http_error code end.
Proof.
  intros Hc H. apply resp_cases in H. destruct r as [[code e]|].
  { subst code. unfold http_error. lia. }
  destruct H as (st & hs & E & _ & <- & _). unfold cross_status in E. unfold status_of.
  assert (R : forall b c, range_ok 400 (b, c) = true \/ range_ok 500 (b, c) = true -> exists k, decimal_value 0 b = Some k /\ http_error k).
  { intros b c H. unfold range_ok in H. cbn [fst] in H. destruct (decimal_value 0 b) as [k|]; [|destruct H; discriminate].
    exists k. split; [reflexivity|]. unfold http_error. destruct H as [H|H]; apply andb_prop in H; destruct H as [H1 H2]; apply N.leb_le in H1; apply N.ltb_lt in H2; lia. }
  destruct Hc as [Hc|Hc]; rewrite Hc in E.
  - change (4 =? CL_SUCCESS) with false in E. change (4 =? CL_CLIENT_ERR) with true in E. cbv iota in E.
    destruct (status_client (m_detail m)) as [[b c]|] eqn:Ec; [|discriminate]. injection E as <-. apply (R b c). left. apply (client_range _ _ Ec).
  - change (5 =? CL_SUCCESS) with false in E. change (5 =? CL_CLIENT_ERR) with false in E. change (5 =? CL_SERVER_ERR) with true in E. cbv iota in E.
    destruct (status_server (m_detail m)) as [[b c]|] eqn:Ec; [|discriminate]. injection E as <-. apply (R b c). right. apply (server_range _ _ Ec).
Qed.

Lemma headers_total ops : exists hs r, cross_headers_coap_to_http ops = (hs, r) /\ match r with Ok _ | Err _ => True | _ => False end.
Proof.
  induction ops as [|o ops IH]; [eexists _, _; split; [reflexivity|exact I]|]. cbn [cross_headers_coap_to_http].
  destruct (N.leb_spec 256 (o_len o)) as [|Hl]; [eexists _, _; split; [reflexivity|exact I]|]. rewrite tmp_str_in by exact Hl.
  assert (S : exists t, cstr (o_val o ++ [0]) = Ok t).
  { generalize (o_val o). clear. intro l. induction l as [|c l [t IH]]; [eexists; reflexivity|]. cbn [List.app cstr]. destruct (c =? 0); [eauto|]. rewrite IH. eexists. reflexivity. }
  destruct S as [t ->]. destruct IH as (hs & r & -> & Hr). eexists _, r. split; [reflexivity|exact Hr].
Qed.
Lemma resp_total m body n : n <= lenN body -> exists h r, cross_resp_coap_to_http m body n = Ok (h, r).
Proof.
  intro Hn. unfold cross_resp_coap_to_http. destruct (cross_status m) as [st|e| |] eqn:Es; [|eauto|..].
  2,3: exfalso; unfold cross_status in Es; repeat (match type of Es with context [match ?x with _ => _ end] => destruct x end; try discriminate).
  destruct (headers_total (m_ops m)) as (hs & r & -> & Hr). destruct r as [u|e| |]; try contradiction; [|eauto].
  destruct (0 <? n); [destruct (N.ltb_spec (lenN body) n); [lia|]; cbn [bind]; eauto|]. destruct (0 <? lenN (m_payload m)); cbn [bind]; eauto.
Qed.

(** ** The HTTP response *)
Definition kinds : list (list N) := [etag_name; cache_name; accept_name].
Lemma word_ok w : negb (is_empty w) && forallb (fun c => negb (c =? 0) && negb (is_space c)) w = true -> words w.
Proof.
  intro H. apply andb_prop in H. destruct H as [H1 H2]. rewrite forallb_forall in H2. apply words_one; [intros ->; discriminate|].
  intros c Hc. apply H2 in Hc. rewrite andb_true_iff, !negb_true_iff, N.eqb_neq in Hc. destruct Hc as [H3 H4]. split; [exact H3|].
  intro B. apply space_blank in B. congruence.
Qed.
Lemma kind_ok k v : In k kinds -> v = [] \/ words v -> header_ok (k, v) /\ In (fst (k, v)) kinds.
Proof.
  intros Hk Hv. split; [|exact Hk]. cbn [fst snd]. split; [|split; [|exact Hv]]; destruct Hk as [<-|[<-|[<-|[]]]].
  1-3: right; apply word_ok; vm_compute; reflexivity.
  all: cbn; intuition discriminate.
Qed.
Lemma headers_ok ops : etags_ok ops -> forall hs, cross_headers_coap_to_http ops = (hs, Ok tt) ->
  Forall (fun h => header_ok h /\ In (fst h) kinds) hs /\
  map snd (filter (fun h => str_eq (fst h) etag_name) hs) = values 4 ops.
Proof.
  induction ops as [|o ops IH]; intros He hs E.
  { injection E as <-. split; [constructor|reflexivity]. }
  cbn [cross_headers_coap_to_http] in E. destruct (N.leb_spec 256 (o_len o)) as [|Hlo]; [discriminate|]. rewrite tmp_str_in in E by exact Hlo.
  destruct (cstr (o_val o ++ [0])) as [t| | |] eqn:Et; try discriminate.
  destruct (cross_headers_coap_to_http ops) as [hs' r] eqn:Er. injection E as <- ->.
  assert (He' : etags_ok ops).
  { intros v Hv. apply He. unfold values in *. cbn [filter]. destruct (o_num o =? 4); [right; exact Hv|exact Hv]. }
  destruct (IH He' hs' eq_refl) as [I1 I2].
  assert (Vt : values 4 (o :: ops) = (if o_num o =? 4 then [o_val o] else []) ++ values 4 ops).
  { unfold values. cbn [filter]. destruct (o_num o =? 4); reflexivity. }
  change (o_num o =? OP_ETAG) with (o_num o =? 4). rewrite Vt. rewrite filter_app, map_app, I2.
  destruct (N.eqb_spec (o_num o) 4) as [E4|E4].
  - assert (Hw : o_val o = [] \/ words (o_val o)) by (apply He; rewrite Vt; left; reflexivity).
    pose proof (words_no13 _ Hw) as [_ H0]. rewrite cstr_ok in Et by exact H0. injection Et as <-.
    split; [|reflexivity]. apply Forall_app. split; [|exact I1]. constructor; [apply kind_ok; [left; reflexivity|exact Hw]|constructor].
  - destruct (o_num o =? OP_MAX_AGE).
    + destruct (scan_dec t) as [n|] eqn:Es.
      2:{ split; [exact I1|reflexivity]. }
      assert (Hn : n < two64).
      { unfold scan_dec in Es. destruct (sign_of (drop_ws t)) as [ng u]. destruct (digits_of dec_digit u) as [|d ds]; [discriminate|]. injection Es as <-.
        match goal with |- Z.to_N (?z mod _) < _ => pose proof (Z.mod_pos_bound z 4294967296 ltac:(lia)) end. unfold two64. lia. }
      split; [|reflexivity]. apply Forall_app. split; [|exact I1]. constructor; [apply kind_ok; [right; left; reflexivity|]|constructor].
      right. apply words_one; [discriminate|]. intros c Hc. change (In c (max_age ++ dec_text n)) in Hc. apply in_app_or in Hc. unfold blank. destruct Hc as [Hc|Hc].
      * cbn in Hc. repeat (destruct Hc as [<-|Hc]; [split; lia|]). contradiction.
      * pose proof (dec_of_digits _ _ (dec_text_of n Hn) c Hc). split; lia.
    + destruct (o_num o =? OP_ACCEPT); [|split; [exact I1|reflexivity]]. destruct (_ && _); [|split; [exact I1|reflexivity]].
      split; [|reflexivity]. apply Forall_app. split; [|exact I1]. constructor; [apply kind_ok; [right; right; left; reflexivity|right; apply word_ok; reflexivity]|constructor].
Qed.

Lemma kinds_other (h : list N * list N) : In (fst h) kinds -> ~ same_name (fst h) content_length /\ ~ same_name (fst h) transfer_encoding.
Proof.
  intros [<-|[<-|[<-|[]]]]; split; intro E; vm_compute in E; discriminate.
Qed.

Lemma resp_message_ok m body n h : cross_resp_coap_to_http m body n = Ok (h, None) -> etags_ok (m_ops m) -> lenN (m_payload m) < two64 -> n < two64 ->
  message_ok h /\ (n = 0 -> body_of h = m_payload m) /\ (0 < n -> n <= lenN body /\ body_of h = firstn (N.to_nat n) body) /\
  map snd (filter (fun h => str_eq (fst h) etag_name) (hm_headers h)) = values 4 (m_ops m).
Proof.
  intros H He Hp Hn. apply resp_cases in H. destruct H as (st & hs & E1 & E2 & E3 & E4 & E5).
  destruct (headers_ok _ He hs E2) as [K1 K2]. rewrite Forall_forall in K1.
  assert (St : start_ok h).
  { destruct (status_text _ _ E1) as (b & c & -> & G). unfold start_ok. rewrite E3. unfold text_good in G.
    rewrite !andb_true_iff in G. destruct G as (((G1 & G2) & G3) & G4). rewrite forallb_forall in G1, G4.
    split; [discriminate|]. split; [intros ->; discriminate|]. split; [intros ->; discriminate|]. split; [cbn; intuition discriminate|].
    split; [intro X; apply G1 in X; discriminate|].
    intros x [X|[X|X]].
    - cbn in X. repeat (destruct X as [<-|X]; [split; lia|]). contradiction.
    - apply G1 in X. rewrite andb_true_iff, !N.leb_le in X. lia.
    - apply G4 in X. rewrite andb_true_iff, !negb_true_iff, !N.eqb_neq in X. exact X. }
  assert (Cl : header_ok (s_content_length, dec_text (lenN (body_of h)))).
  { split; [right; apply words_one; [discriminate|]; intros c Hc; cbn in Hc; unfold blank; repeat (destruct Hc as [<-|Hc]; [split; lia|]); contradiction|].
    split; [cbn; intuition discriminate|]. right.
    assert (Hl : lenN (body_of h) < two64).
    { unfold body_of. destruct E4 as [(F1 & F2 & ->)|[(-> & F2 & ->)|(-> & F2 & ->)]]; [unfold lenN in *; rewrite firstn_length; lia|exact Hp|reflexivity]. }
    pose proof (dec_text_of _ Hl) as D. apply words_one; [apply (dec_of_nonnil _ _ D)|]. intros c Hc. apply (dec_of_digits _ _ D) in Hc. unfold blank. split; lia. }
  assert (Nc : not_chunked hs) by (intros x Hx [X _]; apply K1 in Hx; destruct Hx as [_ Hx]; apply kinds_other in Hx; tauto).
  assert (Hd : Forall header_ok hs) by (apply Forall_forall; intros x Hx; apply K1; exact Hx).
  assert (Some_case : forall b, hm_body h = Some b -> b <> [] -> lenN b < two64 -> message_ok h).
  { intros b Eb Hne Hl. unfold body_of in Cl. rewrite Eb in *. split; [exact St|]. rewrite E5. split; [apply Forall_app; split; [exact Hd|constructor; [exact Cl|constructor]]|].
    unfold framed. rewrite E5, Eb. split.
    - intros x Hx [X Y]. apply in_app_or in Hx. destruct Hx as [Hx|[<-|[]]]; [apply (Nc x Hx); auto|vm_compute in X; discriminate].
    - split; [exact Hne|]. exists hs, (s_content_length, dec_text (lenN b)), []. split; [reflexivity|]. split; [reflexivity|].
      split; [apply dec_of_decimal, dec_text_of; exact Hl|contradiction]. }
  assert (Ev : map snd (filter (fun x => str_eq (fst x) etag_name) (hm_headers h)) = values 4 (m_ops m)).
  { rewrite E5, filter_app, map_app, K2. destruct (hm_body h); cbn; apply app_nil_r. }
  unfold body_of. destruct E4 as [(F1 & F2 & Eb)|[(-> & F2 & Eb)|(-> & F2 & Eb)]].
  - split; [apply (Some_case _ Eb); [intro X; apply (f_equal (@length N)) in X; rewrite firstn_length in X; unfold lenN in *; cbn in X; lia|unfold lenN in *; rewrite firstn_length; lia]|].
    rewrite Eb. split; [lia|]. split; [auto|exact Ev].
  - split; [apply (Some_case _ Eb F2 Hp)|]. rewrite Eb. split; [reflexivity|]. split; [lia|exact Ev].
  - split.
    + split; [exact St|]. rewrite E5, Eb, app_nil_r. split; [exact Hd|]. unfold framed. rewrite E5, Eb, app_nil_r. split; [exact Nc|].
      intros x Hx X. apply K1 in Hx. destruct Hx as [_ Hx]. apply kinds_other in Hx. tauto.
    + rewrite Eb, F2. split; [reflexivity|]. split; [lia|exact Ev].
Qed.

(** ** Options to URIs *)
Definition tmp_ok (tmp : list N) (num : N) (acc : list N) : Prop :=
  exists pad, tmp = acc ++ pad /\ lenN tmp = 256 /\ lenN acc = num /\ num <= 255 /\ bytes_ok tmp /\ (0 < num -> exists p, pad = 0 :: p).
Lemma put_mid a y b x : lenN y = lenN x -> put (a ++ y ++ b) (lenN a) x = Ok (a ++ x ++ b).
Proof.
  intro H. unfold put. destruct (N.leb_spec (lenN a + lenN x) (lenN (a ++ y ++ b))) as [_|X]; [|rewrite !lenN_app in X; lia].
  rewrite lenN_to_nat, firstn_app, firstn_all, Nat.sub_diag. cbn [firstn]. rewrite app_nil_r. do 2 f_equal. f_equal. rewrite app_assoc, skipn_app.
  assert (L : N.to_nat (lenN a + lenN x) = length (a ++ y)) by (rewrite app_length; unfold lenN in *; lia). rewrite L, skipn_all, Nat.sub_diag. reflexivity.
Qed.
Lemma split_len {A} (l : list A) n : (n <= length l)%nat -> exists a b, l = a ++ b /\ length a = n.
Proof. intro H. exists (firstn n l), (skipn n l). split; [symmetry; apply firstn_skipn|]. rewrite firstn_length. lia. Qed.

(** One round. *)
Definition piece_of (sep : N) (first : bool) (acc v : list N) : list N :=
  acc ++ (if first || negb (is_empty acc) then [sep] else []) ++ v.
Lemma join_step tmp acc num sep first v : tmp_ok tmp num acc -> lenN v + 1 <= 255 - num -> bytes_ok v -> sep < 256 ->
  (let* (tmp, num) := if first || (0 <? num) then let* tmp := store tmp num sep in Ok (tmp, add64 num 1) else Ok (tmp, num) in
   let* tmp := put tmp num v in
   let num := add64 num (lenN v) in
   let* tmp := store tmp num 0 in Ok (tmp, num)) =
  (let acc' := piece_of sep first acc v in Ok (acc' ++ 0 :: skipn (S (length acc')) tmp, lenN acc')) /\
  tmp_ok (piece_of sep first acc v ++ 0 :: skipn (S (length (piece_of sep first acc v))) tmp) (lenN (piece_of sep first acc v)) (piece_of sep first acc v).
Proof.
  intros (pad & E & L1 & L2 & L3 & Hb & Hp) Hv Bv Hs.
  assert (Lp : lenN pad = 256 - num) by (rewrite E, lenN_app in L1; lia).
  assert (Ba : bytes_ok acc /\ bytes_ok pad) by (rewrite E in Hb; apply Forall_app; exact Hb). destruct Ba as [Ba Bp].
  set (mid := if first || negb (is_empty acc) then [sep] else []).
  assert (Em : first || (0 <? num) = first || negb (is_empty acc)).
  { f_equal. rewrite <- L2. destruct acc; [reflexivity|]. rewrite lenN_cons. cbn [is_empty negb]. apply N.ltb_lt. lia. }
  assert (Lm : lenN mid <= 1) by (unfold mid; destruct (_ || _); unfold lenN; cbn [length]; lia).
  destruct (split_len pad (length mid + length v + 1)) as (x & rest & Ep & Lx); [unfold lenN in *; lia|].
  destruct (split_len x (length mid)) as (x1 & x2 & Ex & Lx1); [lia|]. destruct (split_len x2 (length v)) as (x3 & x4 & Ex2 & Lx3).
  { apply (f_equal (@length N)) in Ex. rewrite app_length in Ex. lia. }
  destruct x4 as [|z [|? ?]]; [exfalso|idtac|exfalso]; try (apply (f_equal (@length N)) in Ex, Ex2; rewrite !app_length in Ex, Ex2; cbn in Ex2; lia).
  subst x2 x pad. rewrite <- !app_assoc in E. cbn [List.app] in E.
  assert (Pc : piece_of sep first acc v = acc ++ mid ++ v) by reflexivity.
  assert (Sk : skipn (S (length (acc ++ mid ++ v))) tmp = rest).
  { assert (T : acc ++ x1 ++ x3 ++ z :: rest = (acc ++ x1 ++ x3 ++ [z]) ++ rest) by (rewrite <- !app_assoc; reflexivity).
    rewrite E, T, skipn_app. replace (S (length (acc ++ mid ++ v))) with (length (acc ++ x1 ++ x3 ++ [z])) by (rewrite !app_length; change (length [z]) with 1%nat; lia).
    rewrite skipn_all, Nat.sub_diag. reflexivity. }
  split.
  - cbv zeta. rewrite Pc, Sk, Em, E. change (if first || negb (is_empty acc) then [sep] else []) with mid. unfold mid. unfold mid in Lx1.
    assert (St : (if first || negb (is_empty acc) then let* tmp0 := store (acc ++ x1 ++ x3 ++ z :: rest) num sep in Ok (tmp0, add64 num 1) else Ok (acc ++ x1 ++ x3 ++ z :: rest, num)) =
      Ok (((acc ++ mid) ++ x3 ++ z :: rest), lenN (acc ++ mid))).
    { unfold mid. destruct (first || negb (is_empty acc)).
      - destruct x1 as [|w [|? ?]]; try (cbn in Lx1; lia). cbn [List.app]. rewrite <- L2, store_mid. cbn [bind]. rewrite add64_ok by (rewrite L2; unfold two64; lia).
        rewrite lenN_app. rewrite <- app_assoc. reflexivity.
      - destruct x1; [|cbn in Lx1; lia]. rewrite app_nil_r, L2. reflexivity. }
    rewrite St. cbn [bind]. rewrite put_mid by (unfold lenN in *; lia). cbn [bind].
    rewrite add64_ok by (rewrite lenN_app; unfold two64; lia).
    replace (lenN (acc ++ mid) + lenN v) with (lenN ((acc ++ mid) ++ v)) by apply lenN_app. rewrite (app_assoc (acc ++ mid) v), store_mid. cbn [bind].
    fold mid. rewrite <- !app_assoc. reflexivity.
  - rewrite Pc, Sk. exists (0 :: rest). split; [reflexivity|].
    assert (Lt : lenN (acc ++ x1 ++ x3 ++ z :: rest) = 256) by (rewrite <- E; exact L1). 
    split; [unfold lenN in *; rewrite !app_length in *; cbn [length] in *; lia|]. split; [reflexivity|].
    split; [rewrite !lenN_app; lia|]. split; [|eauto].
    unfold bytes_ok. rewrite !Forall_app. rewrite E in Hb. unfold bytes_ok in Hb. rewrite !Forall_app in Hb. destruct Hb as (_ & _ & _ & Hz). inversion Hz; subst.
    split; [split; [exact Ba|split; [unfold mid; destruct (_ || _); repeat constructor; exact Hs|exact Bv]]|]. constructor; [reflexivity|assumption].
Qed.

(** All rounds. *)
Definition joined (sep : N) (first : bool) (acc : list N) (vs : list (list N)) : list N := fold_left (piece_of sep first) vs acc.
Lemma joined_len sep first vs : forall acc, lenN acc <= lenN (joined sep first acc vs).
Proof.
  induction vs as [|v vs IH]; intro acc; cbn; [lia|]. specialize (IH (piece_of sep first acc v)). unfold joined in IH. unfold piece_of in *. rewrite lenN_app in IH. lia.
Qed.
Lemma tmp_join_ok opt sep first ops : ops_plain ops -> sep < 256 -> forall tmp num acc, tmp_ok tmp num acc ->
  let acc' := joined sep first acc (values opt ops) in
  (tmp_join opt sep first ops tmp num = Err ENOSPC \/
   exists tmp', tmp_join opt sep first ops tmp num = Ok (tmp', lenN acc') /\ tmp_ok tmp' (lenN acc') acc') /\
  (lenN acc' < 255 -> tmp_join opt sep first ops tmp num <> Err ENOSPC).
Proof.
  intros Ho Hs. induction ops as [|o ops IH]; intros tmp num acc Ht; cbv zeta.
  - cbn. split; [right; exists tmp; destruct Ht as (pad & T); destruct T as (T1 & T2 & T3 & T4); subst num; split; [reflexivity|exists pad; auto]|discriminate].
  - assert (Ho' : ops_plain ops) by (intros x Hx; apply Ho; right; exact Hx). specialize (IH Ho').
    destruct (Ho o (or_introl eq_refl)) as [Bv Lv].
    cbn [tmp_join]. destruct (N.eqb_spec (o_num o) opt) as [En|En].
    2:{ assert (V : values opt (o :: ops) = values opt ops) by (unfold values; cbn [filter]; destruct (N.eqb_spec (o_num o) opt); [congruence|reflexivity]).
        rewrite V. apply IH. exact Ht. }
    assert (V : values opt (o :: ops) = o_val o :: values opt ops) by (unfold values; cbn [filter]; destruct (N.eqb_spec (o_num o) opt); [reflexivity|congruence]).
    rewrite V. change (joined sep first acc (o_val o :: values opt ops)) with (joined sep first (piece_of sep first acc (o_val o)) (values opt ops)).
    assert (N255 : num <= 255 /\ lenN acc = num) by (destruct Ht as (pad & _ & _ & T1 & T2 & _); auto). destruct N255 as [N255 La].
    change (o_len o) with (lenN (o_val o)). rewrite sub64_ok by (unfold two64; lia).
    replace (add32 (lenN (o_val o)) 1) with (lenN (o_val o) + 1) by (unfold add32; rewrite N.mod_small; unfold two32 in *; lia).
    destruct (N.ltb_spec (255 - num) (lenN (o_val o) + 1)) as [Hlt|Hge].
    + split; [left; reflexivity|]. intros Hl _.
      pose proof (joined_len sep first (values opt ops) (piece_of sep first acc (o_val o))) as J. unfold piece_of at 1 in J. rewrite !lenN_app in J. lia.
    + destruct (join_step tmp acc num sep first (o_val o) Ht ltac:(lia) Bv Hs) as [E T].
      set (acc1 := piece_of sep first acc (o_val o)) in *.
      set (tmp1 := acc1 ++ 0 :: skipn (S (length acc1)) tmp) in *.
      assert (Eb : forall k : list N -> N -> res (list N * N),
        (let* (tmp, num) := if first || (0 <? num) then let* tmp := store tmp num sep in Ok (tmp, add64 num 1) else Ok (tmp, num) in
         let* tmp := put tmp num (o_val o) in let* tmp := store tmp (add64 num (lenN (o_val o))) 0 in k tmp (add64 num (lenN (o_val o)))) = k tmp1 (lenN acc1)).
      { intro k. cbv zeta in E. destruct (if first || (0 <? num) then _ else _) as [[t1 n1]| | |]; cbn [bind] in *; try discriminate.
        destruct (put t1 n1 (o_val o)) as [t2| | |]; cbn [bind] in *; try discriminate.
        destruct (store t2 _ 0) as [t3| | |]; cbn [bind] in *; try discriminate. injection E as -> ->. reflexivity. }
      cbv zeta. rewrite (Eb (fun t n => tmp_join opt sep first ops t n)). apply IH. exact T.
Qed.

Lemma tmp_cstr tmp num acc : tmp_ok tmp num acc -> 0 < num \/ tmp = repeat 0 256 -> exists s, cstr tmp = Ok s /\ bytes_ok s /\ lenN s <= 255 /\ (0 < num -> ~ In 0 acc -> s = acc).
Proof.
  intros (pad & E & L1 & L2 & L3 & Hb & Hp) H.
  assert (Z : In 0 tmp).
  { destruct H as [H| ->]; [|left; reflexivity]. destruct (Hp H) as [p ->]. rewrite E. apply in_or_app. right. left. reflexivity. }
  pose proof (cstr_safe tmp Hb Z) as S. destruct (cstr_len 0 eq_refl tmp) as [C|C]; [|rewrite C in S; contradiction].
  destruct (cstr tmp) as [s| | |] eqn:Es; cbn in S, C; try contradiction.
  2:{ exfalso. clear - Es. revert Es. assert (G : forall l x, cstr l <> Err x).
      { induction l as [|c l IH]; intros x; cbn; [discriminate|]. destruct (c =? 0); [discriminate|]. destruct (cstr l); cbn; try discriminate. intros _. apply (IH _ eq_refl). }
      apply G. }
  exists s. split; [reflexivity|]. split; [apply S|]. split; [lia|]. intros Hn H0. destruct (Hp Hn) as [p ->]. rewrite E, cstr_ok in Es by exact H0. congruence.
Qed.

Lemma tmp_copy_ok tmp o : lenN tmp = 256 -> bytes_ok tmp -> bytes_ok (o_val o) ->
  tmp_copy tmp o = Err ENOSPC \/ exists tmp' s, tmp_copy tmp o = Ok (tmp', s) /\ lenN tmp' = 256 /\ bytes_ok tmp' /\ bytes_ok s /\ lenN s <= 255 /\ (~ In 0 (o_val o) -> s = o_val o).
Proof.
  intros L Hb Hv. unfold tmp_copy. change (o_len o) with (lenN (o_val o)). destruct (N.leb_spec 256 (lenN (o_val o))) as [|Hl]; [left; reflexivity|]. right.
  destruct (split_len tmp (length (o_val o))) as (a & b & E & La); [unfold lenN in *; lia|].
  destruct b as [|z b]; [exfalso; rewrite app_nil_r in E; subst; unfold lenN in *; lia|].
  assert (E1 : put tmp 0 (o_val o) = Ok (o_val o ++ z :: b)).
  { rewrite E. apply (put_mid [] a (z :: b) (o_val o)). unfold lenN. lia. }
  rewrite E1. cbn [bind]. rewrite store_mid. cbn [bind].
  assert (Hb2 : bytes_ok (o_val o ++ 0 :: b)).
  { apply Forall_app. split; [exact Hv|]. rewrite E in Hb. apply Forall_app in Hb. destruct Hb as [_ Hb]. inversion Hb; subst. constructor; [reflexivity|assumption]. }
  assert (L2 : lenN (o_val o ++ 0 :: b) = 256) by (rewrite E in L; unfold lenN in *; rewrite app_length in *; cbn [length] in *; lia).
  assert (Tk : tmp_ok (o_val o ++ 0 :: b) (lenN (o_val o)) (o_val o)) by (exists (0 :: b); repeat split; try assumption; try lia; eauto).
  assert (C : exists s, cstr (o_val o ++ 0 :: b) = Ok s /\ bytes_ok s /\ lenN s <= 255 /\ (~ In 0 (o_val o) -> s = o_val o)).
  { destruct (o_val o) as [|c v] eqn:Ev.
    - exists []. split; [reflexivity|]. split; [constructor|]. split; [unfold lenN; cbn; lia|reflexivity].
    - destruct (tmp_cstr _ _ _ Tk) as (s & S1 & S2 & S3 & S4); [left; rewrite lenN_cons; lia|]. exists s. repeat split; try assumption. apply S4. rewrite lenN_cons. lia. }
  destruct C as (s & -> & C). cbn [bind]. eexists. exists s. split; [reflexivity|]. tauto.
Qed.

Lemma pct_len exc s : lenN (pct exc s) <= 3 * lenN s.
Proof.
  induction s as [|c s IH]; [unfold lenN; cbn; lia|]. cbn [pct flat_map]. fold (pct exc s). rewrite lenN_app, lenN_cons.
  assert (lenN (pct1 exc c) <= 3) by (unfold pct1; destruct (existsb _ _); unfold lenN; cbn [length]; lia). lia.
Qed.
Definition short (s : option (list N)) : Prop := match s with Some s => lenN s <= 257 | None => True end.
Lemma text_short u : u_userinfo u = None -> u_fragment u = None -> short (u_scheme u) -> short (u_host u) -> short (u_port u) -> short (u_path u) -> short (u_query u) ->
  lenN (uri_text u) < 4096.
Proof.
  intros E1 E2 H1 H2 H3 H4 H5. unfold uri_text. rewrite E1, E2. rewrite !lenN_app.
  assert (P : forall pre exc post s, short s -> lenN (part pre s exc post) <= lenN pre + lenN post + 771).
  { intros pre exc post [s|] H; cbn [part]; [|unfold lenN; cbn [length]; lia]. rewrite !lenN_app. pose proof (pct_len exc s). cbn in H. lia. }
  assert (Hh : lenN (host_text (u_host u)) <= 773).
  { destruct (u_host u) as [h|]; cbn [host_text]; [|unfold lenN; cbn; lia]. cbn in H2. destruct (existsb _ _).
    - rewrite !lenN_app. pose proof (pct_len [58] h). change (lenN [91]) with 1. change (lenN [93]) with 1. lia.
    - pose proof (pct_len [] h). lia. }
  pose proof (P [] [] [58] _ H1) as Q1. pose proof (P [58] [] [] _ H3) as Q3. pose proof (P [] [47; 58; 64] [] _ H4) as Q4. pose proof (P [63] [63; 47; 58; 64] [] _ H5) as Q5.
  change (@lenN N []) with 0 in *. change (lenN [58]) with 1 in *. change (lenN [63]) with 1 in *.
  assert (lenN (if has_authority u then [47; 47] else []) <= 2) by (destruct (has_authority u); unfold lenN; cbn [length]; lia).
  cbn [part]. change (@lenN N []) with 0. lia.
Qed.

Lemma set_path_sized sg mem p : bytes_ok p -> lenN p <= 255 -> safe (fun s => str_ok (Some s) /\ lenN s <= 256) (uri_set_path sg mem p).
Proof.
  intros Hp Hl. unfold uri_set_path. destruct mem; [|exact I]. cbn [negb].
  assert (F : forall d len, dest_ok len d -> len <= 257 -> 0 < len -> safe (fun s => str_ok (Some s) /\ lenN s <= 256) (cstr d)).
  { intros d len D H1 H2. pose proof (dest_cstr len d [] D (Forall_nil _) H2) as S. cbn [List.app] in S. destruct D as (D1 & _).
    destruct (cstr_len 0 eq_refl d) as [C|C]; [|rewrite C in S; contradiction]. destruct (cstr d); cbn in *; auto. split; [exact S|lia]. }
  destruct (nth 0 p 0 =? 47); cbn [negb]; rewrite (add64_ok (lenN p) 1), add64_ok by (unfold two64; lia).
  - cbn [bind]. eapply safe_bind; [apply decode_safe; try assumption; try (unfold two64; lia); apply zeros_ok; lia|]. intros [d n] Hd. cbn [fst] in Hd.
    destruct (_ <=? n); [exact I|]. apply (F d _ Hd); lia.
  - apply safe_bind with (fun r => dest_ok (lenN p + 1 + 1) (fst r) /\ snd r = 1).
    + pose proof (zeros_ok (lenN p + 1 + 1) ltac:(lia)) as Z.
      pose proof (decode_safe sg 1 _ [47] 0 _ ltac:(cbn; lia) ltac:(repeat constructor) Z ltac:(lia) ltac:(change (lenN [47]) with 1; unfold two64; lia)) as S.
      unfold uri_decode_str. change (length [47]) with 1%nat. cbn [uri_decode_from] in *.
      assert (Eo : uri_decode_octet sg [47] = (Some 47, [])) by (destruct sg; reflexivity). rewrite Eo in *.
      match goal with |- context [bind ?x _] => destruct x as [d| | |] end; cbn in S |- *; try contradiction; auto.
    + intros [d n] [Hd Hn]. cbn [fst snd] in *. subst n.
      eapply safe_bind; [apply decode_safe; try eassumption; try (unfold two64; lia)|]. intros [d' n] Hd'. cbn [fst] in Hd'.
      destruct (_ <=? n); [exact I|]. apply (F d' _ Hd'); lia.
Qed.

Definition uri_built (sg : signedness) (mem : N -> bool) (ops : list op) : res uri :=
    let tmp := repeat 0 256 in
    let* scheme := uri_set sg (mem 1) s_coaps in
    let* (tmp, host) :=
      match first_op OP_URI_HOST ops with
      | Some o => let* (tmp, s) := tmp_copy tmp o in let* h := uri_set sg (mem 3) s in Ok (tmp, Some h)
      | None => Ok (tmp, None)
      end in
    let* (tmp, port) :=
      match first_op OP_URI_PORT ops with
      | Some o => let* (tmp, s) := tmp_copy tmp o in let* h := uri_set sg (mem 4) s in Ok (tmp, Some h)
      | None => Ok (tmp, None)
      end in
    let* (tmp, num) := tmp_join OP_URI_PATH 47 true ops tmp 0 in
    let* tmp := if num =? 0 then let* tmp := store tmp 0 47 in store tmp 1 0 else Ok tmp in
    let* s := cstr tmp in
    let* path := uri_set_path sg (mem 5) s in
    let* (tmp, num) := tmp_join OP_URI_QUERY 38 false ops tmp 0 in
    let* query :=
      if 0 <? num then let* s := cstr tmp in let* q := uri_set sg (mem 6) s in Ok (Some q) else Ok None in
    Ok (mkuri (Some scheme) None host port (Some path) query None).

Lemma first_op_in num ops o : first_op num ops = Some o -> In o ops.
Proof. induction ops as [|x ops IH]; cbn; [discriminate|]. destruct (_ =? _); [intro E; injection E as ->; auto|auto]. Qed.

Lemma set_short sg mem s : bytes_ok s -> lenN s <= 255 -> safe (fun t => str_ok (Some t) /\ lenN t <= 256) (uri_set sg mem s).
Proof.
  intros H1 H2. pose proof (component_sized 255 ltac:(reflexivity) sg mem s (conj H1 H2)) as S. unfold uri_set. destruct (uri_component sg mem s); cbn in *; auto.
Qed.
Definition blk_ok (tmp : list N) : Prop := lenN tmp = 256 /\ bytes_ok tmp.
Lemma blk_tmp tmp : blk_ok tmp -> tmp_ok tmp 0 [].
Proof. intros [H1 H2]. exists tmp. split; [reflexivity|]. split; [exact H1|]. split; [reflexivity|]. split; [lia|]. split; [exact H2|lia]. Qed.
Lemma tmp_blk tmp num acc : tmp_ok tmp num acc -> blk_ok tmp.
Proof. intros (p & _ & H1 & _ & _ & H2 & _). split; assumption. Qed.

Lemma host_safe sg mem ops num tmp : ops_plain ops -> blk_ok tmp ->
  safe (fun r => blk_ok (fst r) /\ str_ok (snd r) /\ short (snd r))
    (match first_op num ops with
      | Some o => let* (tmp, s) := tmp_copy tmp o in let* h := uri_set sg mem s in Ok (tmp, Some h)
      | None => Ok (tmp, None)
      end).
Proof.
  intros Ho [T1 T2]. destruct (first_op num ops) as [o|] eqn:E; [|cbn; unfold blk_ok; auto]. apply first_op_in in E. destruct (Ho o E) as [Hv _].
  destruct (tmp_copy_ok tmp o T1 T2 Hv) as [->|(t & s & -> & H1 & H2 & H3 & H4 & _)]; [exact I|]. cbn [bind].
  eapply safe_bind; [apply set_short; assumption|]. intros h [Hh Hl]. cbn [safe fst snd]. split; [split; assumption|]. split; [exact Hh|]. cbn. lia.
Qed.

Lemma built_safe sg mem ops : ops_plain ops ->
  safe (fun u => strings_ok u /\ lenN (uri_text u) < 4096) (uri_built sg mem ops).
Proof.
  intro Ho. unfold uri_built. eapply safe_bind; [apply set_short; [repeat constructor|unfold lenN; cbn; lia]|]. intros sch [Hsch Hschl]. cbv beta iota.
  assert (B0 : blk_ok (repeat 0 256)) by (split; [reflexivity|apply Forall_forall; intros x Hx; apply repeat_spec in Hx; subst x; reflexivity]).
  eapply safe_bind; [apply host_safe; assumption|]. intros [t1 host] (B1 & H1 & L1). cbn [fst snd] in *.
  eapply safe_bind; [apply host_safe; assumption|]. intros [t2 port] (B2 & H2 & L2). cbn [fst snd] in *.
  destruct (tmp_join_ok OP_URI_PATH 47 true ops Ho ltac:(lia) t2 0 [] (blk_tmp _ B2)) as [[->|(t3 & -> & T3)] _]; [exact I|]. cbn [bind].
  set (acc := joined 47 true [] (values OP_URI_PATH ops)) in *.
  assert (P : exists t4 s, (if lenN acc =? 0 then let* tmp := store t3 0 47 in store tmp 1 0 else Ok t3) = Ok t4 /\ blk_ok t4 /\ cstr t4 = Ok s /\ bytes_ok s /\ lenN s <= 255).
  { destruct (N.eqb_spec (lenN acc) 0) as [E|E].
    - destruct (tmp_blk _ _ _ T3) as [L3 Hb3]. destruct t3 as [|a [|b t3]]; try (unfold lenN in L3; cbn in L3; lia). exists (47 :: 0 :: t3), [47].
      assert (E1 : store (a :: b :: t3) 0 47 = Ok (47 :: b :: t3)) by (apply (store_mid [] a (b :: t3) 47)).
      assert (E2 : store (47 :: b :: t3) 1 0 = Ok (47 :: 0 :: t3)) by (apply (store_mid [47] b t3 0)).
      rewrite E1. cbn [bind]. rewrite E2. split; [reflexivity|]. split; [split; [rewrite !lenN_cons in *; exact L3|]|].
      + inversion Hb3 as [|? ? ? Hb4]; subst. inversion Hb4; subst. constructor; [reflexivity|]. constructor; [reflexivity|assumption].
      + split; [reflexivity|]. split; [repeat constructor|unfold lenN; cbn; lia].
    - destruct (tmp_cstr _ _ _ T3) as (s & S1 & S2 & S3 & _); [left; lia|]. exists t3, s. split; [reflexivity|]. split; [apply (tmp_blk _ _ _ T3)|]. auto. }
  destruct P as (t4 & s & -> & B4 & Es & Bs & Ls). cbn [bind]. rewrite Es. cbn [bind].
  eapply safe_bind; [apply set_path_sized; assumption|]. intros path [Hp Lp]. cbv beta.
  destruct (tmp_join_ok OP_URI_QUERY 38 false ops Ho ltac:(lia) t4 0 [] (blk_tmp _ B4)) as [[->|(t5 & -> & T5)] _]; [exact I|]. cbn [bind].
  set (acc2 := joined 38 false [] (values OP_URI_QUERY ops)) in *.
  apply safe_bind with (fun q => str_ok q /\ short q).
  - destruct (N.ltb_spec 0 (lenN acc2)) as [E|E]; [|split; exact I].
    destruct (tmp_cstr _ _ _ T5) as (s5 & S1 & S2 & S3 & _); [left; exact E|]. rewrite S1. cbn [bind].
    eapply safe_bind; [apply set_short; assumption|]. intros q [Hq Lq]. cbn [safe]. split; [exact Hq|]. cbn. lia.
  - intros q [Hq Lq]. cbn [safe]. split; [|apply text_short; cbn [u_scheme u_userinfo u_host u_port u_path u_query u_fragment short]; auto; lia].
    unfold strings_ok. cbn [u_scheme u_userinfo u_host u_port u_path u_query u_fragment]. split; [exact Hsch|]. split; [exact I|]. split; [exact H1|].
    split; [exact H2|]. split; [exact Hp|]. split; [exact Hq|exact I].
Qed.

Lemma coap_to_http_safe sg mem ops buf len : ops_plain ops -> 0 < len -> len <= lenN buf -> lenN buf < two64 ->
  exists b r, cross_uri_coap_to_http sg mem ops buf len = Ok (b, r) /\ lenN b = lenN buf /\ skipn (N.to_nat len) b = skipn (N.to_nat len) buf /\
    (r = None -> exists u, uri_built sg mem ops = Ok u /\ strings_ok u /\ cstr (firstn (N.to_nat len) b) = Ok (uri_text u)).
Proof.
  intros Ho H0 Hl Hb. pose proof (built_safe sg mem ops Ho) as S. unfold cross_uri_coap_to_http. fold (uri_built sg mem ops).
  destruct (uri_built sg mem ops) as [u|e| |]; cbn in S; try contradiction.
  - destruct S as [Su Sl]. destruct (generate_ok u buf len Su Hl ltac:(lia) ltac:(unfold two64; lia)) as ([b n] & -> & W). cbn [bind].
    destruct W as (Wn & k & K1 & K2 & K3 & Wb). cbn [fst snd] in *. subst n. destruct K2 as [K2|]; [|lia].
    set (x := firstn k (uri_text u) ++ repeat 0 (N.to_nat len - k)).
    assert (Lx : length x = N.to_nat len) by (unfold x; rewrite app_length, firstn_length, repeat_length; lia).
    rewrite app_assoc in Wb. fold x in Wb.
    exists b. eexists. split; [reflexivity|]. split; [|split].
    + rewrite Wb, lenN_app. unfold lenN in *. rewrite Lx, skipn_length. lia.
    + rewrite Wb, skipn_app, <- Lx, skipn_all, Nat.sub_diag. reflexivity.
    + intro E. exists u. split; [reflexivity|]. split; [exact Su|]. rewrite sub64_ok in E by lia. destruct (N.ltb_spec (len - 1) (lenN (uri_text u))); [discriminate|].
      rewrite Wb, firstn_app, <- Lx, firstn_all, Nat.sub_diag. cbn [firstn]. rewrite app_nil_r. unfold x.
      rewrite K3, firstn_all by lia. replace (N.to_nat len - length (uri_text u))%nat with (S (N.to_nat len - length (uri_text u) - 1)) by (unfold lenN in *; lia).
      cbn [repeat]. apply cstr_ok. apply text_no_nul. exact Su.
  - exists buf, (Some e). split; [reflexivity|]. split; [reflexivity|]. split; [reflexivity|]. discriminate.
Qed.

Lemma coap_to_http_larger sg mem ops buf len b buf' len' : ops_plain ops -> 0 < len -> len <= lenN buf -> lenN buf < two64 ->
  cross_uri_coap_to_http sg mem ops buf len = Ok (b, None) -> len <= len' -> len' <= lenN buf' -> lenN buf' < two64 ->
  exists b', cross_uri_coap_to_http sg mem ops buf' len' = Ok (b', None) /\ cstr (firstn (N.to_nat len') b') = cstr (firstn (N.to_nat len) b).
Proof.
  intros Ho H0 Hl Hb E G0 Gl Gb.
  destruct (coap_to_http_safe sg mem ops buf len Ho H0 Hl Hb) as (b1 & r1 & E1 & _ & _ & R1).
  destruct (coap_to_http_safe sg mem ops buf' len' Ho ltac:(lia) Gl Gb) as (b2 & r2 & E2 & _ & _ & R2).
  rewrite E in E1. injection E1 as <- <-. destruct (R1 eq_refl) as (u & Eu & Su & Et).
  assert (r2 = None) as ->.
  { pose proof (built_safe sg mem ops Ho) as S. unfold cross_uri_coap_to_http in E, E2. fold (uri_built sg mem ops) in E, E2. rewrite Eu in E, E2, S. cbn [safe] in S. destruct S as [_ Sl].
    destruct (generate_ok u buf len Su Hl ltac:(lia) ltac:(unfold two64; lia)) as ([c n] & Eg & W). destruct W as [Wn _].
    destruct (generate_ok u buf' len' Su Gl ltac:(lia) ltac:(unfold two64; lia)) as ([c' n'] & Eg' & W'). destruct W' as [Wn' _]. cbn [fst snd] in *. subst n n'.
    rewrite Eg in E. rewrite Eg' in E2. cbn [bind] in E, E2. rewrite sub64_ok in E, E2 by lia.
    destruct (N.ltb_spec (len - 1) (lenN (uri_text u))); [discriminate|]. destruct (N.ltb_spec (len' - 1) (lenN (uri_text u))); [lia|]. congruence. }
  exists b2. split; [exact E2|]. destruct (R2 eq_refl) as (u' & Eu' & _ & Et'). congruence.
Qed.

(** ** There and back *)
Lemma plain_decodes s : uri_plain s -> decodes s s /\ ~ In 0 s.
Proof.
  intros (H1 & H2 & H3 & H4). split; [|exact H2]. induction H1 as [|c s Hc H IH]; [constructor|]. unfold byte_ok in Hc. constructor.
  - intros ->. apply H3. left. reflexivity.
  - assert (c <> 255) by (intros ->; apply H4; left; reflexivity). lia.
  - apply IH; intro X; [apply H2|apply H3|apply H4]; right; exact X.
Qed.
Lemma set_plain sg s : uri_plain s -> lenN s <= 255 -> uri_set sg true s = Ok s.
Proof. intros H Hl. destruct (plain_decodes s H). apply component_ok; [assumption|assumption|unfold two64; lia]. Qed.
Lemma set_path_plain sg s : uri_plain (47 :: s) -> lenN (47 :: s) <= 255 -> uri_set_path sg true (47 :: s) = Ok (47 :: s).
Proof.
  intros H Hl. rewrite <- (set_plain sg _ H Hl). unfold uri_set_path, uri_set, uri_component. change (negb (nth 0 (47 :: s) 0 =? 47)) with false. cbv iota. cbn [negb bind].
  rewrite (add64_ok (add64 _ _) 0); rewrite add64_ok by (unfold two64; lia); rewrite ?N.add_0_r; [reflexivity|unfold two64; lia].
Qed.
Lemma joined_path segs : forall acc, joined 47 true acc segs = acc ++ concat (map (cons 47) segs).
Proof.
  induction segs as [|s segs IH]; intro acc; cbn [joined fold_left map concat]; [rewrite app_nil_r; reflexivity|].
  change (fold_left (piece_of 47 true) segs (piece_of 47 true acc s)) with (joined 47 true (piece_of 47 true acc s) segs). rewrite IH. unfold piece_of. cbn [orb]. rewrite <- !app_assoc. reflexivity.
Qed.
Lemma joined_query args : forall acc, acc <> [] -> joined 38 false acc args = acc ++ concat (map (cons 38) args).
Proof.
  induction args as [|s args IH]; intros acc Ha; cbn [joined fold_left map concat]; [rewrite app_nil_r; reflexivity|].
  change (fold_left (piece_of 38 false) args (piece_of 38 false acc s)) with (joined 38 false (piece_of 38 false acc s) args). rewrite IH.
  - unfold piece_of. destruct acc; [congruence|]. cbn [orb is_empty negb]. rewrite <- !app_assoc. reflexivity.
  - unfold piece_of. destruct acc; [congruence|discriminate].
Qed.
Lemma join_concat sep p ps : join sep (p :: ps) = p ++ concat (map (cons sep) ps).
Proof.
  revert p. induction ps as [|q ps IH]; intro p; cbn [map concat]; [rewrite app_nil_r; reflexivity|].
  change (join sep (p :: q :: ps)) with (p ++ sep :: join sep (q :: ps)). rewrite IH. reflexivity.
Qed.
Lemma joined_args args : Forall (fun p => p <> []) args -> joined 38 false [] args = join 38 args.
Proof.
  intro H. destruct H as [|a args Ha H]; [reflexivity|]. rewrite join_concat. cbn [joined fold_left].
  change (fold_left (piece_of 38 false) args (piece_of 38 false [] a)) with (joined 38 false (piece_of 38 false [] a) args).
  change (piece_of 38 false [] a) with a. apply joined_query. exact Ha.
Qed.

Lemma filter_map num k (l : list (list N)) : values num (map (mkop k) l) = if k =? num then l else [].
Proof. unfold values. induction l as [|x l IH]; cbn [map filter o_num]; [destruct (_ =? _); reflexivity|]. destruct (k =? num); [cbn; rewrite IH; reflexivity|exact IH]. Qed.
Lemma values_app num a b : values num (a ++ b) = values num a ++ values num b.
Proof. unfold values. rewrite filter_app, map_app. reflexivity. Qed.
Lemma req_values host port segs args : values 11 (req_ops host port segs args) = segs /\ values 15 (req_ops host port segs args) = args.
Proof.
  unfold req_ops. rewrite !values_app, !filter_map.
  assert (P : forall n, n = 11 \/ n = 15 -> values n (opt_ops 7 port) = []) by (intros n [->| ->]; destruct port; reflexivity).
  rewrite !P by auto. cbn. rewrite app_nil_r. auto.
Qed.
Lemma req_first host port segs args : first_op 3 (req_ops host port segs args) = Some (mkop 3 host) /\
  first_op 7 (req_ops host port segs args) = match port with Some p => Some (mkop 7 p) | None => None end.
Proof.
  split; [reflexivity|]. destruct port as [p|]; [reflexivity|]. cbn [req_ops opt_ops List.app first_op o_num]. change (3 =? 7) with false. cbv iota.
  induction segs as [|s segs IH]; [|exact IH]. cbn [map List.app]. induction args as [|s args IH]; [reflexivity|exact IH].
Qed.

Definition all_plain (l : list (list N)) : Prop := Forall uri_plain l.
Lemma concat_plain sep l : sep < 255 -> sep <> 0 -> sep <> 37 -> all_plain l -> uri_plain (concat (map (cons sep) l)).
Proof.
  intros H1 H2 H3 H. induction H as [|s l Hs H IH]; [split; [constructor|cbn; tauto]|]. cbn [map concat]. unfold uri_plain in *. rewrite !in_app_iff. cbn [In].
  destruct Hs as (A1 & A2 & A3 & A4), IH as (B1 & B2 & B3 & B4). split.
  - apply Forall_app. split; [constructor; [unfold byte_ok; lia|exact A1]|exact B1].
  - split; [|split]; intros [[|]|]; try tauto; lia.
Qed.
Lemma join_plain l : all_plain l -> uri_plain (join 38 l).
Proof.
  intros H. destruct H as [|s l Hs H]; [split; [constructor|cbn; tauto]|]. rewrite join_concat. pose proof (concat_plain 38 l ltac:(lia) ltac:(lia) ltac:(lia) H) as B.
  unfold uri_plain in *. rewrite !in_app_iff. destruct Hs as (A1 & A2 & A3 & A4), B as (B1 & B2 & B3 & B4). split; [apply Forall_app; auto|tauto].
Qed.
Definition req_path (segs : list (list N)) : list N := match segs with [] => [47] | _ => concat (map (cons 47) segs) end.

Lemma built_plain sg host port segs args : uri_plain host -> lenN host < 256 -> (forall p, port = Some p -> uri_plain p /\ lenN p < 256) ->
  all_plain segs -> all_plain args -> Forall (fun p => p <> []) args ->
  lenN (concat (map (cons 47) segs)) < 255 -> lenN (join 38 args) < 255 ->
  uri_built sg mem_all (req_ops host port segs args) = Ok (mkuri (Some s_coaps) None (Some host) port (Some (req_path segs)) (listed 38 args) None).
Proof.
  intros Hh Lh Hp Hs Ha Hne Ls La.
  set (ops := req_ops host port segs args). destruct (req_values host port segs args) as [V11 V15]. destruct (req_first host port segs args) as [F3 F7]. fold ops in V11, V15, F3, F7.
  assert (Ho : ops_plain ops).
  { assert (Big : forall (sep : N) (l : list (list N)) v, In v l -> lenN v <= lenN (concat (map (cons sep) l))).
    { intros sep l v. induction l as [|x l IH]; [intros []|]. cbn [map concat]. rewrite lenN_app, lenN_cons. intros [->|H]; [lia|]. specialize (IH H). lia. }
    intros o Hin. unfold ops, req_ops in Hin. unfold two32. rewrite !in_app_iff in Hin. destruct Hin as [[<-|[]]|[Hin|[Hin|Hin]]].
    - split; [apply Hh|]. cbn [o_val]. lia.
    - destruct port as [p|]; [|contradiction]. destruct Hin as [<-|[]]. destruct (Hp p eq_refl) as [Q1 Q2]. split; [apply Q1|]. cbn [o_val]. lia.
    - apply in_map_iff in Hin. destruct Hin as (v & <- & Hv). split; [apply (proj1 (Forall_forall _ _) Hs v Hv)|]. cbn [o_val]. pose proof (Big 47 segs v Hv). lia.
    - apply in_map_iff in Hin. destruct Hin as (v & <- & Hv). split; [apply (proj1 (Forall_forall _ _) Ha v Hv)|]. cbn [o_val].
      destruct args as [|a args]; [contradiction|]. rewrite join_concat, lenN_app in La. destruct Hv as [->|Hv]; [lia|]. pose proof (Big 38 args v Hv). lia. }
  clearbody ops.
  assert (Psc : uri_plain s_coaps).
  { split; [apply bytes_okb_spec; reflexivity|]. cbn. intuition discriminate. }
  unfold uri_built. change (uri_set sg (mem_all 1) s_coaps) with (uri_set sg true s_coaps). rewrite (set_plain sg s_coaps Psc) by (unfold lenN; cbn; lia). cbn [bind].
  assert (B0 : blk_ok (repeat 0 256)) by (split; [reflexivity|apply Forall_forall; intros x Hx; apply repeat_spec in Hx; subst x; reflexivity]).
  change OP_URI_HOST with 3. change OP_URI_PORT with 7. rewrite F3, F7.
  assert (Cp : forall tmp o, blk_ok tmp -> uri_plain (o_val o) -> lenN (o_val o) < 256 -> exists t, tmp_copy tmp o = Ok (t, o_val o) /\ blk_ok t).
  { intros tmp o [B1 B2] (P1 & P2 & _) Hl. destruct (tmp_copy_ok tmp o B1 B2 P1) as [E|(t & s & E & H1 & H2 & _ & _ & H3)].
    - exfalso. unfold tmp_copy in E. unfold o_len in E. destruct (N.leb_spec 256 (lenN (o_val o))); [lia|].
      destruct (put tmp 0 (o_val o)) as [t1| | |] eqn:E1; cbn [bind] in E; try discriminate; [|unfold put in E1; destruct (_ <=? _); discriminate].
      destruct (store t1 (lenN (o_val o)) 0) as [t2| | |] eqn:E2; cbn [bind] in E; try discriminate; [|unfold store in E2; destruct (_ <? _); discriminate].
      destruct (cstr t2) as [s| | |] eqn:E3; cbn [bind] in E; try discriminate. clear - E3. revert e E3. induction t2 as [|c l IH]; intros x; cbn; [discriminate|]. destruct (c =? 0); [discriminate|]. destruct (cstr l); cbn; try discriminate. intros _. apply (IH _ eq_refl).
    - exists t. rewrite E, (H3 P2). split; [reflexivity|split; assumption]. }
  destruct (Cp (repeat 0 256) (mkop 3 host) B0 Hh Lh) as (t1 & -> & B1). cbn [bind o_val]. change (mem_all 3) with true. rewrite set_plain by (assumption || lia). cbn [bind].
  assert (Pt : exists t2, (match match port with Some p => Some (mkop 7 p) | None => None end with
      | Some o => let* (tmp, s) := tmp_copy t1 o in let* h := uri_set sg (mem_all 4) s in Ok (tmp, Some h) | None => Ok (t1, None) end) = Ok (t2, port) /\ blk_ok t2).
  { destruct port as [p|]; [|eauto]. destruct (Hp p eq_refl) as [Q1 Q2]. destruct (Cp t1 (mkop 7 p) B1 Q1 Q2) as (t2 & -> & B2). cbn [bind o_val]. change (mem_all 4) with true.
    rewrite set_plain by (assumption || lia). cbn [bind]. eauto. }
  destruct Pt as (t2 & -> & B2). cbn [bind].
  destruct (tmp_join_ok OP_URI_PATH 47 true ops Ho ltac:(lia) t2 0 [] (blk_tmp _ B2)) as [J1 J2]. change OP_URI_PATH with 11 in *. rewrite V11, joined_path in *. cbn [List.app] in *.
  specialize (J2 Ls). destruct J1 as [J1|(t3 & -> & T3)]; [contradiction|]. cbn [bind]. set (acc := concat (map (cons 47) segs)) in *.
  assert (P : exists t4, (if lenN acc =? 0 then let* tmp := store t3 0 47 in store tmp 1 0 else Ok t3) = Ok t4 /\ blk_ok t4 /\ cstr t4 = Ok (req_path segs) /\ uri_plain (req_path segs) /\ lenN (req_path segs) <= 255 /\
     exists r, req_path segs = 47 :: r).
  { destruct segs as [|s0 segs].
    - change (lenN acc =? 0) with true. cbv iota.
      destruct (tmp_blk _ _ _ T3) as [L3 Hb3]. destruct t3 as [|a [|b t3]]; try (unfold lenN in L3; cbn in L3; lia). exists (47 :: 0 :: t3).
      assert (E1 : store (a :: b :: t3) 0 47 = Ok (47 :: b :: t3)) by (apply (store_mid [] a (b :: t3) 47)).
      assert (E2 : store (47 :: b :: t3) 1 0 = Ok (47 :: 0 :: t3)) by (apply (store_mid [47] b t3 0)).
      rewrite E1. cbn [bind]. rewrite E2. split; [reflexivity|]. split; [split; [rewrite !lenN_cons in *; exact L3|]|].
      + inversion Hb3 as [|? ? ? Hb4]; subst. inversion Hb4; subst. constructor; [reflexivity|]. constructor; [reflexivity|assumption].
      + split; [reflexivity|]. split; [split; [repeat constructor|cbn; intuition discriminate]|]. split; [unfold lenN; cbn; lia|]. exists []. reflexivity.
    - assert (Ha0 : 0 < lenN acc) by (unfold acc; cbn [map concat]; rewrite lenN_app, lenN_cons; lia).
      destruct (N.eqb_spec (lenN acc) 0); [lia|]. exists t3. split; [reflexivity|]. split; [apply (tmp_blk _ _ _ T3)|].
      pose proof (concat_plain 47 _ ltac:(lia) ltac:(lia) ltac:(lia) Hs) as Pl. fold acc in Pl.
      destruct (tmp_cstr _ _ _ T3) as (s & S1 & S2 & S3 & S4); [left; lia|]. rewrite S1, S4; [|exact Ha0|apply Pl].
      split; [reflexivity|]. split; [exact Pl|]. split; [change (lenN acc <= 255); lia|]. eexists. reflexivity. }
  destruct P as (t4 & -> & B4 & Ec & Pl & Lp & r & Er). cbn [bind]. rewrite Ec. cbn [bind]. change (mem_all 5) with true.
  assert (Sp : uri_set_path sg true (req_path segs) = Ok (req_path segs)) by (rewrite Er in *; apply set_path_plain; assumption).
  rewrite Sp. cbn [bind].
  destruct (tmp_join_ok OP_URI_QUERY 38 false ops Ho ltac:(lia) t4 0 [] (blk_tmp _ B4)) as [K1 K2]. change OP_URI_QUERY with 15 in *. rewrite V15, joined_args in * by exact Hne.
  specialize (K2 La). destruct K1 as [K1|(t5 & -> & T5)]; [contradiction|]. cbn [bind].
  destruct args as [|a args].
  - change (0 <? lenN (join 38 [])) with false. reflexivity.
  - assert (L0 : 0 < lenN (join 38 (a :: args))) by (rewrite join_concat, lenN_app; inversion Hne; subst; destruct a; [congruence|rewrite lenN_cons; lia]).
    destruct (N.ltb_spec 0 (lenN (join 38 (a :: args)))); [|lia]. pose proof (join_plain _ Ha) as Pq.
    destruct (tmp_cstr _ _ _ T5) as (s & S1 & S2 & S3 & S4); [left; lia|]. rewrite S1, S4; [|exact L0|apply Pq]. cbn [bind]. change (mem_all 6) with true.
    rewrite set_plain by (assumption || lia). reflexivity.
Qed.

Lemma pct_bytes exc s : bytes_ok s -> bytes_ok (pct exc s).
Proof.
  intro H. induction H as [|c s Hc H IH]; [constructor|]. cbn [pct flat_map]. apply Forall_app. split; [|exact IH].
  unfold pct1. destruct (existsb _ _); [repeat constructor; exact Hc|].
  assert (Q : forall k, byte_ok (nth k hex_digits 0)).
  { intro k. assert (F : Forall byte_ok hex_digits) by (apply bytes_okb_spec; reflexivity). destruct (Nat.lt_ge_cases k (length hex_digits)) as [Hk|Hk].
    - apply (proj1 (Forall_forall _ _) F). apply nth_In. exact Hk.
    - rewrite nth_overflow by exact Hk. reflexivity. }
  constructor; [reflexivity|]. constructor; [apply Q|]. constructor; [apply Q|constructor].
Qed.
Lemma text_bytes u : strings_ok u -> bytes_ok (uri_text u).
Proof.
  intros (S1 & S2 & S3 & S4 & S5 & S6 & S7).
  assert (P : forall pre s exc post, str_ok s -> bytes_ok pre -> bytes_ok post -> bytes_ok (part pre s exc post)).
  { intros pre [s|] exc post Hs H1 H2; [|constructor]. cbn [part]. repeat (apply Forall_app; split); try assumption. apply pct_bytes. apply Hs. }
  assert (B : forall l, bytes_okb l = true -> bytes_ok l) by (intros l Hl; apply bytes_okb_spec; exact Hl).
  unfold uri_text, bytes_ok in *. rewrite !Forall_app. repeat split; try (apply P; [assumption|apply B; reflexivity|apply B; reflexivity]).
  - destruct (has_authority u); apply B; reflexivity.
  - destruct (u_host u) as [h|]; [|constructor]. cbn [host_text]. destruct (existsb _ _); [|apply pct_bytes, S3].
    repeat (apply Forall_app; split); try (apply B; reflexivity). apply pct_bytes, S3.
Qed.

Lemma uri_round sg host port segs args buf len m : req_ok host port segs args -> 4096 <= len -> len <= lenN buf -> lenN buf < two64 -> m_ops m = [] ->
  exists b t m', cross_uri_coap_to_http sg mem_all (req_ops host port segs args) buf len = Ok (b, None) /\ cstr (firstn (N.to_nat len) b) = Ok t /\
    cross_uri_http_to_coap sg x_all m t = Ok m' /\ m_ops m' = req_ops host port segs args.
Proof.
  intros (Q1 & Q2 & Q3 & Q4 & Q5 & Q6 & Q7 & Q8) L1 L2 L3 Hm.
  assert (Ps : all_plain segs) by (apply Forall_forall; intros s Hs; apply (Q5 s Hs)).
  assert (Pa : all_plain args) by (apply Forall_forall; intros s Hs; apply (Q6 s Hs)).
  assert (Na : Forall (fun p => p <> []) args) by (apply Forall_forall; intros s Hs; apply (Q6 s Hs)).
  pose proof (built_plain sg host port segs args Q1 Q3 Q4 Ps Pa Na Q7 Q8) as E.
  set (u := mkuri (Some s_coaps) None (Some host) port (Some (req_path segs)) (listed 38 args) None) in *.
  assert (Pp : uri_plain (req_path segs)).
  { destruct segs; [split; [apply bytes_okb_spec; reflexivity|cbn; intuition discriminate]|]. apply concat_plain; try lia. exact Ps. }
  assert (Su : strings_ok u).
  { assert (O : forall s, uri_plain s -> str_ok (Some s)) by (intros s (H1 & H2 & _); split; assumption).
    unfold strings_ok, u. cbn [u_scheme u_userinfo u_host u_port u_path u_query u_fragment].
    split; [split; [apply bytes_okb_spec; reflexivity|cbn; intuition discriminate]|]. split; [exact I|]. split; [apply O; exact Q1|].
    split; [destruct port as [p|]; [apply O, (Q4 p eq_refl)|exact I]|]. split; [apply O; exact Pp|]. split; [|exact I].
    destruct args as [|a args]; [exact I|]. apply (O (join 38 (a :: args))). apply join_plain. exact Pa. }
  assert (Hp : exists r, req_path segs = 47 :: r) by (destruct segs; eexists; reflexivity).
  assert (Rp : forall c, In c (req_path segs) -> c = 47 \/ exists s, In s segs /\ In c s).
  { intros c Hc. destruct segs as [|s0 segs]; [destruct Hc as [<-|[]]; auto|]. unfold req_path in Hc. apply in_concat in Hc. destruct Hc as (x & Hx & Hc).
    apply in_map_iff in Hx. destruct Hx as (s & <- & Hs). destruct Hc as [<-|Hc]; [auto|]. right. exists s. auto. }
  assert (Vu : uri_valid u).
  { split; [exact Su|]. split; [discriminate|]. split; [intro X; injection X as X; congruence|]. change (has_authority u) with true. cbv iota.
    right. destruct Hp as [r Hr]. exists r. cbn. rewrite Hr. reflexivity. }
  assert (Nu : no_confusion u).
  { unfold no_confusion. change (has_authority u) with true. cbv iota. split.
    - intros _ X. apply Rp in X. destruct X as [X|(s & Hs & Hc)]; [discriminate|]. destruct (Q5 s Hs) as (_ & _ & _ & H & _). contradiction.
    - intros Hn X. apply Rp in X. destruct X as [X|(s & Hs & Hc)]; [discriminate|]. destruct (Q5 s Hs) as (_ & _ & _ & _ & H). apply (H Hn). exact Hc. }
  assert (Ops : ops_plain (req_ops host port segs args) /\ lenN (uri_text u) < 4096).
  { pose proof I as _. split.
    - assert (Big : forall (sep : N) (l : list (list N)) v, In v l -> lenN v <= lenN (concat (map (cons sep) l))).
      { intros sep l v. induction l as [|x l IH]; [intros []|]. cbn [map concat]. rewrite lenN_app, lenN_cons. intros [->|H]; [lia|]. specialize (IH H). lia. }
      intros o Hin. unfold req_ops in Hin. unfold two32. rewrite !in_app_iff in Hin. destruct Hin as [[<-|[]]|[Hin|[Hin|Hin]]].
      + split; [apply Q1|]. cbn [o_val]. lia.
      + destruct port as [p|]; [|contradiction]. destruct Hin as [<-|[]]. destruct (Q4 p eq_refl) as [X1 X2]. split; [apply X1|]. cbn [o_val]. lia.
      + apply in_map_iff in Hin. destruct Hin as (v & <- & Hv). split; [apply (Q5 v Hv)|]. cbn [o_val]. pose proof (Big 47 segs v Hv). lia.
      + apply in_map_iff in Hin. destruct Hin as (v & <- & Hv). split; [apply (Q6 v Hv)|]. cbn [o_val].
        destruct args as [|a args]; [contradiction|]. rewrite join_concat, lenN_app in Q8. destruct Hv as [->|Hv]; [lia|]. pose proof (Big 38 args v Hv). lia.
    - apply text_short; try reflexivity; unfold u; cbn [u_scheme u_host u_port u_path u_query short]; try lia.
      + unfold lenN; cbn; lia.
      + destruct port as [p|]; [|exact I]. destruct (Q4 p eq_refl). cbn. lia.
      + destruct segs; [unfold lenN; cbn; lia|]. change (lenN (concat (map (cons 47) (l :: segs))) <= 257). lia.
      + destruct args; [exact I|]. cbn [listed short]. lia. }
  destruct Ops as [Ops Lt].
  destruct (coap_to_http_safe sg mem_all _ buf len Ops ltac:(lia) L2 L3) as (b & r & Ec & _ & _ & R).
  assert (r = None).
  { unfold cross_uri_coap_to_http in Ec. fold (uri_built sg mem_all (req_ops host port segs args)) in Ec. rewrite E in Ec.
    destruct (generate_ok u buf len Su L2 ltac:(lia) ltac:(unfold two64; lia)) as ([b2 n] & Eg & W & _). rewrite Eg in Ec. cbn [bind snd] in *. subst n. injection Ec as _ <-.
    rewrite sub64_ok by lia. destruct (N.ltb_spec (len - 1) (lenN (uri_text u))); [lia|reflexivity]. }
  subst r. destruct (R eq_refl) as (u' & Eu & _ & Et). rewrite E in Eu. injection Eu as <-.
  exists b, (uri_text u). pose proof (parse_generated sg u Vu Nu ltac:(unfold two64; lia)) as Pg.
  assert (Lt2 : lenN (uri_text u) < two32 - 1) by (unfold two32; lia).
  destruct (uri_adds sg x_all m (uri_text u) u Pg Lt2 (text_bytes u Su)) as (_ & _ & A).
  destruct A as (m' & Em); [reflexivity|reflexivity|exists s_coaps; split; [reflexivity|right; reflexivity]| |].
  { destruct Hp as [rr Hr]. cbn. exists rr. exact Hr. }
  exists m'. split; [exact Ec|]. split; [exact Et|]. split; [exact Em|].
  destruct (uri_options sg x_all m (uri_text u) u m' Pg Lt2 (text_bytes u Su) Hm Em) as [-> _].
  unfold uri_ops, u, req_ops. cbn [u_host u_port u_path u_query opt_ops].
  assert (Ne : forall l, (forall s : list N, In s l -> s <> []) -> nonempty l = l).
  { intros l Hl. induction l as [|s l IH]; [reflexivity|]. cbn [nonempty filter]. destruct s; [exfalso; apply (Hl []); [left|]; reflexivity|]. cbn [is_empty negb]. f_equal. apply IH. intros x Hx. apply Hl. right. exact Hx. }
  do 2 f_equal. f_equal.
  - unfold path_ops. f_equal. destruct segs as [|s0 segs]; [reflexivity|].
    assert (Ej : req_path (s0 :: segs) = 47 :: join 47 (s0 :: segs)) by (rewrite join_concat; reflexivity). rewrite Ej. cbn [pieces].
    destruct (N.eqb_spec 47 47); [|congruence]. rewrite pieces_join; [|discriminate|apply Forall_forall; intros s Hs; apply (Q5 s Hs)].
    change (nonempty ([] :: s0 :: segs)) with (nonempty (s0 :: segs)). apply Ne. intros s Hs. apply (Q5 s Hs).
  - rewrite nonempty_query by (apply Forall_forall; intros s Hs; apply (Q6 s Hs)). f_equal. apply Ne. intros s Hs. apply (Q6 s Hs).
Qed.

(** The text of a URI, with segments and arguments encoded. *)
Lemma uri_text_options sg X m sch s t h hd port p segs dsegs args dargs m' :
  x_uri X = mem_all -> m_ops m = [] -> sch <> [] -> ~ In 58 sch -> nth 0 sch 0 <> 47 -> decodes sch s -> ~ In 0 s ->
  authority_ok None t h port -> decodes h hd -> ~ In 0 hd -> decodes_opt port p ->
  Forall2 decodes segs dsegs -> (forall x, In x segs -> forall c, In c [47; 63; 35; 64] -> ~ In c x) -> (port = None -> forall x, In x segs -> ~ In 58 x) ->
  (forall x, In x dsegs -> ~ In 0 x /\ ~ In 47 x) ->
  Forall2 decodes args dargs -> (forall x, In x args -> ~ In 35 x) -> (forall x, In x dargs -> ~ In 0 x /\ ~ In 38 x) ->
  let str := sch ++ [58; 47; 47] ++ auth_text None t port ++ path_text (listed 47 segs) ++ tail_text (listed 38 args) None in
  lenN str < two32 - 1 -> bytes_ok str ->
  cross_uri_http_to_coap sg X m str = Ok m' ->
  m_ops m' = opt_ops 3 (if is_empty hd then None else Some hd) ++ opt_ops 7 p ++ map (mkop 11) (nonempty dsegs) ++ map (mkop 15) (nonempty dargs).
Proof.
  intros HX Hm H1 H2 H3 H4 H5 H6 H7 H8 H9 S1 S2 S3 S4 A1 A2 A3 str Hl Hb Hc.
  assert (Ls : forall x, listed 47 segs = Some x -> forall c, In c x -> c = 47 \/ exists y, In y segs /\ In c y).
  { intros x E c Hin. destruct segs; [discriminate|]. injection E as <-. apply join_in. exact Hin. }
  assert (P : uri_parse sg mem_all str = Ok (mkuri (Some s) None (if is_empty hd then None else Some hd) p
     (match listed 47 dsegs with Some x => Some (47 :: x) | None => None end) (listed 38 dargs) None)).
  { apply (authority_parsed sg sch s None None t h hd port p (listed 47 segs) (listed 47 dsegs) (listed 38 args) (listed 38 dargs) None None); try assumption; try exact I.
    - apply listed_decodes; try lia; [exact S1|]. intros x Hx. apply (S4 x Hx).
    - intros x E. split; intro X0; apply (Ls x E) in X0; (destruct X0 as [X0|(y & Y1 & Y2)]; [discriminate|]); revert Y2; apply (S2 y Y1); cbn; tauto.
    - apply listed_decodes; try lia; [exact A1|]. intros x Hx. apply (A3 x Hx).
    - intros x E X0. destruct args as [|a0 args]; [discriminate|]. injection E as <-. change (In 35 (join 38 (a0 :: args))) in X0. apply join_in in X0. destruct X0 as [X0|(y & Y1 & Y2)]; [discriminate|]. apply (A2 y Y1 Y2).
    - intros _ x E X0. apply (Ls x E) in X0. destruct X0 as [X0|(y & Y1 & Y2)]; [discriminate|]. apply (S2 y Y1 64 ltac:(cbn; tauto) Y2).
    - intros Hp x E X0. apply (Ls x E) in X0. destruct X0 as [X0|(y & Y1 & Y2)]; [discriminate|]. apply (S3 Hp y Y1 Y2).
    - fold str. unfold two32, two64 in *. lia. }
  rewrite <- HX in P. destruct (uri_options sg X m str _ m' P Hl Hb Hm Hc) as [-> _]. unfold uri_ops. cbn [u_host u_port u_path u_query].
  rewrite nonempty_path, nonempty_query; [reflexivity| |]; apply Forall_forall; intros x Hx; [apply (A3 x Hx)|apply (S4 x Hx)].
Qed.

(** ** Requests *)
Definition cres_safe {A} (r : cres A) : Prop := match r with COk _ => True | CErr code _ => http_error code | _ => False end.
Lemma values_add num l o : ops_sorted l -> values num (op_list_add l o) = values num l ++ (if o_num o =? num then [o_val o] else []).
Proof.
  intro H. destruct (op_list_add_spec l o H) as [_ (l1 & l2 & -> & -> & F1 & F2)]. rewrite !values_app. unfold values at 2. cbn [filter].
  destruct (N.eqb_spec (o_num o) num) as [E|E]; [|rewrite app_nil_r; reflexivity]. cbn [map]. fold (values num l2).
  assert (Z : values num l2 = []).
  { clear - E F2. induction F2 as [|x l2 Hx F IH]; [reflexivity|]. unfold values. cbn [filter]. destruct (N.eqb_spec (o_num x) num); [lia|exact IH]. }
  rewrite Z, app_nil_r. reflexivity.
Qed.
Lemma values_none num l : (forall o, In o l -> o_num o <> num) -> values num l = [].
Proof.
  induction l as [|o l IH]; intro H; [reflexivity|]. unfold values. cbn [filter]. destruct (N.eqb_spec (o_num o) num) as [E|E]; [destruct (H o (or_introl eq_refl) E)|].
  apply IH. intros x Hx. apply H. right. exact Hx.
Qed.
Lemma strip_prefix_some p s t : strip_prefix p s = Some t -> s = p ++ t.
Proof.
  revert s. induction p as [|a p IH]; intros s H; [injection H as ->; reflexivity|]. destruct s as [|b s]; [discriminate|]. cbn [strip_prefix] in H.
  destruct (N.eqb_spec a b) as [->|]; [|discriminate]. cbn [List.app]. rewrite (IH _ H). reflexivity.
Qed.
Lemma strip_prefix_app p t : strip_prefix p (p ++ t) = Some t.
Proof. induction p as [|a p IH]; [reflexivity|]. cbn [strip_prefix List.app]. rewrite N.eqb_refl. exact IH. Qed.
Lemma str_str_some p s t : str_str p s = Some t -> exists a, s = a ++ p ++ t.
Proof.
  induction s as [|c s IH]; cbn [str_str]; destruct (strip_prefix p _) as [t'|] eqn:E; intro H; try (injection H as ->); try discriminate.
  - exists []. apply strip_prefix_some in E. exact E.
  - exists []. apply strip_prefix_some in E. exact E.
  - destruct (IH H) as [a ->]. exists (c :: a). reflexivity.
Qed.
Lemma str_str_first p a t : (forall a' b', a ++ p = a' ++ p ++ b' -> b' = []) -> str_str p (a ++ p ++ t) = Some t.
Proof.
  induction a as [|c a IH]; intro H.
  - cbn [List.app]. pose proof (strip_prefix_app p t) as E. destruct (p ++ t); cbn [str_str]; rewrite E; reflexivity.
  - cbn [List.app str_str]. destruct (strip_prefix p (c :: a ++ p ++ t)) as [t'|] eqn:E.
    + exfalso. apply strip_prefix_some in E.
      assert (E' : (c :: a) ++ p = [] ++ p ++ skipn (length p) ((c :: a) ++ p)).
      { cbn [List.app]. rewrite <- (firstn_skipn (length p) (c :: a ++ p)) at 1. f_equal.
        assert (F : firstn (length p) (c :: a ++ p ++ t) = p) by (rewrite E, firstn_app, firstn_all, Nat.sub_diag; cbn; apply app_nil_r).
        etransitivity; [|exact F]. change (c :: a ++ p ++ t) with ((c :: a) ++ p ++ t). change (c :: a ++ p) with ((c :: a) ++ p).
        rewrite app_assoc. set (l := (c :: a) ++ p). assert (Hlen : (length p <= length l)%nat) by (unfold l; rewrite app_length; lia).
        rewrite firstn_app. replace (length p - length l)%nat with 0%nat by lia. cbn [firstn]. rewrite app_nil_r. reflexivity. }
      apply H in E'. apply (f_equal (@length N)) in E'. rewrite skipn_length, app_length in E'. cbn [length] in E'. lia.
    + apply IH. intros a' b' E'. apply (H (c :: a') b'). cbn [List.app]. rewrite E'. reflexivity.
Qed.
Lemma digits_cut s b : (forall c, In c s -> 48 <= c <= 57) -> (forall c t, b = c :: t -> c < 48 \/ 57 < c) ->
  digits_of dec_digit (s ++ b) = digits_of dec_digit s.
Proof.
  intros Hs Hb. induction s as [|c s IH].
  - destruct b as [|c t]; [reflexivity|]. cbn. unfold dec_digit, is_digit. destruct (Hb c t eq_refl); destruct (N.leb_spec 48 c), (N.leb_spec c 57); try lia; reflexivity.
  - cbn [List.app digits_of]. rewrite IH by (intros x Hx; apply Hs; right; exact Hx). reflexivity.
Qed.
Lemma scan_cut n d b : dec_of n d -> n < two32 -> (forall c t, b = c :: t -> c < 48 \/ 57 < c) -> scan_dec (d ++ b) = Some n.
Proof.
  intros Hd Hn Hb. destruct (dec_round n d Hn Hd) as [E _]. rewrite <- E. pose proof (dec_of_digits _ _ Hd) as Hc. pose proof (dec_of_nonnil _ _ Hd) as Hne.
  destruct d as [|c d]; [congruence|]. assert (Hc0 : 48 <= c <= 57) by (apply Hc; left; reflexivity).
  unfold scan_dec. cbn [drop_ws List.app]. rewrite !not_space by (unfold blank; lia). cbn [sign_of].
  destruct (N.eqb_spec c 45); [lia|]. destruct (N.eqb_spec c 43); [lia|]. change (c :: d ++ b) with ((c :: d) ++ b). rewrite digits_cut by assumption. reflexivity.
Qed.
Lemma age_of value : age_header value
  match str_str s_max_age value with None => [] | Some t => match scan_dec t with None => [] | Some n => [dec_text n] end end.
Proof.
  split.
  - intro H. destruct (str_str s_max_age value) as [t|] eqn:E; [|reflexivity]. exfalso. apply str_str_some in E. destruct E as [a E]. exact (H a t E).
  - intros a n d b -> Ha Hd Hn Hb. rewrite str_str_first by exact Ha. rewrite (scan_cut n d b Hd Hn Hb).
    destruct (dec_round n d Hn Hd) as [_ ->]. reflexivity.
Qed.
Lemma same_word_upper a b : same_word a b = str_eq (map upper a) (map upper b).
Proof. reflexivity. Qed.
Lemma header_values_cons k name value hs :
  header_values k ((name, value) :: hs) = (if same_word name k then [value] else []) ++ header_values k hs.
Proof. unfold header_values. cbn [filter fst]. rewrite same_word_upper. destruct (str_eq (map upper name) (map upper k)); reflexivity. Qed.
Lemma same_word_one a b c : same_word a b = true -> same_word b c = false -> same_word a c = false.
Proof.
  rewrite !same_word_upper. unfold str_eq. destruct (list_eq_dec N.eq_dec (map upper a) (map upper b)) as [->|]; [auto|discriminate].
Qed.

Definition adds_headers (hs : list (list N * list N)) (l l' : list op) : Prop :=
  (forall n, n <> 4 -> n <> 14 -> n <> 17 -> values n l' = values n l) /\
  values 4 l' = values 4 l ++ header_values etag_name hs /\
  (exists os, Forall2 age_header (header_values cache_name hs) os /\ values 14 l' = values 14 l ++ concat os) /\
  values 17 l' = values 17 l ++ map (fun _ => [48]) (header_values accept_name hs) /\
  (forall v, In v (header_values accept_name hs) -> exists a b, v = a ++ b /\ map upper a = map upper text_plain).
Lemma headers_adds X hs : forall m, ops_sorted (m_ops m) ->
  cres_safe (cross_headers_http_to_coap X m hs) /\
  forall m', cross_headers_http_to_coap X m hs = COk m' ->
    ops_sorted (m_ops m') /\ m_payload m' = m_payload m /\ m_type m' = m_type m /\ m_class m' = m_class m /\ m_detail m' = m_detail m /\
    adds_headers hs (m_ops m) (m_ops m').
Proof.
  induction hs as [|[name value] hs IH]; intros m Hs.
  { split; [exact I|]. intros m' E. injection E as <-. split; [exact Hs|]. do 4 (split; [reflexivity|]). cbn.
    split; [reflexivity|]. split; [rewrite app_nil_r; reflexivity|]. split; [exists []; split; [constructor|cbn; rewrite app_nil_r; reflexivity]|].
    split; [cbn; rewrite app_nil_r; reflexivity|intros v []]. }
  assert (Same : forall o14, Forall2 age_header (if same_word name cache_name then [value] else []) o14 -> concat o14 = [] -> same_word name etag_name = false -> same_word name accept_name = false ->
    cres_safe (cross_headers_http_to_coap X m hs) /\
    forall m', cross_headers_http_to_coap X m hs = COk m' ->
      ops_sorted (m_ops m') /\ m_payload m' = m_payload m /\ m_type m' = m_type m /\ m_class m' = m_class m /\ m_detail m' = m_detail m /\
      adds_headers ((name, value) :: hs) (m_ops m) (m_ops m')).
  { intros o14 Ho Hc W4 W17. destruct (IH m Hs) as [I1 I2]. split; [exact I1|]. intros m' E. apply I2 in E.
    destruct E as (E1 & E2 & E3 & E4 & E5 & (A1 & A2 & (os & A3 & A4) & A5 & A6)). do 5 (split; [assumption|]).
    unfold adds_headers. rewrite !header_values_cons, W4, W17. split; [exact A1|]. split; [exact A2|]. split; [|split; [exact A5|exact A6]].
    exists (o14 ++ os). split; [apply Forall2_app; assumption|]. rewrite concat_app, Hc. exact A4. }
  assert (Add : forall num v, num = 4 /\ v = value /\ same_word name etag_name = true \/
      num = 14 /\ same_word name cache_name = true /\ age_header value [v] \/
      num = 17 /\ v = [48] /\ same_word name accept_name = true /\ same_word (firstn 10 value) s_text_plain = true ->
    let r := cbind (coded 502 (x_add_op X m num v)) (fun m => cross_headers_http_to_coap X m hs) in
    cres_safe r /\ forall m', r = COk m' ->
      ops_sorted (m_ops m') /\ m_payload m' = m_payload m /\ m_type m' = m_type m /\ m_class m' = m_class m /\ m_detail m' = m_detail m /\
      adds_headers ((name, value) :: hs) (m_ops m) (m_ops m')).
  { intros num v Hn. cbv zeta. unfold x_add_op. destruct (x_op _ _ _); cbn [coded cbind add_op].
    2:{ split; [cbn; unfold http_error; lia|discriminate]. }
    match goal with |- context [cross_headers_http_to_coap X ?m1 hs] => destruct (IH m1) as [I1 I2] end.
    { cbn [m_ops]. apply op_list_add_spec. exact Hs. }
    split; [exact I1|]. intros m' E. apply I2 in E. cbn [m_ops m_payload m_type m_class m_detail] in E.
    destruct E as (E1 & E2 & E3 & E4 & E5 & (A1 & A2 & (os & A3 & A4) & A5 & A6)).
    do 5 (split; [assumption|]). unfold adds_headers. rewrite !header_values_cons.
    rewrite values_add in A2, A4, A5 by exact Hs. cbn [o_num o_val] in A2, A4, A5.
    split.
    { intros n N1 N2 N3. rewrite A1 by assumption. rewrite values_add by exact Hs. cbn [o_num]. destruct (N.eqb_spec num n); [exfalso; clear - Hn e N1 N2 N3; intuition lia|]. apply app_nil_r. }
    destruct Hn as [(-> & -> & W)|[(-> & W & Wa)|(-> & -> & W & Wt)]].
    - rewrite W, (same_word_one _ _ cache_name W eq_refl), (same_word_one _ _ accept_name W eq_refl).
      change (4 =? 4) with true in *. change (4 =? 14) with false in *. change (4 =? 17) with false in *. cbv iota in *. rewrite app_nil_r in A4, A5.
      split; [rewrite A2, <- app_assoc; reflexivity|]. split; [exists os; auto|]. auto.
    - rewrite W, (same_word_one _ _ etag_name W eq_refl), (same_word_one _ _ accept_name W eq_refl).
      change (14 =? 4) with false in *. change (14 =? 14) with true in *. change (14 =? 17) with false in *. cbv iota in *. rewrite app_nil_r in A2, A5.
      split; [exact A2|]. split; [|auto]. exists ([v] :: os). split; [constructor; assumption|]. rewrite A4, <- app_assoc. reflexivity.
    - rewrite W, (same_word_one _ _ etag_name W eq_refl), (same_word_one _ _ cache_name W eq_refl).
      change (17 =? 4) with false in *. change (17 =? 14) with false in *. change (17 =? 17) with true in *. cbv iota in *. rewrite app_nil_r in A2, A4.
      split; [exact A2|]. split; [exists os; auto|]. split; [rewrite A5, <- app_assoc; reflexivity|].
      intros x [<-|Hx]; [|apply A6; exact Hx]. exists (firstn 10 value), (skipn 10 value). split; [symmetry; apply firstn_skipn|].
      rewrite same_word_upper in Wt. unfold str_eq in Wt. destruct (list_eq_dec N.eq_dec (map upper (firstn 10 value)) (map upper s_text_plain)) as [e|]; [exact e|discriminate]. }
  cbn [cross_headers_http_to_coap].
  change (same_word name s_etag) with (same_word name etag_name). change (same_word name s_cache_control) with (same_word name cache_name). change (same_word name s_accept) with (same_word name accept_name).
  destruct (same_word name etag_name) eqn:W1; [apply (Add 4 value); auto|].
  destruct (same_word name cache_name) eqn:W2; [|destruct (same_word name accept_name) eqn:W3].
  - pose proof (age_of value) as Ha. pose proof (same_word_one _ _ accept_name W2 eq_refl) as W3.
    destruct (str_str s_max_age value) as [t|]; [|apply (Same [[]]); auto]. destruct (scan_dec t) as [n|]; [|apply (Same [[]]); auto]. apply (Add 14 (dec_text n)). auto.
  - destruct (same_word (firstn 10 value) s_text_plain) eqn:W4; [apply (Add 17 [48]); auto 8|]. split; [cbn; unfold http_error; lia|discriminate].
  - apply (Same []); auto.
Qed.

Lemma str_eq_spec a b : str_eq a b = true <-> a = b.
Proof. unfold str_eq. destruct (list_eq_dec N.eq_dec a b); split; congruence. Qed.

Lemma req_faithful sg X h body body_end a b c : hm_start h = (a, b, c) -> bytes_ok b -> lenN b < two32 - 1 ->
  cres_safe (cross_req_http_to_coap sg X h body body_end) /\
  forall m body' end', cross_req_http_to_coap sg X h body body_end = COk (m, body', end') ->
    m_type m = 0 /\ m_class m = 0 /\ method_code a (m_detail m) /\ ops_sorted (m_ops m) /\
    (exists u, uri_parse sg (x_uri X) b = Ok u /\ u_fragment u = None /\ (exists s, u_scheme u = Some s /\ coap_scheme s) /\ path_ok (u_path u) /\
       forall n, n = 3 \/ n = 7 \/ n = 11 \/ n = 15 -> values n (m_ops m) = values n (uri_ops u)) /\
    values 4 (m_ops m) = header_values etag_name (hm_headers h) /\ age_ops (hm_headers h) (m_ops m) /\ accept_ops (hm_headers h) (m_ops m) /\
    (forall o, In o (m_ops m) -> In (o_num o) [3; 4; 7; 11; 14; 15; 17]) /\
    ((lenN (body_of h) <= 1024 /\ m_payload m = body_of h /\ body' = body /\ end' = body_end) \/
     (1024 < lenN (body_of h) <= lenN body /\ m_payload m = [] /\ end' = lenN (body_of h) /\ body' = body_of h ++ skipn (N.to_nat end') body)).
Proof.
  intros Hst Hb Hl. unfold cross_req_http_to_coap. rewrite Hst. fold (body_of h).
  assert (E0 : set_type msg_create T_CON = Ok msg_create) by reflexivity. rewrite E0. cbn [coded cbind]. clear E0. set (m0 := msg_create).
  assert (Me : (exists d, cross_method m0 a = COk (mkmsg (m_ver m0) (m_type m0) 0 d (m_id m0) (m_token m0) (m_ops m0) (m_payload m0)) /\ method_code a d) \/ cross_method m0 a = CErr 501 EBADMSG).
  { unfold cross_method.
    destruct (str_eq a s_GET) eqn:E1; [apply str_eq_spec in E1; left; exists 1; split; [reflexivity|left; auto]|].
    destruct (str_eq a s_POST) eqn:E2; [apply str_eq_spec in E2; left; exists 2; split; [reflexivity|right; left; auto]|].
    destruct (str_eq a s_PUT) eqn:E3; [apply str_eq_spec in E3; left; exists 3; split; [reflexivity|right; right; left; auto]|].
    destruct (str_eq a s_DELETE) eqn:E4; [apply str_eq_spec in E4; left; exists 4; split; [reflexivity|right; right; right; auto]|]. right. reflexivity. }
  destruct Me as [(d & -> & Hd)| ->]; cbn [cbind]; [|split; [cbn; unfold http_error; lia|discriminate]].
  match goal with |- context [cross_uri_http_to_coap sg X ?m _] => set (m1 := m) end.
  pose proof (parse_safe sg (x_uri X) b Hb ltac:(unfold two32, two64 in *; lia)) as Ps.
  destruct (uri_parse sg (x_uri X) b) as [u|e| |] eqn:Eu; cbn in Ps; try contradiction.
  2:{ unfold cross_uri_http_to_coap. rewrite Eu. cbn [bind coded cbind]. split; [cbn; unfold http_error; lia|discriminate]. }
  destruct (uri_adds sg X m1 b u Eu Hl Hb) as (U1 & U2 & _).
  destruct (cross_uri_http_to_coap sg X m1 b) as [m2|e| |]; cbn [coded cbind res_safe] in *; try contradiction.
  2:{ split; [cbn; unfold http_error; lia|discriminate]. }
  destruct (U2 m2 eq_refl) as (F1 & F2 & F3 & ->). clear U1 U2.
  assert (O2 : m_ops (adds m1 (uri_ops u)) = uri_ops u) by (unfold adds; cbn [m_ops m1 m0]; apply (adds_copy (uri_ops u) []); apply uri_sorted).
  destruct (headers_adds X (hm_headers h) (adds m1 (uri_ops u))) as [H1 H2]; [rewrite O2; apply uri_sorted|].
  destruct (cross_headers_http_to_coap X (adds m1 (uri_ops u)) (hm_headers h)) as [m3|code e| |]; cbn [cbind] in *; try contradiction.
  2:{ split; [exact H1|discriminate]. }
  destruct (H2 m3 eq_refl) as (G1 & G2 & G3 & G4 & G5 & (G6 & G7 & (os & G8 & G9) & G10 & G11)). clear H1 H2. rewrite O2 in G6, G7, G9, G10.
  assert (V4 : forall n, n <> 3 -> n <> 7 -> n <> 11 -> n <> 15 -> values n (uri_ops u) = []).
  { intros n N1 N2 N3 N4. apply values_none. intros o Ho. unfold uri_ops, opt_ops, path_ops, query_ops in Ho. rewrite !in_app_iff in Ho.
    destruct Ho as [Ho|[Ho|[Ho|Ho]]]; repeat match type of Ho with In _ match ?x with _ => _ end => destruct x; [|destruct Ho] end.
    - destruct Ho as [<-|[]]. cbn. congruence.
    - destruct Ho as [<-|[]]. cbn. congruence.
    - apply in_map_iff in Ho. destruct Ho as (x & <- & _). cbn. congruence.
    - apply in_map_iff in Ho. destruct Ho as (x & <- & _). cbn. congruence. }
  rewrite V4 in G7, G9, G10 by lia. cbn [List.app] in G7, G9, G10.
  assert (Nums : forall o, In o (m_ops m3) -> In (o_num o) [3; 4; 7; 11; 14; 15; 17]).
  { intros o Ho. destruct (in_dec N.eq_dec (o_num o) [3; 4; 7; 11; 14; 15; 17]) as [Hi|Hi]; [exact Hi|exfalso]. cbn [In] in Hi.
    assert (V : values (o_num o) (m_ops m3) = []) by (rewrite G6 by intuition; apply V4; intuition).
    assert (Hv : In (o_val o) (values (o_num o) (m_ops m3))).
    { unfold values. apply in_map. apply filter_In. split; [exact Ho|apply N.eqb_refl]. }
    rewrite V in Hv. exact Hv. }
  assert (Base : forall m, m_ops m = m_ops m3 -> m_type m = m_type m3 -> m_class m = m_class m3 -> m_detail m = m_detail m3 ->
    m_type m = 0 /\ m_class m = 0 /\ method_code a (m_detail m) /\ ops_sorted (m_ops m) /\
    (exists u0, Ok u = Ok u0 /\ u_fragment u0 = None /\ (exists s, u_scheme u0 = Some s /\ coap_scheme s) /\ path_ok (u_path u0) /\
       forall n, n = 3 \/ n = 7 \/ n = 11 \/ n = 15 -> values n (m_ops m) = values n (uri_ops u0)) /\
    values 4 (m_ops m) = header_values etag_name (hm_headers h) /\ age_ops (hm_headers h) (m_ops m) /\ accept_ops (hm_headers h) (m_ops m) /\
    (forall o, In o (m_ops m) -> In (o_num o) [3; 4; 7; 11; 14; 15; 17])).
  { intros m E1 E2 E3 E4. rewrite E1, E2, E3, E4, G3, G4, G5. split; [reflexivity|]. split; [reflexivity|]. split; [exact Hd|]. split; [exact G1|]. split; [|split; [exact G7|split; [exists os; auto|split; [split; assumption|exact Nums]]]].
    exists u. split; [reflexivity|]. split; [exact F1|]. split; [exact F2|]. split; [exact F3|]. intros n Hn. apply G6; lia. }
  assert (P3 : m_payload m3 = []) by (rewrite G2; reflexivity).
  unfold MAX_PAYLOAD_LEN. destruct (N.ltb_spec 1024 (lenN (body_of h))) as [Hbig|Hsm].
  - destruct (N.ltb_spec (lenN body) (lenN (body_of h))) as [|Hfit]; [split; [cbn; unfold http_error; lia|discriminate]|].
    assert (Ep : put body 0 (body_of h) = Ok (body_of h ++ skipn (N.to_nat (lenN (body_of h))) body)).
    { unfold put. destruct (N.leb_spec (0 + lenN (body_of h)) (lenN body)); [|lia]. reflexivity. }
    rewrite Ep. cbn [coded cbind]. split; [exact I|]. intros m body' end' E. injection E as <- <- <-.
    destruct (Base m3 eq_refl eq_refl eq_refl eq_refl) as (B1 & B2 & B3 & B4 & B5 & B6 & B7 & B8 & B9). repeat (split; [assumption|]). right. auto.
  - destruct ((lenN (body_of h) =? 0) || x_payload X (body_of h)); [|split; [cbn; unfold http_error; lia|discriminate]].
    cbn [set_payload coded cbind]. split; [exact I|]. intros m body' end' E. injection E as <- <- <-.
    match goal with |- m_type ?m = _ /\ _ => destruct (Base m eq_refl eq_refl eq_refl eq_refl) as (B1 & B2 & B3 & B4 & B5 & B6 & B7 & B8 & B9) end.
    repeat (split; [assumption|]). left. auto.
Qed.
