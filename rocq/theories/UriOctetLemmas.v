(** Lemmas on malformed octets (C85) and on setting components (C86). *)
From Verif Require Import Base BaseLemmas BufModel BufLemmas UriModel UriSpec UriLemmas.

Inductive octets : list N -> Prop :=
| octets_nil : octets []
| octets_char c s : c <> 37 -> octets s -> octets (c :: s)
| octets_octet a b h l s : hex_value a h -> hex_value b l -> octets s -> octets (37 :: a :: b :: s).

Lemma octets_app a b : octets a -> octets b -> octets (a ++ b).
Proof. intros H1 H2. induction H1; cbn [List.app]; [exact H2|apply octets_char; auto|eapply octets_octet; eauto]. Qed.
Lemma octets_mid c a b : c <> 37 -> octets a -> octets b -> octets (a ++ c :: b).
Proof. intros. apply octets_app; [assumption|apply octets_char; assumption]. Qed.

Lemma hex_not_percent c v : hex_value c v -> c <> 37.
Proof.
  intros [Hv H] ->. destruct H as [H|[H1 H2]]; [|lia].
  assert (F : forallb (fun x => negb (x =? 37)) hex_digits = true) by reflexivity.
  rewrite forallb_forall in F. specialize (F _ (nth_In hex_digits 0 (n := N.to_nat v) ltac:(cbn [length hex_digits]; lia))).
  rewrite <- H in F. discriminate.
Qed.
Lemma octets_percent s : octets s -> forall a b, s = a ++ 37 :: b ->
  exists x y h l r, b = x :: y :: r /\ hex_value x h /\ hex_value y l.
Proof.
  intro H. induction H as [|c s Hc H IH|x y h l s Hx Hy H IH]; intros a b E.
  - destruct a; discriminate.
  - destruct a as [|z a]; cbn [List.app] in E; injection E as E1 E2; [contradiction|]. eapply IH. exact E2.
  - destruct a as [|z1 [|z2 [|z3 a]]]; cbn [List.app] in E.
    + injection E as <-. exists x, y, h, l, s. auto.
    + injection E as _ E. subst x. exfalso. eapply hex_not_percent; [exact Hx|reflexivity].
    + injection E as _ _ E. subst y. exfalso. eapply hex_not_percent; [exact Hy|reflexivity].
    + injection E as _ _ _ E. eapply IH. exact E.
Qed.

Lemma octets_escaped s : octets s -> well_escaped s.
Proof. intros H a b E. destruct (octets_percent s H a b E) as (x & y & h & l & r & E1 & E2 & E3). exists x, y, r. split; [exact E1|]. split; eexists; eassumption. Qed.

(** What the decoder accepts. *)
Lemma hex_inv c v : uri_hex_to_int c = Some v -> hex_value c v.
Proof.
  unfold uri_hex_to_int, to_upper. intro H.
  assert (D : forall v, v < 16 -> nth (N.to_nat v) hex_digits 0 = if v <? 10 then 48 + v else 65 + (v - 10)).
  { intros w Hw. assert (F : forallb (fun w => nth (N.to_nat w) hex_digits 0 =? (if w <? 10 then 48 + w else 65 + (w - 10))) (map N.of_nat (seq 0 16)) = true) by (vm_compute; reflexivity).
    rewrite forallb_forall in F. apply N.eqb_eq. apply F. apply in_map_iff. exists (N.to_nat w). split; [lia|apply in_seq; lia]. }
  assert (U : forall c, (if (65 <=? c) && (c <=? 70) then Some (c - 65 + 10) else if (48 <=? c) && (c <=? 57) then Some (c - 48) else None) = Some v ->
    (65 <= c <= 70 /\ v = c - 65 + 10) \/ (48 <= c <= 57 /\ v = c - 48)).
  { clear. intros c H. destruct (N.leb_spec 65 c), (N.leb_spec c 70); cbn [andb] in H; [injection H as <-; left; lia|..];
      (destruct (N.leb_spec 48 c), (N.leb_spec c 57); cbn [andb] in H; [injection H as <-; right; lia|discriminate..]). }
  assert (L : (97 <= c <= 122 /\ (if (97 <=? c) && (c <=? 122) then c - 32 else c) = c - 32) \/ (if (97 <=? c) && (c <=? 122) then c - 32 else c) = c).
  { destruct (N.leb_spec 97 c), (N.leb_spec c 122); cbn [andb]; [left; lia|right; reflexivity..]. }
  apply U in H. destruct L as [[L1 L2]|L2]; rewrite L2 in H.
  - destruct H as [[H ->]|[H ->]]; [|lia]. split; [lia|right; lia].
  - destruct H as [[H ->]|[H ->]]; (split; [lia|]); left; rewrite D by lia.
    + destruct (N.ltb_spec (c - 65 + 10) 10); lia.
    + destruct (N.ltb_spec (c - 48) 10); lia.
Qed.

Lemma decode_octets sg fuel : forall dest src n len r, uri_decode_from fuel sg dest src n len = Ok r -> octets src.
Proof.
  induction fuel as [|fuel IH]; intros dest src n len r H; (destruct src as [|c src]; [constructor|]); [discriminate|].
  cbn [uri_decode_from] in H. destruct (uri_decode_octet sg (c :: src)) as [[v|] rest] eqn:E; [|discriminate].
  assert (Hr : octets rest).
  { destruct (add64 n 1 <? len); [destruct (store dest n v); cbn [bind] in H; try discriminate|cbn [bind] in H]; eapply IH; exact H. }
  unfold uri_decode_octet in E. destruct (N.eqb_spec c 37) as [->|Hc].
  - injection E as E1 E2. unfold uri_2_hex_to_int in E1.
    destruct src as [|x [|y src]]; cbn [firstn List.app nth skipn] in E1, E2.
    + discriminate.
    + destruct (uri_hex_to_int x); [|discriminate]. discriminate.
    + destruct (uri_hex_to_int x) as [h|] eqn:Ex; [|discriminate]. destruct (uri_hex_to_int y) as [l|] eqn:Ey; [|discriminate].
      subst rest. eapply octets_octet; [apply hex_inv; exact Ex|apply hex_inv; exact Ey|exact Hr].
  - injection E as _ ->. apply octets_char; assumption.
Qed.
Lemma component_octets sg mem p s : uri_component sg mem p = Ok s -> octets p.
Proof.
  unfold uri_component. destruct mem; [|discriminate]. cbn [negb].
  destruct (uri_decode_str _ _ p _ _) as [[d n]| | |] eqn:E; try discriminate. intros _. eapply decode_octets. exact E.
Qed.
Lemma component_path_octets sg mem p s : uri_component_path sg mem p = Ok s -> octets p.
Proof.
  unfold uri_component_path. destruct mem; [|discriminate]. cbn [negb].
  destruct (uri_decode_str _ _ p _ _) as [[d n]| | |] eqn:E; try discriminate. intros _. eapply decode_octets. exact E.
Qed.
Lemma set_path_octets sg mem p s : uri_set_path sg mem p = Ok s -> octets p.
Proof.
  unfold uri_set_path. destruct mem; [|discriminate]. cbn [negb]. intro H.
  match type of H with bind ?x _ = _ => destruct x as [[d n]| | |] end; try discriminate. cbn [bind] in H.
  destruct (uri_decode_str _ _ p _ _) as [[d' n']| | |] eqn:E; try discriminate. eapply decode_octets. exact E.
Qed.

Lemma len_zero (p : list N) : lenN p = 0 -> p = [].
Proof. unfold lenN. destruct p; [reflexivity|cbn [length]; lia]. Qed.

Lemma strip_octets h h' len : lenN h + 1 < two64 -> strip h = (h', len) -> (len <=? 1) = true \/ octets h' -> octets h.
Proof.
  intros Hl H Ho. unfold strip in H. rewrite add64_ok in H by lia. destruct (_ && _ && _) eqn:E.
  - injection H as <- <-. apply andb_prop in E. destruct E as [E E3]. apply andb_prop in E. destruct E as [E1 E2].
    apply N.ltb_lt in E1. apply N.eqb_eq in E2, E3. destruct h as [|x t]; [discriminate|]. cbn [nth] in E2. subst x. cbn [tl] in Ho.
    destruct t as [|y t]; [vm_compute in E1; discriminate|].
    assert (Et : y :: t = removelast (y :: t) ++ [93]).
    { rewrite (app_removelast_last 0 (l := y :: t)) at 1 by discriminate. f_equal. f_equal.
      assert (L : forall (l : list N) d, l <> [] -> nth (length l - 1) l d = last l d).
      { clear. induction l as [|a [|b l] IH]; intros d H; [contradiction|reflexivity|]. cbn [length]. replace (S (S (length l)) - 1)%nat with (S (length (b :: l) - 1)) by (cbn [length]; lia).
        change (last (a :: b :: l) d) with (last (b :: l) d). rewrite <- IH by discriminate. reflexivity. }
      rewrite <- L by discriminate. rewrite <- E3.
      replace (N.to_nat (lenN (91 :: y :: t) + 1 - 2)) with (S (length (y :: t) - 1)) by (unfold lenN; cbn [length]; lia). reflexivity. }
    rewrite Et. apply octets_char; [discriminate|]. apply octets_mid; [discriminate| |constructor].
    destruct Ho as [Ho|Ho]; [|exact Ho]. apply N.leb_le in Ho. unfold lenN in Ho. cbn [length] in Ho.
    destruct t; [constructor|cbn [length] in Ho; lia].
  - injection H as <- <-. destruct Ho as [Ho|Ho]; [|exact Ho]. apply N.leb_le in Ho. rewrite (len_zero h) by lia. constructor.
Qed.

Lemma hier_octets sg mem p r : lenN p + 1 < two64 -> uri_parse_hier_part sg mem p = Ok r -> octets p.
Proof.
  intros Hl H. unfold uri_parse_hier_part in H. destruct (_ && _ && _) eqn:E.
  2:{ destruct (0 <? lenN p) eqn:El; [|apply N.ltb_ge in El; rewrite (len_zero p) by lia; constructor].
      destruct (uri_component sg (mem 5) p) eqn:C; try discriminate. eapply component_octets. exact C. }
  apply andb_prop in E. destruct E as [E E3]. apply andb_prop in E. destruct E as [E1 E2]. apply N.eqb_eq in E2, E3.
  destruct p as [|x [|y q]]; try discriminate. cbn [nth] in E2, E3. subst x y. cbn [skipn] in H.
  apply octets_char; [discriminate|]. apply octets_char; [discriminate|]. clear E1. rewrite !lenN_cons in Hl.
  assert (Main : forall q', lenN q' + 1 < two64 -> forall u, (let '(p, port, path) :=
      match uri_find_port false q' with
      | Some (p, port) => match str_cut 47 port with Some (port, path) => (p, Some port, Some path) | None => (p, Some port, None) end
      | None => match str_cut 47 q' with Some (p, path) => (p, None, Some path) | None => (q', None, None) end
      end in
    let len := add64 (lenN p) 1 in
    let '(p, len) :=
      if (2 <? len) && (nth 0 p 0 =? 91) && (nth (N.to_nat (len - 2)) p 0 =? 93) then (removelast (tl p), len - 2) else (p, len) in
    let* host := if 1 <? len then let* h := uri_component sg (mem 3) p in Ok (Some h) else Ok None in
    let* port := match port with Some port => let* c := uri_component sg (mem 4) port in Ok (Some c) | None => Ok None end in
    let* path := match path with Some path => let* c := uri_component_path sg (mem 5) path in Ok (Some c) | None => Ok None end in
    Ok (u, host, port, path)) = Ok r -> octets q').
  { clear. intros q Hq u H.
    set (trip := match uri_find_port false q with Some _ => _ | None => _ end) in H.
    assert (Et : let '(h, port, path) := trip in
      q = h ++ match port with Some x => 58 :: x | None => [] end ++ match path with Some x => 47 :: x | None => [] end).
    { unfold trip. destruct (uri_find_port false q) as [[a b]|] eqn:E.
      - apply port_sub in E. destruct (str_cut 47 b) as [[c d]|] eqn:E2.
        + apply cut_sub in E2. subst b q. reflexivity.
        + subst q. rewrite app_nil_r. reflexivity.
      - destruct (str_cut 47 q) as [[c d]|] eqn:E2; [apply cut_sub in E2; exact E2|rewrite app_nil_r; reflexivity]. }
    clearbody trip. destruct trip as [[h port] path]. destruct (strip h) as [h' len] eqn:Es. pose proof Es as Es'. unfold strip in Es'. cbv zeta in H, Es'. rewrite Es' in H. clear Es'.
    assert (Hh : lenN h + 1 < two64) by (rewrite Et, lenN_app in Hq; lia).
    assert (Oh : octets h).
    { eapply strip_octets; [exact Hh|exact Es|]. destruct (1 <? len) eqn:El; [right|left; apply N.leb_le; apply N.ltb_ge in El; exact El].
      destruct (uri_component sg (mem 3) h') eqn:C; try discriminate. eapply component_octets. exact C. }
    match type of H with bind ?x _ = _ => destruct x as [ho| | |] end; try discriminate. cbn [bind] in H.
    rewrite Et. apply octets_app; [exact Oh|].
    assert (Op : octets (match port with Some x => 58 :: x | None => [] end)).
    { destruct port as [x|]; [|constructor]. apply octets_char; [discriminate|].
      destruct (uri_component sg (mem 4) x) eqn:C; try discriminate. eapply component_octets. exact C. }
    match type of H with bind ?x _ = _ => destruct x as [po| | |] end; try discriminate. cbn [bind] in H.
    apply octets_app; [exact Op|]. destruct path as [x|]; [|constructor]. apply octets_char; [discriminate|].
    destruct (uri_component_path sg (mem 5) x) eqn:C; try discriminate. eapply component_path_octets. exact C. }
  destruct (str_cut 64 q) as [[a b]|] eqn:E.
  - apply cut_sub in E. subst q. rewrite lenN_app, lenN_cons in Hl.
    destruct (uri_component sg (mem 2) a) as [u| | |] eqn:C; try discriminate. cbn [bind] in H.
    apply octets_mid; [discriminate|eapply component_octets; exact C|]. eapply Main; [lia|exact H].
  - cbn [bind] in H. eapply Main; [lia|exact H].
Qed.

Lemma parse_octets sg mem s u : lenN s + 1 < two64 -> uri_parse sg mem s = Ok u -> octets s.
Proof.
  intros Hl H. unfold uri_parse in H. destruct (mem 0); [|discriminate]. cbn [negb] in H.
  assert (Main : forall q sch, lenN q + 1 < two64 -> (let (p, q) := str_sep [63; 35] q in
    let* (userinfo, host, port, path) := uri_parse_hier_part sg mem p in
    let* (query, q) :=
      match q with
      | Some (c, s) => if c =? 63 then let (p, q) := str_sep [35] s in let* c := uri_component sg (mem 6) p in Ok (Some c, q) else Ok (None, q)
      | None => Ok (None, q)
      end in
    let* (fragment, q) :=
      match q with
      | Some (c, s) => if c =? 35 then let (p, q) := str_sep [] s in let* c := uri_component sg (mem 7) p in Ok (Some c, q) else Ok (None, q)
      | None => Ok (None, q)
      end in
    match q with Some _ => Err EBADMSG | None => Ok (mkuri sch userinfo host port path query fragment) end) = Ok u -> octets q).
  { clear. intros q sch Hl H. destruct (str_sep [63; 35] q) as [p r] eqn:E. apply sep_sub in E.
    assert (Hp : lenN p + 1 < two64) by (rewrite E, lenN_app in Hl; lia).
    destruct (uri_parse_hier_part sg mem p) as [x| | |] eqn:Eh; try discriminate. apply hier_octets in Eh; [|exact Hp].
    cbn [bind] in H. destruct x as [[[ui h] pt] pa]. rewrite E. apply octets_app; [exact Eh|].
    assert (Frag : forall (r : option (N * list N)) qu, (let* (fragment, q) :=
      match r with
      | Some (c, s) => if c =? 35 then let (p, q) := str_sep [] s in let* c := uri_component sg (mem 7) p in Ok (Some c, q) else Ok (None, r)
      | None => Ok (None, r)
      end in
      match q with Some _ => Err EBADMSG | None => Ok (mkuri sch ui h pt pa qu fragment) end) = Ok u ->
      octets (match r with Some (c, t) => c :: t | None => [] end)).
    { clear. intros r qu H. destruct r as [[c t]|]; [|constructor]. destruct (c =? 35) eqn:Ec; [apply N.eqb_eq in Ec; subst c|discriminate].
      destruct (str_sep [] t) as [p q] eqn:E. apply sep_sub in E.
      destruct (uri_component sg (mem 7) p) as [x| | |] eqn:C; try discriminate. cbn [bind] in H. destruct q; [discriminate|].
      rewrite app_nil_r in E. subst t. apply octets_char; [discriminate|eapply component_octets; exact C]. }
    destruct r as [[c t]|]; [|constructor]. destruct (c =? 63) eqn:Ec; [apply N.eqb_eq in Ec; subst c|].
    - destruct (str_sep [35] t) as [p2 r2] eqn:E2. apply sep_sub in E2. subst t.
      destruct (uri_component sg (mem 6) p2) as [x| | |] eqn:C; try discriminate. cbn [bind] in H.
      apply octets_char; [discriminate|]. apply octets_app; [eapply component_octets; exact C|]. eapply Frag. exact H.
    - cbn [bind] in H. apply (Frag (Some (c, t)) None). exact H. }
  destruct (negb (nth 0 s 0 =? 47)).
  - unfold uri_parse_scheme in H. destruct (str_cut 58 s) as [[a b]|] eqn:E.
    + apply cut_sub in E. subst s. rewrite lenN_app, lenN_cons in Hl. rewrite add64_ok in H by lia.
      assert (Oa : octets a).
      { destruct (1 <? lenN a + 1) eqn:El; [|apply N.ltb_ge in El; rewrite (len_zero a) by lia; constructor].
        destruct (uri_component sg (mem 1) a) eqn:C; try discriminate. eapply component_octets. exact C. }
      match type of H with bind (bind ?x _) _ = _ => destruct x as [sch| | |] end; try discriminate. cbn [bind] in H.
      apply octets_mid; [discriminate|exact Oa|]. eapply Main; [lia|exact H].
    + cbn [bind] in H. eapply Main; [exact Hl|exact H].
  - cbn [bind] in H. eapply Main; [exact Hl|exact H].
Qed.

(** ** Setting components *)
Lemma set_path_ok sg raw s : decodes raw s -> ~ In 0 s -> lenN raw + 2 < two64 ->
  uri_set_path sg true raw = Ok (if nth 0 raw 0 =? 47 then s else 47 :: s).
Proof.
  intros H H0 Hl. destruct (nth 0 raw 0 =? 47) eqn:E.
  - transitivity (uri_component sg true raw); [|apply component_ok; [assumption|assumption|lia]].
    unfold uri_set_path, uri_component. rewrite E. cbn [negb]. rewrite (add64_ok (lenN raw) 1), (add64_ok _ 0), N.add_0_r by lia. reflexivity.
  - unfold uri_set_path. rewrite E. cbn [negb]. rewrite (add64_ok (lenN raw) 1), (add64_ok (lenN raw + 1) 1) by lia.
    pose proof (decode_len _ _ H) as Hs.
    assert (D1 : decodes [47] [47]) by (apply decodes_char; [discriminate|reflexivity|constructor]).
    set (m := N.to_nat (lenN raw + 1)).
    pose proof (decode_ok sg [47] [47] D1 1 [] (S m) [] (lenN raw + 1 + 1)) as A1.
    cbn [List.app length] in A1. rewrite !app_nil_r, (@lenN_nil N) in A1.
    unfold uri_decode_str at 1. change (length [47]) with 1%nat. replace (N.to_nat (lenN raw + 1 + 1)) with (S m) by lia.
    rewrite A1 by (try change (lenN [47]) with 1; lia). cbn [bind]. change (0 + lenN [47]) with (lenN [47]). rewrite Nat.sub_succ, Nat.sub_0_r.
    pose proof (decode_ok sg raw s H (length raw) [47] m [] (lenN raw + 1 + 1)) as A2. rewrite !app_nil_r in A2. cbn [List.app] in A2.
    unfold uri_decode_str. rewrite A2 by (try change (lenN [47]) with 1; lia). cbn [bind]. change (lenN [47]) with 1.
    destruct (N.leb_spec (lenN raw + 1 + 1) (1 + lenN s)); [lia|].
    destruct (m - length s)%nat as [|k] eqn:Em; [unfold lenN in *; lia|]. cbn [repeat].
    change (47 :: s ++ 0 :: repeat 0 k) with ((47 :: s) ++ 0 :: repeat 0 k). apply cstr_ok. intros [X|X]; [discriminate|contradiction].
Qed.
