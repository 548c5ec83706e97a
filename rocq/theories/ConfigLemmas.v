(** Proofs about configurations. *)
From Verif Require Import Base BaseLemmas UriModel HttpModel ClientModel CrossModel CrossLemmas ConfigModel ConfigSpec.

(** ** Sections and entries *)

Lemma str_eq_refl a : str_eq a a = true.
Proof. unfold str_eq. destruct (list_eq_dec _ a a); congruence. Qed.

Lemma find_put es n v n' : find_entry es n <> None ->
  find_entry (put_value es n v) n' = if str_eq n n' then Some (n, v) else find_entry es n'.
Proof.
  induction es as [|[k x] es IH]; cbn [find_entry put_value fst]; [congruence|]. intro H.
  destruct (str_eq k n) eqn:E; cbn [find_entry fst].
  - apply str_eq_spec in E as ->. destruct (str_eq n n'); reflexivity.
  - rewrite (IH H). destruct (str_eq k n') eqn:E'; [|reflexivity]. apply str_eq_spec in E' as ->. destruct (str_eq n n') eqn:E2; [|reflexivity].
    apply str_eq_spec in E2 as ->. rewrite str_eq_refl in E. discriminate.
Qed.
Lemma find_app es n v n' : find_entry es n = None ->
  find_entry (es ++ [(n, v)]) n' = if str_eq n n' then Some (n, v) else find_entry es n'.
Proof.
  induction es as [|[k x] es IH]; cbn [find_entry List.app fst]; [reflexivity|]. intro H.
  destruct (str_eq k n) eqn:E; [discriminate|]. rewrite (IH H). destruct (str_eq k n') eqn:E'; [|reflexivity].
  apply str_eq_spec in E' as ->. destruct (str_eq n n') eqn:E2; [|reflexivity]. apply str_eq_spec in E2 as ->. rewrite str_eq_refl in E. discriminate.
Qed.
Lemma section_put c s es s' : find_section c s <> None ->
  find_section (put_section c s es) s' = if str_eq s s' then Some (s, es) else find_section c s'.
Proof.
  induction c as [|[k x] c IH]; cbn [find_section put_section fst]; [congruence|]. intro H.
  destruct (str_eq k s) eqn:E; cbn [find_section fst].
  - apply str_eq_spec in E as ->. destruct (str_eq s s'); reflexivity.
  - rewrite (IH H). destruct (str_eq k s') eqn:E'; [|reflexivity]. apply str_eq_spec in E' as ->. destruct (str_eq s s') eqn:E2; [|reflexivity].
    apply str_eq_spec in E2 as ->. rewrite str_eq_refl in E. discriminate.
Qed.
Lemma section_app c s es s' : find_section c s = None ->
  find_section (c ++ [(s, es)]) s' = if str_eq s s' then Some (s, es) else find_section c s'.
Proof.
  induction c as [|[k x] c IH]; cbn [find_section List.app fst]; [reflexivity|]. intro H.
  destruct (str_eq k s) eqn:E; [discriminate|]. rewrite (IH H). destruct (str_eq k s') eqn:E'; [|reflexivity].
  apply str_eq_spec in E' as ->. destruct (str_eq s s') eqn:E2; [|reflexivity]. apply str_eq_spec in E2 as ->. rewrite str_eq_refl in E. discriminate.
Qed.

(** config_set and config_get. *)
Lemma set_get m1 m2 c s n v c' r : config_set m1 m2 c s n v = (c', r) ->
  (forall s' n', (s', n') <> (s, n) -> config_get c' s' n' = config_get c s' n') /\
  match r with
  | Ok _ => config_get c' s n = Some v
  | Err e => e = ENOMEM /\ (m1 = false \/ m2 = false) /\ (config_get c' s n = config_get c s n \/ config_get c' s n = None)
  | UB _ | OutOfFuel => False
  end.
Proof.
  unfold config_set. destruct (find_section c s) as [[s0 es]|] eqn:Es.
  - assert (Hs : find_section c s <> None) by congruence.
    assert (Ge : config_get c s n = match find_entry es n with None => None | Some (_, x) => x end) by (unfold config_get; rewrite Es; reflexivity).
    destruct (find_entry es n) as [[n0 v0]|] eqn:En.
    + assert (Hn : find_entry es n <> None) by congruence. destruct m2; intro H; injection H as <- <-.
      * split; [|unfold config_get; rewrite (section_put _ _ _ _ Hs), str_eq_refl, (find_put _ _ _ _ Hn), str_eq_refl; reflexivity].
        intros s' n' Hd. unfold config_get. rewrite (section_put _ _ _ _ Hs). destruct (str_eq s s') eqn:E; [|reflexivity]. apply str_eq_spec in E as <-. rewrite Es, (find_put _ _ _ _ Hn).
        destruct (str_eq n n') eqn:E; [|reflexivity]. apply str_eq_spec in E as <-. congruence.
      * split; [|split; [reflexivity|]; split; [auto|]; right; unfold config_get; rewrite (section_put _ _ _ _ Hs), str_eq_refl, (find_put _ _ _ _ Hn), str_eq_refl; reflexivity].
        intros s' n' Hd. unfold config_get. rewrite (section_put _ _ _ _ Hs). destruct (str_eq s s') eqn:E; [|reflexivity]. apply str_eq_spec in E as <-. rewrite Es, (find_put _ _ _ _ Hn).
        destruct (str_eq n n') eqn:E; [|reflexivity]. apply str_eq_spec in E as <-. congruence.
    + destruct m2; intro H; injection H as <- <-.
      * split; [|unfold config_get; rewrite (section_put _ _ _ _ Hs), str_eq_refl, (find_app _ _ _ _ En), str_eq_refl; reflexivity].
        intros s' n' Hd. unfold config_get. rewrite (section_put _ _ _ _ Hs). destruct (str_eq s s') eqn:E; [|reflexivity]. apply str_eq_spec in E as <-. rewrite Es, (find_app _ _ _ _ En).
        destruct (str_eq n n') eqn:E; [|reflexivity]. apply str_eq_spec in E as <-. congruence.
      * split; [reflexivity|]. split; [reflexivity|]. auto.
  - assert (Ge : config_get c s n = None) by (unfold config_get; rewrite Es; reflexivity).
    destruct m1; cbn [negb]; [destruct m2; cbn [negb]|]; intro H; injection H as <- <-.
    + split; [|unfold config_get; rewrite (section_app _ _ _ _ Es), str_eq_refl; cbn [find_entry fst]; rewrite str_eq_refl; reflexivity].
      intros s' n' Hd. unfold config_get. rewrite (section_app _ _ _ _ Es). destruct (str_eq s s') eqn:E; [|reflexivity]. apply str_eq_spec in E as <-. rewrite Es. cbn [find_entry fst].
      destruct (str_eq n n') eqn:E; [|reflexivity]. apply str_eq_spec in E as <-. congruence.
    + split; [|split; [reflexivity|]; split; [auto|]; right; unfold config_get; rewrite (section_app _ _ _ _ Es), str_eq_refl; reflexivity].
      intros s' n' Hd. unfold config_get. rewrite (section_app _ _ _ _ Es). destruct (str_eq s s') eqn:E; [|reflexivity]. apply str_eq_spec in E as <-. rewrite Es. reflexivity.
    + split; [reflexivity|]. split; [reflexivity|]. auto.
Qed.

(** A configuration that gives what the assignments give. *)
Definition gives (c : config) (l : list assignment) : Prop := forall s n, config_get c s n = assigned l s n.
Lemma assigned_snoc l s n v s' n' : assigned (l ++ [(s, n, v)]) s' n' =
  if list_eq_dec N.eq_dec s s' then if list_eq_dec N.eq_dec n n' then Some v else assigned l s' n' else assigned l s' n'.
Proof.
  induction l as [|[[s0 n0] v0] l IH]; cbn [assigned List.app]; [reflexivity|]. rewrite IH.
  destruct (list_eq_dec N.eq_dec s s'); [|reflexivity]. destruct (list_eq_dec N.eq_dec n n'); reflexivity.
Qed.
Lemma gives_set c l s n v c' m1 m2 : gives c l -> config_set m1 m2 c s n v = (c', Ok tt) -> gives c' (l ++ [(s, n, v)]).
Proof.
  intros H E s' n'. apply set_get in E as [E1 E2]. rewrite assigned_snoc.
  destruct (list_eq_dec N.eq_dec s s') as [<-|D]; [destruct (list_eq_dec N.eq_dec n n') as [<-|D]; [exact E2|]|]; (rewrite E1; [apply H|congruence]).
Qed.

(** ** The pure lexical analyser *)

Fixpoint span (f : N -> bool) (l : list N) : list N * list N :=
  match l with
  | [] => ([], [])
  | c :: l' => if f c then let (a, b) := span f l' in (c :: a, b) else ([], l)
  end.
Lemma span_app f l : l = fst (span f l) ++ snd (span f l).
Proof. induction l as [|c l IH]; [reflexivity|]. cbn [span]. destruct (f c); [|reflexivity]. destruct (span f l). cbn [fst snd List.app] in *. congruence. Qed.
Lemma span_all f l : Forall (fun c => f c = true) (fst (span f l)).
Proof. induction l as [|c l IH]; [constructor|]. cbn [span]. destruct (f c) eqn:E; [|constructor]. destruct (span f l). cbn [fst] in *. constructor; assumption. Qed.
Lemma span_stop f l c l' : snd (span f l) = c :: l' -> f c = false.
Proof. induction l as [|x l IH]; [discriminate|]. cbn [span]. destruct (f x) eqn:E; [|cbn; congruence]. destruct (span f l). exact IH. Qed.
Lemma span_eq f a b : Forall (fun c => f c = true) a -> match b with [] => True | c :: _ => f c = false end -> span f (a ++ b) = (a, b).
Proof.
  intros Ha Hb. induction Ha as [|c a Hc Ha IH]; cbn [List.app span].
  - destruct b as [|c b]; [reflexivity|]. cbn [span]. rewrite Hb. reflexivity.
  - rewrite Hc, IH. reflexivity.
Qed.

(** White space within a line. *)
Definition ws (c : N) : bool := is_space c && negb (c =? 10).
Definition not_eol (c : N) : bool := negb (c =? 10).

(** A quoted string: the string and what follows the quote. *)
Fixpoint quotef (pc : N) (l : list N) : option (list N * list N) :=
  match l with
  | [] => None
  | c :: l =>
    if (c =? 34) && negb (pc =? 92) then Some ([], l) else
    if (c =? 10) && negb (pc =? 92) then None else
    match quotef c l with Some (v, l') => Some (c :: v, l') | None => None end
  end.
Lemma quotef_app l : forall pc v l', quotef pc l = Some (v, l') -> l = v ++ 34 :: l'.
Proof.
  induction l as [|c l IH]; intros pc v l'; cbn [quotef]; [discriminate|]. destruct (N.eqb_spec c 34) as [->|]; cbn [andb].
  - destruct (pc =? 92); cbn [negb andb]; [|intro H; injection H as <- <-; reflexivity]. destruct (_ && _); [discriminate|].
    destruct (quotef 34 l) as [[v0 l0]|] eqn:E; [|discriminate]. intro H; injection H as <- <-. cbn [List.app]. f_equal. apply (IH _ _ _ E).
  - destruct (_ && _); [discriminate|].
    destruct (quotef c l) as [[v0 l0]|] eqn:E; [|discriminate]. intro H; injection H as <- <-. cbn [List.app]. f_equal. apply (IH _ _ _ E).
Qed.

(** The next token: kind, string, and what follows; the white space before it. *)
Definition tokf (l : list N) : option (token * list N * list N) :=
  match l with
  | [] => Some (TEof, [], [])
  | c :: l' =>
    if c =? 10 then Some (TEol, [], l') else
    if c =? 59 then match snd (span not_eol l') with [] => Some (TEof, [], []) | _ :: l'' => Some (TEol, [], l'') end else
    if c =? 61 then Some (TAssign, [], l') else
    if c =? 91 then Some (TLeft, [], l') else
    if c =? 93 then Some (TRight, [], l') else
    if is_alpha c then let (v, l'') := span id_char l in Some (TId, v, l'') else
    if is_digit c then let (v, l'') := span is_digit l in Some (TNum, v, l'') else
    if c =? 34 then match quotef 0 l' with Some (v, l'') => Some (TQuote, v, l'') | None => None end else None
  end.
Definition lexf (l : list N) : option (token * list N * list N) := tokf (snd (span ws l)).

(** ** Statements *)

(** What the parser makes of the text after some lines: nothing is left; a line and what follows it; a line without its end; or
    an error, the text at which it occurs, and an assignment made nevertheless. *)
Inductive stmt := SDone | SLine (i : item) (l' : list N) | SLast (i : item) | SBad (e : errno) (rest : list N) (ex : option (list N * list N)).
Definition finf (i : item) (l : list N) : stmt :=
  match lexf l with
  | None => SBad EBADMSG l None
  | Some (TEol, _, l') => SLine i l'
  | Some (TEof, _, _) => SLast i
  | Some _ => SBad EPROTO l (match i with IAssign n v => Some (n, v) | _ => None end)
  end.
Definition stmtf (l : list N) : stmt :=
  match lexf l with
  | None => SBad EBADMSG l None
  | Some (TEol, _, l') => SLine INone l'
  | Some (TEof, _, _) => SDone
  | Some (TId, n, l1) =>
    match lexf l1 with
    | None => SBad EBADMSG l1 None
    | Some (TAssign, _, l2) =>
      match lexf l2 with
      | None => SBad EBADMSG l2 None
      | Some (TId, v, l3) | Some (TNum, v, l3) | Some (TQuote, v, l3) => finf (IAssign n v) l3
      | Some _ => SBad EPROTO l2 None
      end
    | Some _ => SBad EPROTO l1 None
    end
  | Some (TLeft, _, l1) =>
    match lexf l1 with
    | None => SBad EBADMSG l1 None
    | Some (TId, s, l2) =>
      match lexf l2 with
      | None => SBad EBADMSG l2 None
      | Some (TRight, _, l3) => finf (ISection s) l3
      | Some _ => SBad EPROTO l2 None
      end
    | Some _ => SBad EPROTO l1 None
    end
  | Some _ => SBad EPROTO l None
  end.

(** ** The pure lexical analyser and the specification *)

Lemma alpha_letter c : is_alpha c = true <-> letter c.
Proof. unfold is_alpha, letter. destruct (N.leb_spec 65 c), (N.leb_spec c 90), (N.leb_spec 97 c), (N.leb_spec c 122); cbn; split; intro; try lia; try discriminate; reflexivity. Qed.
Lemma digit_digit c : is_digit c = true <-> digit c.
Proof. unfold is_digit, digit. destruct (N.leb_spec 48 c), (N.leb_spec c 57); cbn; split; intro; try lia; try discriminate; reflexivity. Qed.
Lemma ws_space c : ws c = true <-> space c.
Proof. unfold ws, is_space, space. destruct (N.leb_spec 9 c), (N.leb_spec c 13), (N.eqb_spec c 32), (N.eqb_spec c 10); cbn; split; intro; try lia; try discriminate; reflexivity. Qed.
Lemma id_spec c : id_char c = true <-> letter c \/ digit c \/ c = 95.
Proof. unfold id_char. rewrite !orb_true_iff, alpha_letter, digit_digit, N.eqb_eq. tauto. Qed.
Lemma forall_iff (f : N -> bool) (P : N -> Prop) l : (forall c, f c = true <-> P c) -> (Forall (fun c => f c = true) l <-> Forall P l).
Proof. intro H. split; apply Forall_impl; intros a; apply H. Qed.

(** The comment at the end of a line. *)
Definition comment (e : list N) : Prop := e = [] \/ exists c, e = 59 :: c /\ ~ In 10 c.
Lemma comment_end w e : Forall space w -> comment e -> line_end (w ++ e).
Proof. intros Hw [->|(c & -> & Hc)]; [left; rewrite app_nil_r; exact Hw|right]. exists w, c. auto. Qed.
Lemma end_comment t : line_end t -> exists w e, t = w ++ e /\ Forall space w /\ comment e.
Proof. intros [H|(w & c & -> & Hw & Hc)]; [exists t, []; rewrite app_nil_r; split; [reflexivity|]; split; [exact H|left; reflexivity]|exists w, (59 :: c); split; [reflexivity|]; split; [exact Hw|right; eauto]]. Qed.

Definition qprop (pc : N) (v : list N) : Prop :=
  (forall a c b, v = a ++ c :: b -> c = 34 \/ c = 10 -> exists a', pc :: a = a' ++ [92]) /\ ~ exists a, pc :: v = a ++ [92].
Lemma qprop_cons pc c v : qprop pc (c :: v) <-> ((c = 34 \/ c = 10 -> pc = 92) /\ qprop c v).
Proof.
  unfold qprop. split.
  - intros [H1 H2]. split; [|split].
    + intro Hc. destruct (H1 [] c v eq_refl Hc) as (a' & E). destruct a' as [|x [|y a']]; cbn in E; congruence.
    + intros a x b -> Hx. destruct (H1 (c :: a) x b eq_refl Hx) as (a' & E). destruct a' as [|y a']; [discriminate|]. injection E as _ E. exists a'. exact E.
    + intros (a & E). apply H2. exists (pc :: a). rewrite E. reflexivity.
  - intros (H1 & H2 & H3). split.
    + intros a x b E Hx. destruct a as [|y a]; injection E as E1 E2; [subst x; exists []; rewrite (H1 Hx); reflexivity|].
      subst y. destruct (H2 a x b E2 Hx) as (a' & Ea). exists (pc :: a'). rewrite Ea. reflexivity.
    + intros (a & E). destruct a as [|y a]; [discriminate|]. injection E as _ E. apply H3. exists a. exact E.
Qed.
Lemma qprop_nil pc : qprop pc [] <-> pc <> 92.
Proof.
  split.
  - intros [_ H] ->. apply H. exists []. reflexivity.
  - intro H. split; [intros a c b E; destruct a; discriminate|]. intros (a & E). destruct a as [|x [|y a]]; cbn in E; congruence.
Qed.
Lemma qprop_0 v : qprop 0 v <-> quotable v.
Proof.
  unfold qprop, quotable. split; intros [H1 H2]; split.
  - intros a c b E Hc. destruct (H1 a c b E Hc) as (a' & Ea). destruct a' as [|x a']; [discriminate|]. injection Ea as _ Ea. exists a'. exact Ea.
  - intros (a & ->). apply H2. exists (0 :: a). reflexivity.
  - intros a c b E Hc. destruct (H1 a c b E Hc) as (a' & ->). exists (0 :: a'). reflexivity.
  - intros (a & E). destruct a as [|x a]; [discriminate|]. injection E as _ ->. apply H2. exists a. reflexivity.
Qed.
Lemma quotef_sound l : forall pc v l', quotef pc l = Some (v, l') -> qprop pc v.
Proof.
  induction l as [|c l IH]; intros pc v l'; cbn [quotef]; [discriminate|].
  destruct (N.eqb_spec pc 92) as [->|Hp]; cbn [negb]; rewrite ?andb_false_r, ?andb_true_r.
  - destruct (quotef c l) as [[v0 l0]|] eqn:E; [|discriminate]. intro H; injection H as <- <-. apply qprop_cons. split; [auto|]. exact (IH _ _ _ E).
  - destruct (N.eqb_spec c 34); [intro H; injection H as <- <-; apply qprop_nil; exact Hp|]. destruct (N.eqb_spec c 10); [discriminate|].
    destruct (quotef c l) as [[v0 l0]|] eqn:E; [|discriminate]. intro H; injection H as <- <-. apply qprop_cons. split; [intros [?|?]; contradiction|]. exact (IH _ _ _ E).
Qed.
Lemma quotef_complete v : forall pc l', qprop pc v -> quotef pc (v ++ 34 :: l') = Some (v, l').
Proof.
  induction v as [|c v IH]; intros pc l' H; cbn [List.app quotef].
  - apply qprop_nil in H. rewrite (proj2 (N.eqb_neq _ _) H). reflexivity.
  - apply qprop_cons in H as [H1 H2]. rewrite (IH _ _ H2). destruct (N.eqb_spec pc 92) as [->|Hp]; cbn [negb]; rewrite ?andb_false_r, ?andb_true_r; [reflexivity|].
    destruct (N.eqb_spec c 34); [tauto|]. destruct (N.eqb_spec c 10); [tauto|]. reflexivity.
Qed.

Definition not_hd (f : N -> bool) (l : list N) : Prop := match l with [] => True | c :: _ => f c = false end.
Lemma span_not_hd f l : not_hd f (snd (span f l)).
Proof. pose proof (span_stop f l) as H. destruct (snd (span f l)) as [|c l']; [exact I|]. exact (H _ _ eq_refl). Qed.

Definition token_text (t : token) (v l l' : list N) : Prop :=
  match t with
  | TEof => l' = [] /\ comment l
  | TNone => False
  | TEol => exists e, l = e ++ 10 :: l' /\ comment e
  | TAssign => l = 61 :: l'
  | TLeft => l = 91 :: l'
  | TRight => l = 93 :: l'
  | TId => l = v ++ l' /\ name v /\ not_hd id_char l'
  | TNum => l = v ++ l' /\ number v /\ not_hd is_digit l'
  | TQuote => l = 34 :: v ++ 34 :: l' /\ quotable v
  end.
Lemma not_eol_in e : Forall (fun c => not_eol c = true) e <-> ~ In 10 e.
Proof.
  rewrite Forall_forall. unfold not_eol. split.
  - intros H Hi. specialize (H _ Hi). discriminate.
  - intros H x Hx. destruct (N.eqb_spec x 10) as [->|]; [contradiction|reflexivity].
Qed.
Lemma tokf_sound l t v l' : tokf l = Some (t, v, l') -> token_text t v l l'.
Proof.
  destruct l as [|c l]; cbn [tokf].
  { intro H; injection H as <- <- <-. split; [reflexivity|left; reflexivity]. }
  destruct (N.eqb_spec c 10) as [->|N1]; [intro H; injection H as <- <- <-; exists []; split; [reflexivity|left; reflexivity]|].
  destruct (N.eqb_spec c 59) as [->|N2].
  { pose proof (span_app not_eol l) as Ha. pose proof (span_all not_eol l) as Hb. pose proof (span_stop not_eol l) as Hc. apply not_eol_in in Hb. destruct (span not_eol l) as [a b]. cbn [fst snd] in *.
    destruct b as [|x b]; intro H; injection H as <- <- <-.
    - split; [reflexivity|]. rewrite app_nil_r in Ha. subst a. right. eauto.
    - specialize (Hc _ _ eq_refl). unfold not_eol in Hc. destruct (N.eqb_spec x 10) as [->|]; [|discriminate]. exists (59 :: a). split; [rewrite Ha; reflexivity|]. right. eauto. }
  destruct (N.eqb_spec c 61) as [->|N3]; [intro H; injection H as <- <- <-; reflexivity|].
  destruct (N.eqb_spec c 91) as [->|N4]; [intro H; injection H as <- <- <-; reflexivity|].
  destruct (N.eqb_spec c 93) as [->|N5]; [intro H; injection H as <- <- <-; reflexivity|].
  destruct (is_alpha c) eqn:Ea.
  { pose proof (span_app id_char (c :: l)) as H1. pose proof (span_all id_char (c :: l)) as H2. pose proof (span_not_hd id_char (c :: l)) as H3.
    destruct (span id_char (c :: l)) as [a b] eqn:Es. cbn [fst snd] in *. intro H; injection H as <- <- <-. split; [exact H1|]. split; [|exact H3].
    destruct a as [|x a]; [cbn [List.app] in H1; subst b; cbn [not_hd] in H3; unfold id_char in H3; rewrite Ea in H3; discriminate|].
    injection H1 as <- H1. exists c, a. split; [reflexivity|]. split; [apply alpha_letter; exact Ea|]. apply Forall_inv_tail in H2. apply (forall_iff _ _ _ id_spec). exact H2. }
  destruct (is_digit c) eqn:Ed.
  { pose proof (span_app is_digit (c :: l)) as H1. pose proof (span_all is_digit (c :: l)) as H2. pose proof (span_not_hd is_digit (c :: l)) as H3.
    destruct (span is_digit (c :: l)) as [a b] eqn:Es. cbn [fst snd] in *. intro H; injection H as <- <- <-. split; [exact H1|]. split; [|exact H3].
    split; [intros ->; cbn [List.app] in H1; subst b; cbn [not_hd] in H3; congruence|]. apply (forall_iff _ _ _ digit_digit). exact H2. }
  destruct (N.eqb_spec c 34) as [->|N6]; [|discriminate]. destruct (quotef 0 l) as [[a b]|] eqn:Eq; [|discriminate]. intro H; injection H as <- <- <-.
  split; [rewrite (quotef_app _ _ _ _ Eq) at 1; reflexivity|]. apply qprop_0. exact (quotef_sound _ _ _ _ Eq).
Qed.
Lemma name_not_special c : letter c -> (c =? 10) = false /\ (c =? 59) = false /\ (c =? 61) = false /\ (c =? 91) = false /\ (c =? 93) = false.
Proof. unfold letter. intro H. repeat split; apply N.eqb_neq; lia. Qed.
Lemma digit_not_special c : digit c -> (c =? 10) = false /\ (c =? 59) = false /\ (c =? 61) = false /\ (c =? 91) = false /\ (c =? 93) = false /\ is_alpha c = false.
Proof. unfold digit. intro H. repeat split; try (apply N.eqb_neq; lia). destruct (is_alpha c) eqn:E; [|reflexivity]. apply alpha_letter in E. unfold letter in E. lia. Qed.
Lemma tokf_complete l t v l' : token_text t v l l' -> tokf l = Some (t, match t with TId | TNum | TQuote => v | _ => [] end, l').
Proof.
  destruct t; cbn [token_text].
  - intros (-> & [->|(c & -> & Hc)]); [reflexivity|]. cbn [tokf]. change (59 =? 10) with false. change (59 =? 59) with true. cbn iota.
    rewrite <- (app_nil_r c), (span_eq not_eol c []); [reflexivity|apply not_eol_in; exact Hc|exact I].
  - contradiction.
  - intros (e & -> & [->|(c & -> & Hc)]); [reflexivity|]. cbn [List.app tokf]. change (59 =? 10) with false. change (59 =? 59) with true. cbn iota.
    rewrite (span_eq not_eol c (10 :: l')); [reflexivity|apply not_eol_in; exact Hc|reflexivity].
  - intros ->. reflexivity.
  - intros ->. reflexivity.
  - intros ->. reflexivity.
  - intros (-> & (c & s & -> & Hc & Hs) & Hn). destruct (name_not_special c Hc) as (E1 & E2 & E3 & E4 & E5).
    unfold tokf. cbn [List.app]. rewrite E1, E2, E3, E4, E5, (proj2 (alpha_letter c) Hc).
    change (c :: s ++ l') with ((c :: s) ++ l'). rewrite (span_eq id_char (c :: s) l'); [reflexivity| |exact Hn].
    constructor; [unfold id_char; rewrite (proj2 (alpha_letter c) Hc); reflexivity|]. apply (forall_iff _ _ _ id_spec). exact Hs.
  - intros (-> & (Hv & Hd) & Hn). destruct v as [|c v]; [congruence|]. pose proof (Forall_inv Hd) as Hc. destruct (digit_not_special c Hc) as (E1 & E2 & E3 & E4 & E5 & E6).
    unfold tokf. cbn [List.app]. rewrite E1, E2, E3, E4, E5, E6, (proj2 (digit_digit c) Hc).
    change (c :: v ++ l') with ((c :: v) ++ l'). rewrite (span_eq is_digit (c :: v) l'); [reflexivity| |exact Hn]. apply (forall_iff _ _ _ digit_digit). exact Hd.
  - intros (-> & Hq). cbn [tokf]. change (34 =? 10) with false. change (34 =? 59) with false. change (34 =? 61) with false. change (34 =? 91) with false. change (34 =? 93) with false.
    change (is_alpha 34) with false. change (is_digit 34) with false. change (34 =? 34) with true. cbn iota. rewrite quotef_complete; [reflexivity|]. apply qprop_0. exact Hq.
Qed.
Lemma token_text_ws t v l l' : token_text t v l l' -> not_hd ws l.
Proof.
  destruct t; cbn [token_text].
  - intros (_ & [->|(c & -> & _)]); [exact I|reflexivity].
  - contradiction.
  - intros (e & -> & [->|(c & -> & _)]); reflexivity.
  - intros ->. reflexivity.
  - intros ->. reflexivity.
  - intros ->. reflexivity.
  - intros (-> & (c & s & -> & Hc & _) & _). cbn. destruct (ws c) eqn:E; [|reflexivity]. apply ws_space in E. unfold letter, space in *. lia.
  - intros (-> & (Hv & Hd) & _). destruct v as [|c v]; [congruence|]. pose proof (Forall_inv Hd) as Hc. cbn. destruct (ws c) eqn:E; [|reflexivity]. apply ws_space in E. unfold digit, space in *. lia.
  - intros (-> & _). reflexivity.
Qed.
Lemma lexf_sound l t v l' : lexf l = Some (t, v, l') -> exists w l0, l = w ++ l0 /\ Forall space w /\ token_text t v l0 l'.
Proof.
  unfold lexf. intro H. apply tokf_sound in H. exists (fst (span ws l)), (snd (span ws l)). split; [apply span_app|]. split; [|exact H].
  apply (forall_iff _ _ _ ws_space). apply span_all.
Qed.
Lemma lexf_complete w l t v l' : Forall space w -> token_text t v l l' -> lexf (w ++ l) = Some (t, match t with TId | TNum | TQuote => v | _ => [] end, l').
Proof.
  intros Hw H. unfold lexf. rewrite (span_eq ws w l); [|apply (forall_iff _ _ _ ws_space); exact Hw|exact (token_text_ws _ _ _ _ H)]. apply tokf_complete. exact H.
Qed.

Lemma lexf_end e b : line_end e -> lexf (e ++ 10 :: b) = Some (TEol, [], b) /\ lexf e = Some (TEof, [], []).
Proof.
  intro H. apply end_comment in H as (w & e' & -> & Hw & He). split.
  - rewrite <- app_assoc. apply (lexf_complete w (e' ++ 10 :: b) TEol [] b Hw). exists e'. auto.
  - apply (lexf_complete w e' TEof [] [] Hw). split; [reflexivity|exact He].
Qed.
Lemma finf_sound i l o : finf i l = o ->
  match o with
  | SDone => False
  | SLine i' l' => i' = i /\ exists e, l = e ++ 10 :: l' /\ line_end e
  | SLast i' => i' = i /\ line_end l
  | SBad _ _ _ => True
  end.
Proof.
  intros <-. unfold finf. destruct (lexf l) as [[[t v] l']|] eqn:E; [|exact I]. apply lexf_sound in E as (w & l0 & -> & Hw & H). destruct t; cbn [token_text] in H; try exact I.
  - split; [reflexivity|]. destruct H as (_ & H). apply comment_end; assumption.
  - split; [reflexivity|]. destruct H as (e & -> & H). exists (w ++ e). split; [rewrite <- app_assoc; reflexivity|]. apply comment_end; assumption.
Qed.
Lemma finf_complete i e b : line_end e -> finf i (e ++ 10 :: b) = SLine i b /\ finf i e = SLast i.
Proof. intro H. destruct (lexf_end e b H) as [E1 E2]. unfold finf. rewrite E1, E2. auto. Qed.

Lemma stmtf_sound l :
  match stmtf l with
  | SDone => line_end l
  | SLine i l' => exists a, l = a ++ 10 :: l' /\ line i a
  | SLast i => line i l /\ i <> INone
  | SBad _ _ _ => True
  end.
Proof.
  unfold stmtf. destruct (lexf l) as [[[t v] l1]|] eqn:E; [|exact I]. apply lexf_sound in E as (w & l0 & -> & Hw & H). destruct t; cbn [token_text] in H; try exact I.
  - destruct H as (_ & H). apply comment_end; assumption.
  - destruct H as (e & -> & H). exists (w ++ e). split; [rewrite <- app_assoc; reflexivity|]. apply comment_end; assumption.
  - subst l0. destruct (lexf l1) as [[[t s] l2]|] eqn:E; [|exact I]. apply lexf_sound in E as (w2 & l0 & -> & Hw2 & H). destruct t; cbn [token_text] in H; try exact I.
    destruct H as (-> & Hs & _). destruct (lexf l2) as [[[t v2] l3]|] eqn:E; [|exact I]. apply lexf_sound in E as (w3 & l0 & -> & Hw3 & H). destruct t; cbn [token_text] in H; try exact I. subst l0.
    pose proof (finf_sound (ISection s) l3 _ eq_refl) as Hf. destruct (finf (ISection s) l3); [contradiction| | |exact I].
    + destruct Hf as (-> & e & -> & He). exists (w ++ [91] ++ w2 ++ s ++ w3 ++ [93] ++ e). split; [rewrite <- ?app_assoc; cbn [List.app]; repeat (rewrite <- ?app_assoc; cbn [List.app]); reflexivity|].
      exists w, w2, w3, e. auto 8.
    + destruct Hf as (-> & He). split; [|discriminate]. exists w, w2, w3, l3. auto 8.
  - destruct H as (-> & Hn & _). destruct (lexf l1) as [[[t v2] l2]|] eqn:E; [|exact I]. apply lexf_sound in E as (w2 & l0 & -> & Hw2 & H). destruct t; cbn [token_text] in H; try exact I. subst l0.
    destruct (lexf l2) as [[[t v3] l3]|] eqn:E; [|exact I]. apply lexf_sound in E as (w3 & l0 & -> & Hw3 & H).
    assert (G : forall vt, l0 = vt ++ l3 -> value_text v3 vt ->
      match finf (IAssign v v3) l3 with
      | SDone => line_end (w ++ v ++ w2 ++ 61 :: w3 ++ l0)
      | SLine i l' => exists a, w ++ v ++ w2 ++ 61 :: w3 ++ l0 = a ++ 10 :: l' /\ line i a
      | SLast i => line i (w ++ v ++ w2 ++ 61 :: w3 ++ l0) /\ i <> INone
      | SBad _ _ _ => True
      end).
    { intros vt -> Hv. pose proof (finf_sound (IAssign v v3) l3 _ eq_refl) as Hf. destruct (finf (IAssign v v3) l3); [contradiction| | |exact I].
      - destruct Hf as (-> & e & -> & He). exists (w ++ v ++ w2 ++ [61] ++ w3 ++ vt ++ e). split; [repeat (rewrite <- ?app_assoc; cbn [List.app]); reflexivity|].
        exists w, w2, w3, vt, e. auto 8.
      - destruct Hf as (-> & He). split; [|discriminate]. exists w, w2, w3, vt, l3. auto 8. }
    destruct t; cbn [token_text] in H; try exact I.
    + destruct H as (-> & Hv & _). apply (G v3 eq_refl). left. auto.
    + destruct H as (-> & Hv & _). apply (G v3 eq_refl). right. left. auto.
    + destruct H as (-> & Hv). apply (G ([34] ++ v3 ++ [34])); [repeat (rewrite <- ?app_assoc; cbn [List.app]); reflexivity|]. right. right. auto.
Qed.

Lemma space_not_id c : space c -> id_char c = false /\ is_digit c = false.
Proof.
  intro H. destruct (id_char c) eqn:E1; [apply id_spec in E1; unfold space, letter, digit in *; lia|]. split; [reflexivity|].
  destruct (is_digit c) eqn:E2; [|reflexivity]. apply digit_digit in E2. unfold space, digit in *; lia.
Qed.
Lemma not_hd_app f w x l : Forall space w -> (forall c, space c -> f c = false) -> f x = false -> not_hd f (w ++ x :: l).
Proof. intros Hw Hs Hx. destruct Hw; cbn; auto. Qed.
Lemma not_hd_end f e b : line_end e -> (forall c, space c -> f c = false) -> f 59 = false -> f 10 = false -> not_hd f (e ++ 10 :: b) /\ not_hd f e.
Proof. intros He Hs H1 H2. apply end_comment in He as (w & e' & -> & Hw & He). destruct Hw; cbn; [|auto]. destruct He as [->|(c & -> & _)]; cbn; auto. Qed.

(** A text that begins with the beginning of a line: what the parser makes of the rest. *)
Lemma stmtf_section w1 w2 s w3 e : Forall space w1 -> Forall space w2 -> name s -> Forall space w3 ->
  stmtf (w1 ++ 91 :: w2 ++ s ++ w3 ++ 93 :: e) = finf (ISection s) e.
Proof.
  intros H1 H2 H3 H4. unfold stmtf. rewrite (lexf_complete w1 _ TLeft [] (w2 ++ s ++ w3 ++ 93 :: e) H1 eq_refl).
  rewrite (lexf_complete w2 _ TId s (w3 ++ 93 :: e) H2).
  - rewrite (lexf_complete w3 _ TRight [] e H4 eq_refl). reflexivity.
  - split; [reflexivity|]. split; [exact H3|]. apply not_hd_app; [exact H4|intros c Hc; apply (space_not_id c Hc)|reflexivity].
Qed.
Lemma stmtf_assign w1 n w2 w3 v vt e : Forall space w1 -> name n -> Forall space w2 -> Forall space w3 -> value_text v vt -> not_hd id_char e ->
  stmtf (w1 ++ n ++ w2 ++ 61 :: w3 ++ vt ++ e) = finf (IAssign n v) e.
Proof.
  intros H1 H2 H3 H4 H5 H6. unfold stmtf. rewrite (lexf_complete w1 _ TId n (w2 ++ 61 :: w3 ++ vt ++ e) H1).
  2:{ split; [reflexivity|]. split; [exact H2|]. apply not_hd_app; [exact H3|intros c Hc; apply (space_not_id c Hc)|reflexivity]. }
  rewrite (lexf_complete w2 _ TAssign [] (w3 ++ vt ++ e) H3 eq_refl).
  destruct H5 as [(H5 & ->)|[(H5 & ->)|(H5 & ->)]].
  - rewrite (lexf_complete w3 _ TId v e H4); [reflexivity|]. split; [reflexivity|]. split; [exact H5|exact H6].
  - rewrite (lexf_complete w3 _ TNum v e H4); [reflexivity|]. split; [reflexivity|]. split; [exact H5|]. destruct e as [|c e]; [exact I|]. cbn in *. unfold id_char in H6. destruct (is_alpha c), (is_digit c); try discriminate. reflexivity.
  - rewrite (lexf_complete w3 _ TQuote v e H4); [reflexivity|]. split; [|exact H5]. repeat (rewrite <- ?app_assoc; cbn [List.app]). reflexivity.
Qed.
Lemma stmtf_complete i a b : line i a -> stmtf (a ++ 10 :: b) = SLine i b /\ stmtf a = (match i with INone => SDone | _ => SLast i end).
Proof.
  destruct i as [|s|n v]; cbn [line].
  - intro H. destruct (lexf_end a b H) as [E1 E2]. unfold stmtf. rewrite E1, E2. auto.
  - intros (w1 & w2 & w3 & e & -> & H1 & H2 & H3 & H4 & H5). destruct (finf_complete (ISection s) e b H5) as [F1 F2].
    replace ((w1 ++ [91] ++ w2 ++ s ++ w3 ++ [93] ++ e) ++ 10 :: b) with (w1 ++ 91 :: w2 ++ s ++ w3 ++ 93 :: (e ++ 10 :: b)) by (repeat (rewrite <- ?app_assoc; cbn [List.app]); reflexivity).
    rewrite (stmtf_section w1 w2 s w3 _ H1 H2 H3 H4), F1. split; [reflexivity|]. cbn [List.app]. rewrite (stmtf_section w1 w2 s w3 _ H1 H2 H3 H4). exact F2.
  - intros (w1 & w2 & w3 & vt & e & -> & H1 & H2 & H3 & H4 & H5 & H6). destruct (finf_complete (IAssign n v) e b H6) as [F1 F2].
    destruct (not_hd_end id_char e b H6 ltac:(intros c Hc; apply (space_not_id c Hc)) eq_refl eq_refl) as [N1 N2].
    replace ((w1 ++ n ++ w2 ++ [61] ++ w3 ++ vt ++ e) ++ 10 :: b) with (w1 ++ n ++ w2 ++ 61 :: w3 ++ vt ++ (e ++ 10 :: b)) by (repeat (rewrite <- ?app_assoc; cbn [List.app]); reflexivity).
    rewrite (stmtf_assign w1 n w2 w3 v vt _ H1 H2 H3 H4 H5 N1), F1. split; [reflexivity|]. cbn [List.app]. rewrite (stmtf_assign w1 n w2 w3 v vt _ H1 H2 H3 H4 H5 N2). exact F2.
Qed.
Lemma stmtf_here l : line_here l <-> forall e rest ex, stmtf l <> SBad e rest ex.
Proof.
  split.
  - intros [(i & a & b & -> & H)|(i & H)] e rest ex; [destruct (stmtf_complete i a b H) as [E _]; cbn [List.app]; congruence|]. destruct (stmtf_complete i l [] H) as [_ E]. rewrite E. destruct i; discriminate.
  - intro H. pose proof (stmtf_sound l) as S. destruct (stmtf l) as [|i l'|i|e rest ex] eqn:E.
    + right. exists INone. exact S.
    + left. destruct S as (a & -> & S). exists i, a, l'. auto.
    + right. exists i. apply S.
    + exfalso. exact (H _ _ _ eq_refl).
Qed.

Lemma stmtf_errno l e rest ex : stmtf l = SBad e rest ex -> e = EBADMSG \/ e = EPROTO.
Proof.
  assert (F : forall i l, finf i l = SBad e rest ex -> e = EBADMSG \/ e = EPROTO).
  { intros i l0. unfold finf. destruct (lexf l0) as [[[t v] l']|]; [|intro H; injection H; auto]. destruct t; intro H; try discriminate H; injection H; auto. }
  unfold stmtf. destruct (lexf l) as [[[t v] l1]|]; [|intro H; injection H; auto]. destruct t; try (intro H; try discriminate H; injection H; auto; fail).
  - destruct (lexf l1) as [[[t2 v2] l2]|]; [|intro H; injection H; auto]. destruct t2; try (intro H; try discriminate H; injection H; auto; fail).
    destruct (lexf l2) as [[[t3 v3] l3]|]; [|intro H; injection H; auto]. destruct t3; try (intro H; try discriminate H; injection H; auto; fail). apply F.
  - destruct (lexf l1) as [[[t2 v2] l2]|]; [|intro H; injection H; auto]. destruct t2; try (intro H; try discriminate H; injection H; auto; fail).
    destruct (lexf l2) as [[[t3 v3] l3]|]; [|intro H; injection H; auto]. destruct t3; try (intro H; try discriminate H; injection H; auto; fail); apply F.
Qed.

(** The section after some lines. *)
Fixpoint sect (s : list N) (l : list item) : list N :=
  match l with [] => s | ISection s :: l => sect s l | _ :: l => sect s l end.
Lemma sect_snoc l : forall s i, sect s (l ++ [i]) = match i with ISection s' => s' | _ => sect s l end.
Proof. induction l as [|x l IH]; intros s i; cbn [List.app sect]; [destruct i; reflexivity|]. destruct x; apply IH. Qed.
Lemma assignments_app a : forall s b, assignments s (a ++ b) = assignments s a ++ assignments (sect s a) b.
Proof. induction a as [|x a IH]; intros s b; cbn [List.app sect assignments]; [reflexivity|]. destruct x; [apply IH|apply IH|]. rewrite IH. reflexivity. Qed.
Lemma lines_snoc l : forall ts i t, lines l ts -> line i t -> lines (l ++ [i]) (ts ++ t ++ [10]).
Proof.
  induction l as [|x l IH]; intros ts i t H Ht; inversion H; subst.
  - cbn [List.app]. replace (t ++ [10]) with (t ++ [10] ++ []) by reflexivity. constructor; [exact Ht|constructor].
  - cbn [List.app]. rewrite <- !app_assoc. cbn [List.app]. apply (lines_more x t0 (l ++ [i])); [assumption|]. apply IH; assumption.
Qed.

(** ** The lexical analyser of the model *)

Section Parser.
Context (T : list N) (mem : N -> bool) (HT : ~ In 0 T) (HL : lenN T <= 2147483648).
Let inp := T ++ [0].
Definition starved : Prop := exists n, mem n = false.

Lemma in_len_T : in_len inp = lenN T.
Proof. unfold in_len, inp. rewrite lenN_app. change (lenN [0]) with 1. rewrite N.add_sub. apply N.mod_small. unfold two32. lia. Qed.

(** Positions, with the arithmetic of the program. *)
Definition posn (t : list N) : N * N :=
  fold_left (fun p c => if c =? 10 then (add32 (fst p) 1, 0) else if c =? 9 then (fst p, mul32 (add32 (snd p) TAB_WIDTH / TAB_WIDTH) TAB_WIDTH) else (fst p, add32 (snd p) 1)) t (1, 0).

(** The parser has read [pre]; [l] is left. *)
Definition at_ (p : pst) (pre l : list N) : Prop := T = pre ++ l /\ p_idx p = lenN pre /\ (p_line p, p_col p) = posn pre.
(** It has read [pre] and the first character of [l], if there is one. *)
Definition cur (p : pst) (pre l : list N) : Prop :=
  T = pre ++ l /\ p_idx p = lenN pre + 1 /\ (p_pline p, p_pcol p) = posn pre /\
  match l with [] => (p_line p, p_col p) = (fst (posn pre), add32 (snd (posn pre)) 1) | c :: _ => (p_line p, p_col p) = posn (pre ++ [c]) end.
(** Nothing but the position has changed; only position, token and allocations have. *)
Definition moved (p p' : pst) : Prop :=
  p_tline p' = p_tline p /\ p_tcol p' = p_tcol p /\ p_stack p' = p_stack p /\ p_token p' = p_token p /\ p_str p' = p_str p /\ p_section p' = p_section p /\ p_config p' = p_config p.
Definition framed (p p' : pst) : Prop := p_stack p' = p_stack p /\ p_section p' = p_section p /\ p_config p' = p_config p.

Lemma cur_at p pre c l : cur p pre (c :: l) -> at_ p (pre ++ [c]) l.
Proof. intros (H1 & H2 & _ & H3). split; [rewrite <- app_assoc; exact H1|]. split; [rewrite H2, lenN_app; reflexivity|exact H3]. Qed.

Lemma next_spec p pre l : at_ p pre l -> exists p', p_next inp p = (p', Ok (hd 0 l)) /\ cur p' pre l /\ moved p p'.
Proof.
  intros (HTe & Hi & Hp). unfold p_next. rewrite in_len_T, Hi.
  assert (Hl : lenN T = lenN pre + lenN l) by (rewrite HTe, lenN_app; reflexivity).
  assert (Ea : add32 (lenN pre) 1 = lenN pre + 1) by (unfold add32; apply N.mod_small; unfold two32; lia).
  destruct l as [|c l].
  - rewrite (@lenN_nil N) in Hl. rewrite (proj2 (N.eqb_eq _ _)) by lia. change (0 =? 10) with false. change (0 =? 9) with false. cbn iota.
    eexists. split; [reflexivity|]. split; [|repeat split].
    split; [exact HTe|]. cbn [with_pos p_idx p_pline p_pcol p_line p_col]. split; [exact Ea|]. split; [exact Hp|]. rewrite <- Hp. reflexivity.
  - rewrite lenN_cons in Hl. rewrite (proj2 (N.eqb_neq _ _)) by lia.
    assert (Er : rd inp (lenN pre) = Ok c).
    { clear - HTe. unfold rd, inp. rewrite HTe, <- app_assoc. rewrite app_nth2 by (unfold lenN; lia). unfold lenN. rewrite Nat2N.id, Nat.sub_diag. cbn [nth List.app]. rewrite app_length. destruct (N.ltb_spec (N.of_nat (length pre)) (N.of_nat (length pre + length (c :: l ++ [0])))); [reflexivity|cbn [length] in *; lia]. }
    rewrite Er. cbn [hd].
    assert (Ep : posn (pre ++ [c]) = if c =? 10 then (add32 (p_line p) 1, 0) else if c =? 9 then (p_line p, mul32 (add32 (p_col p) TAB_WIDTH / TAB_WIDTH) TAB_WIDTH) else (p_line p, add32 (p_col p) 1)).
    { unfold posn at 1. rewrite fold_left_app. fold (posn pre). rewrite <- Hp. reflexivity. }
    destruct (if c =? 10 then _ else _) as [li co] eqn:E. eexists. split; [reflexivity|]. split; [|repeat split].
    split; [exact HTe|]. cbn [with_pos p_idx p_pline p_pcol p_line p_col]. split; [exact Ea|]. split; [exact Hp|]. congruence.
Qed.

Lemma moved_refl p : moved p p.
Proof. repeat split. Qed.
Lemma moved_trans p q r : moved p q -> moved q r -> moved p r.
Proof. unfold moved. intuition congruence. Qed.
Lemma framed_refl p : framed p p.
Proof. repeat split. Qed.
Lemma framed_trans p q r : framed p q -> framed q r -> framed p r.
Proof. unfold framed. intuition congruence. Qed.
Lemma moved_framed p q : moved p q -> framed p q.
Proof. unfold moved, framed. intuition congruence. Qed.

Lemma not0 c l pre : T = pre ++ c :: l -> c <> 0.
Proof. intros E ->. apply HT. rewrite E. apply in_or_app. right. left. reflexivity. Qed.

Lemma skip_spec fuel : forall p pre l, at_ p pre l -> (length (fst (span ws l)) < fuel)%nat ->
  exists p', skip_ws inp fuel p = (p', Ok (hd 0 (snd (span ws l)))) /\ cur p' (pre ++ fst (span ws l)) (snd (span ws l)) /\ moved p p'.
Proof.
  induction fuel as [|fuel IH]; intros p pre l Ha Hf; [lia|]. cbn [skip_ws]. unfold mbind at 1.
  destruct (next_spec p pre l Ha) as (p1 & -> & C & M). destruct l as [|c l]; cbn [hd span fst snd].
  - change (0 =? 10) with false. change (is_space 0) with false. cbn iota. exists p1. split; [reflexivity|]. rewrite app_nil_r. auto.
  - cbn [span] in Hf. unfold ws in *. destruct (N.eqb_spec c 10) as [->|Hn].
    + change (is_space 10 && negb true) with false in *. cbn iota in *. exists p1. cbn [fst snd hd]. rewrite app_nil_r. auto.
    + rewrite andb_true_r in *. destruct (is_space c).
      * fold ws in *. change (fun c => is_space c && negb (c =? 10)) with ws in *. pose proof (cur_at _ _ _ _ C) as A.
        destruct (span ws l) as [a b] eqn:E. cbn [fst snd length] in *. destruct (IH p1 (pre ++ [c]) l A) as (p2 & E2 & C2 & M2); [rewrite E; cbn; lia|].
        rewrite E in *. cbn [fst snd] in *. exists p2. split; [exact E2|]. split; [rewrite <- app_assoc in C2; exact C2|]. eapply moved_trans; eassumption.
      * cbn [fst snd hd]. exists p1. rewrite app_nil_r. auto.
Qed.

Lemma put_back_spec p pre l : cur p pre l -> exists p', put_back p = (p', Ok tt) /\ at_ p' pre l /\ moved p p'.
Proof.
  intros (H1 & H2 & H3 & H4). unfold put_back, mput. rewrite H2. destruct (N.ltb_spec 0 (lenN pre + 1)); [|lia].
  eexists. split; [reflexivity|]. split; [|repeat split]. split; [exact H1|]. cbn [with_pos p_idx p_line p_col]. split; [lia|exact H3].
Qed.

(** Strings. *)
Definition good_str (s : str) : Prop := 0 < snd s /\ lenN (fst s) <= snd s.
Lemma append_spec s c p : good_str s -> lenN (fst s) < 2147483648 -> exists p' r, str_append mem s c p = (p', r) /\ moved p p' /\ (p_idx p', p_line p', p_col p', p_pline p', p_pcol p') = (p_idx p, p_line p, p_col p, p_pline p, p_pcol p) /\
  ((exists s', r = Ok s' /\ fst s' = fst s ++ [c] /\ good_str s') \/ (r = Err ENOMEM /\ starved)).
Proof.
  destruct s as [b len]. intros [G1 G2] Hl. cbn [fst snd] in *. unfold str_append. destruct (N.leb_spec len (lenN b)).
  - assert (E : mul32 2 len = 2 * len) by (unfold mul32; apply N.mod_small; unfold two32; lia). rewrite E. unfold mbind, alloc. destruct (mem (p_n p)) eqn:Em.
    + destruct (N.ltb_spec (2 * len + 1) len); [lia|]. destruct (N.ltb_spec (2 * len) (lenN b)); [lia|]. unfold mret. eexists. eexists. split; [reflexivity|]. split; [repeat split|]. split; [reflexivity|].
      left. eexists. split; [reflexivity|]. cbn [fst snd]. split; [reflexivity|]. split; cbn [fst snd]; [lia|]. rewrite lenN_app. change (lenN [c]) with 1. lia.
    + eexists. eexists. split; [reflexivity|]. split; [repeat split|]. split; [reflexivity|]. right. split; [reflexivity|]. exists (p_n p). exact Em.
  - unfold mret. eexists. eexists. split; [reflexivity|]. split; [repeat split|]. split; [reflexivity|].
    left. eexists. split; [reflexivity|]. cbn [fst snd]. split; [reflexivity|]. split; cbn [fst snd]; [lia|]. rewrite lenN_app. change (lenN [c]) with 1. lia.
Qed.

Definition tpos (p : pst) : N * N := (p_tline p, p_tcol p).
Definition poss (p : pst) : N * N * N * N * N := (p_idx p, p_line p, p_col p, p_pline p, p_pcol p).
Lemma cur_keep p p' pre l : poss p' = poss p -> cur p pre l -> cur p' pre l.
Proof. unfold poss. intros E. injection E as E1 E2 E3 E4 E5. unfold cur. rewrite E1, E2, E3, E4, E5. auto. Qed.
Lemma moved_tpos p q : moved p q -> tpos q = tpos p.
Proof. unfold moved, tpos. intuition congruence. Qed.

Lemma word_spec ok t : ok 0 = false -> forall fuel p pre l s, cur p pre l -> good_str s -> p_str p = Some s -> p_token p = t -> lenN (fst s) + lenN l <= lenN T ->
  (length (fst (span ok l)) < fuel)%nat ->
  exists p' r, lex_word inp mem ok t fuel s (hd 0 l) p = (p', r) /\ framed p p' /\ tpos p' = tpos p /\
    ((r = Ok tt /\ at_ p' (pre ++ fst (span ok l)) (snd (span ok l)) /\ p_token p' = t /\ exists s', p_str p' = Some s' /\ fst s' = fst s ++ fst (span ok l)) \/ (r = Err ENOMEM /\ starved)).
Proof.
  intro H0. induction fuel as [|fuel IH]; intros p pre l s C G Es Et Hl Hf; [lia|]. cbn [lex_word].
  assert (Stop : ok (hd 0 l) = false -> span ok l = ([], l)) by (destruct l as [|c l]; [reflexivity|]; cbn [hd span]; intros ->; reflexivity).
  destruct (ok (hd 0 l)) eqn:Eo.
  - destruct l as [|c l]; [cbn [hd] in Eo; congruence|]. cbn [hd] in *. cbn [span] in *. rewrite Eo in *. rewrite lenN_cons in Hl.
    unfold mbind at 1. destruct (append_spec s c p G ltac:(lia)) as (p1 & r1 & -> & M1 & P1 & [(s1 & -> & Es1 & G1)|[-> S1]]).
    2:{ exists p1. eexists. split; [reflexivity|]. split; [apply moved_framed; exact M1|]. split; [apply moved_tpos; exact M1|]. right. auto. }
    unfold mbind at 1. cbn [set_token mput]. set (p2 := with_token p1 t (Some s1)). unfold mbind at 1.
    assert (C2 : cur p2 pre (c :: l)) by (apply (cur_keep p); [exact P1|exact C]).
    destruct (next_spec p2 (pre ++ [c]) l (cur_at _ _ _ _ C2)) as (p3 & -> & C3 & M3).
    destruct (span ok l) as [v l1] eqn:Esp. cbn [fst snd length] in *.
    destruct (IH p3 (pre ++ [c]) l s1 C3 G1) as (p4 & r4 & E4 & F4 & T4 & R4).
    + transitivity (p_str p2); [apply M3|reflexivity].
    + transitivity (p_token p2); [apply M3|reflexivity].
    + rewrite Es1, lenN_app. change (lenN [c]) with 1. lia.
    + rewrite Esp. cbn [fst]. lia.
    + rewrite Esp in R4. cbn [fst snd] in R4. exists p4, r4. split; [exact E4|]. split.
      { eapply framed_trans; [apply moved_framed; exact M1|]. eapply framed_trans; [|exact F4]. exact (moved_framed _ _ M3). }
      split; [rewrite T4, (moved_tpos _ _ M3); exact (moved_tpos _ _ M1)|].
      destruct R4 as [(-> & A4 & Tk & s' & Q1 & Q2)|R4]; [left|right; exact R4]. split; [reflexivity|]. split; [rewrite <- app_assoc in A4; exact A4|]. split; [exact Tk|].
      exists s'. split; [exact Q1|]. rewrite Q2, Es1, <- app_assoc. reflexivity.
  - rewrite (Stop eq_refl) in *. cbn [fst snd] in *. destruct (put_back_spec p pre l C) as (p1 & -> & A1 & M1). exists p1. eexists. split; [reflexivity|].
    split; [apply moved_framed; exact M1|]. split; [apply moved_tpos; exact M1|]. left. split; [reflexivity|]. rewrite !app_nil_r. split; [exact A1|]. destruct M1 as (_ & _ & _ & M1 & M2 & _). split; [congruence|].
    exists s. split; [congruence|reflexivity].
Qed.

Lemma quote_spec fuel : forall p pre l s pc, cur p pre l -> good_str s -> p_str p = Some s -> p_token p = TQuote -> lenN (fst s) + lenN l <= lenN T -> (length l < fuel)%nat ->
  exists p' r, lex_quote inp mem fuel s pc (hd 0 l) p = (p', r) /\ framed p p' /\ tpos p' = tpos p /\
    (match quotef pc l with
     | Some (v, l') => r = Ok tt /\ at_ p' (pre ++ v ++ [34]) l' /\ p_token p' = TQuote /\ exists s', p_str p' = Some s' /\ fst s' = fst s ++ v
     | None => r = Err EBADMSG
     end \/ (r = Err ENOMEM /\ starved)).
Proof.
  induction fuel as [|fuel IH]; intros p pre l s pc C G Es Et Hl Hf; [lia|]. cbn [lex_quote].
  destruct l as [|c l]; cbn [hd quotef].
  { change (0 =? 34) with false. change (0 =? 10) with false. change (0 =? 0) with true. cbn [andb orb]. exists p. eexists. split; [reflexivity|]. split; [apply framed_refl|]. split; [reflexivity|]. left. reflexivity. }
  assert (Hc : c <> 0) by (destruct C as (C1 & _); exact (not0 _ _ _ C1)). rewrite (proj2 (N.eqb_neq c 0) Hc), orb_false_r. rewrite lenN_cons in Hl.
  destruct ((c =? 34) && negb (pc =? 92)) eqn:E1.
  { apply andb_true_iff in E1 as [E1 _]. apply N.eqb_eq in E1 as ->. exists p. eexists. split; [reflexivity|]. split; [apply framed_refl|]. split; [reflexivity|]. left. split; [reflexivity|].
    split; [exact (cur_at _ _ _ _ C)|]. split; [exact Et|]. exists s. rewrite app_nil_r. auto. }
  destruct ((c =? 10) && negb (pc =? 92)) eqn:E2.
  { exists p. eexists. split; [reflexivity|]. split; [apply framed_refl|]. split; [reflexivity|]. left. reflexivity. }
  unfold mbind at 1. destruct (append_spec s c p G ltac:(lia)) as (p1 & r1 & -> & M1 & P1 & [(s1 & -> & Es1 & G1)|[-> S1]]).
  2:{ exists p1. eexists. split; [reflexivity|]. split; [apply moved_framed; exact M1|]. split; [apply moved_tpos; exact M1|]. right. auto. }
  unfold mbind at 1. cbn [set_token mput]. set (p2 := with_token p1 TQuote (Some s1)). unfold mbind at 1.
  assert (C2 : cur p2 pre (c :: l)) by (apply (cur_keep p); [exact P1|exact C]).
  destruct (next_spec p2 (pre ++ [c]) l (cur_at _ _ _ _ C2)) as (p3 & -> & C3 & M3).
  destruct (IH p3 (pre ++ [c]) l s1 c C3 G1) as (p4 & r4 & E4 & F4 & T4 & R4).
  - transitivity (p_str p2); [apply M3|reflexivity].
  - transitivity (p_token p2); [apply M3|reflexivity].
  - rewrite Es1, lenN_app. change (lenN [c]) with 1. lia.
  - cbn [length] in Hf. lia.
  - exists p4, r4. split; [exact E4|]. split.
    { eapply framed_trans; [apply moved_framed; exact M1|]. eapply framed_trans; [|exact F4]. exact (moved_framed _ _ M3). }
    split; [rewrite T4, (moved_tpos _ _ M3); exact (moved_tpos _ _ M1)|]. destruct R4 as [R4|R4]; [left|right; exact R4].
    destruct (quotef c l) as [[v l']|]; [|exact R4]. destruct R4 as (-> & A4 & Tk & s' & Q1 & Q2). split; [reflexivity|]. split; [rewrite <- app_assoc in A4; exact A4|]. split; [exact Tk|].
    exists s'. split; [exact Q1|]. rewrite Q2, Es1, <- app_assoc. reflexivity.
Qed.

Lemma comment_spec fuel : forall p pre l, at_ p pre l -> (length l < fuel)%nat -> 
  exists p', lex_comment inp fuel p = (p', Ok tt) /\ framed p p' /\ tpos p' = tpos p /\
    match snd (span not_eol l) with
    | [] => p_token p' = TEof /\ cur p' (pre ++ l) []
    | _ :: l' => p_token p' = TEol /\ at_ p' (pre ++ fst (span not_eol l) ++ [10]) l'
    end.
Proof.
  induction fuel as [|fuel IH]; intros p pre l A Hf; [lia|]. cbn [lex_comment]. unfold mbind at 1.
  destruct (next_spec p pre l A) as (p1 & -> & C1 & M1). destruct l as [|c l]; cbn [hd span].
  - change (0 =? 10) with false. change (0 =? 0) with true. cbn iota. eexists. split; [reflexivity|]. split; [exact (moved_framed _ _ M1)|]. split; [exact (moved_tpos _ _ M1)|]. cbn [fst snd]. split; [reflexivity|]. rewrite app_nil_r. exact C1.
  - assert (En : not_eol c = negb (c =? 10)) by reflexivity. rewrite En. clear En. destruct (N.eqb_spec c 10) as [->|Hn]; cbn [negb].
    + eexists. split; [reflexivity|]. split; [exact (moved_framed _ _ M1)|]. split; [exact (moved_tpos _ _ M1)|]. cbn [fst snd]. split; [reflexivity|]. exact (cur_at _ _ _ _ C1).
    + assert (Hc : c <> 0) by (destruct A as (A1 & _); exact (not0 _ _ _ A1)). rewrite (proj2 (N.eqb_neq c 0) Hc).
      destruct (IH p1 (pre ++ [c]) l (cur_at _ _ _ _ C1) ltac:(cbn [length] in Hf; lia)) as (p2 & E2 & F2 & T2 & R2).
      exists p2. split; [exact E2|]. split; [eapply framed_trans; [exact (moved_framed _ _ M1)|exact F2]|]. split; [rewrite T2; exact (moved_tpos _ _ M1)|].
      destruct (span not_eol l) as [a b]. cbn [fst snd] in *. destruct b as [|x b].
      * split; [apply R2|]. destruct R2 as [_ R2]. rewrite <- app_assoc in R2. exact R2.
      * split; [apply R2|]. destruct R2 as [_ R2]. rewrite <- app_assoc in R2. exact R2.
Qed.

(** Where a token begins. *)
Definition start_of (t : list N) : N * N := (fst (posn t), add32 (snd (posn t)) 1).
Definition word_token (t : token) : Prop := t = TId \/ t = TNum \/ t = TQuote.

Lemma lex_spec fuel p pre l : at_ p pre l -> (S (length l) < fuel)%nat ->
  exists p' r, lex inp mem fuel p = (p', r) /\ framed p p' /\
    (match lexf l with
     | Some (t, v, l') => r = Ok tt /\ p_token p' = t /\ (word_token t -> exists s, p_str p' = Some s /\ fst s = v) /\
         exists used, l = used ++ l' /\ (t <> TEof -> at_ p' (pre ++ used) l') /\ (t = TEof -> l' = [] /\ cur p' (pre ++ l) [])
     | None => r = Err EBADMSG
     end \/ (r = Err ENOMEM /\ starved)) /\
    tpos p' = start_of (pre ++ fst (span ws l)).
Proof.
  intros A Hf. unfold lex. unfold mbind at 1. cbn [set_token mput]. set (p0 := with_token p TNone None). unfold mbind at 1.
  assert (Hw : l = fst (span ws l) ++ snd (span ws l)) by apply span_app.
  assert (Hlw : (length l = length (fst (span ws l)) + length (snd (span ws l)))%nat) by (rewrite Hw at 1; apply app_length).
  destruct (skip_spec fuel p0 pre l A) as (p1 & -> & C1 & M1); [lia|].
  assert (Hst : forall x l', snd (span ws l) = x :: l' -> ws x = false) by (intros x l'; apply span_stop).
  unfold lexf. destruct (span ws l) as [w l1]. cbn [fst snd] in *. set (c := hd 0 l1). unfold mbind at 1. cbn [set_token_pos mput].
  set (p2 := if c =? 10 then with_tpos p1 _ _ else with_tpos p1 _ _).
  assert (F2 : framed p p2) by (apply moved_framed in M1; unfold p2; destruct (c =? 10); exact M1).
  assert (C2 : cur p2 (pre ++ w) l1) by (apply (cur_keep p1); [unfold p2; destruct (c =? 10); reflexivity|exact C1]).
  assert (T2 : tpos p2 = start_of (pre ++ w)).
  { destruct C1 as (K1 & K2 & K3 & K4). unfold p2, tpos, start_of. destruct (N.eqb_spec c 10) as [Ec|Ec]; cbn [with_tpos p_tline p_tcol]; [rewrite <- K3; reflexivity|].
    destruct l1 as [|x l1]; [exact K4|]. cbn [hd] in c. subst c. unfold posn in K4 at 1. rewrite fold_left_app in K4. fold (posn (pre ++ w)) in K4. cbn [fold_left] in K4.
    destruct (x =? 10) eqn:E10; [apply N.eqb_eq in E10; congruence|].
    destruct (N.eqb_spec x 9) as [->|]; [specialize (Hst _ _ eq_refl); discriminate|]. exact K4. }
  assert (A2 : forall x l2, l1 = x :: l2 -> at_ p2 (pre ++ w ++ [x]) l2) by (intros x l2 ->; rewrite app_assoc; apply cur_at; exact C2).
  clearbody p2. clear p1 C1 M1 p0.
  assert (Fin : forall x l2 t, l1 = x :: l2 -> t <> TEof -> ~ word_token t ->
    exists p' r, (with_token p2 t None, Ok tt) = (p', r) /\ framed p p' /\
    ((r = Ok tt /\ p_token p' = t /\ (word_token t -> exists s, p_str p' = Some s /\ fst s = []) /\
         exists used, l = used ++ l2 /\ (t <> TEof -> at_ p' (pre ++ used) l2) /\ (t = TEof -> l2 = [] /\ cur p' (pre ++ l) [])) \/ (r = Err ENOMEM /\ starved)) /\
    tpos p' = start_of (pre ++ w)).
  { intros x l2 t E Hn Hnw. eexists. eexists. split; [reflexivity|]. split; [exact F2|]. split; [|exact T2]. left. split; [reflexivity|]. split; [reflexivity|]. split; [contradiction|].
    exists (w ++ [x]). split; [rewrite Hw, E, <- app_assoc; reflexivity|]. split; [intros _; exact (A2 _ _ E)|contradiction]. }
  destruct l1 as [|x l2].
  { change c with 0. cbn [tokf]. change (0 =? 0) with true. cbn iota. eexists. eexists. split; [reflexivity|]. split; [exact F2|]. split; [|exact T2]. left. split; [reflexivity|]. split; [reflexivity|].
    split; [intros [H|[H|H]]; discriminate|]. exists l. split; [symmetry; apply app_nil_r|]. split; [congruence|]. intros _. split; [reflexivity|]. rewrite app_nil_r in Hw. rewrite Hw. exact C2. }
  change c with x. cbn [tokf].
  assert (Hx : x <> 0) by (apply (not0 x l2 (pre ++ w)); destruct C2 as (C2 & _); exact C2).
  rewrite (proj2 (N.eqb_neq x 0) Hx).
  destruct (N.eqb_spec x 10) as [->|N1]; [apply (Fin 10 l2); [reflexivity|discriminate|intros [H|[H|H]]; discriminate]|].
  destruct (N.eqb_spec x 59) as [->|N2].
  { destruct (comment_spec fuel p2 (pre ++ w ++ [59]) l2 (A2 _ _ eq_refl)) as (p3 & E3 & F3 & T3 & R3); [cbn [length] in Hlw; lia|].
    exists p3, (Ok tt). split; [exact E3|]. split; [eapply framed_trans; eassumption|]. split; [|congruence]. left. pose proof (span_app not_eol l2) as Hs. pose proof (span_stop not_eol l2) as Hs2.
    destruct (span not_eol l2) as [a b]. cbn [fst snd] in *. destruct b as [|y b].
    - split; [reflexivity|]. split; [apply R3|]. split; [intros [H|[H|H]]; discriminate|]. exists l. split; [symmetry; apply app_nil_r|]. split; [congruence|]. intros _. split; [reflexivity|]. destruct R3 as [_ R3].
      rewrite Hw. rewrite <- ?app_assoc in R3; rewrite <- ?app_assoc. exact R3.
    - assert (y = 10) as -> by (specialize (Hs2 _ _ eq_refl); unfold not_eol in Hs2; destruct (N.eqb_spec y 10); [assumption|discriminate]).
      split; [reflexivity|]. split; [apply R3|]. split; [intros [H|[H|H]]; discriminate|]. exists (w ++ [59] ++ a ++ [10]). split; [rewrite Hw, Hs; cbn [List.app]; rewrite <- ?app_assoc; cbn [List.app]; rewrite <- ?app_assoc; reflexivity|]. split; [|discriminate]. intros _. destruct R3 as [_ R3].
      rewrite <- ?app_assoc in R3; rewrite <- ?app_assoc. exact R3. }
  destruct (N.eqb_spec x 61) as [->|N3]; [apply (Fin 61 l2); [reflexivity|discriminate|intros [H|[H|H]]; discriminate]|].
  destruct (N.eqb_spec x 91) as [->|N4]; [apply (Fin 91 l2); [reflexivity|discriminate|intros [H|[H|H]]; discriminate]|].
  destruct (N.eqb_spec x 93) as [->|N5]; [apply (Fin 93 l2); [reflexivity|discriminate|intros [H|[H|H]]; discriminate]|].
  assert (HlT : lenN (x :: l2) <= lenN T) by (destruct C2 as (C2 & _); rewrite C2, lenN_app; lia).
  assert (Hfw : forall f, (length (fst (span f (x :: l2))) < fuel)%nat).
  { intro f. pose proof (f_equal (@length N) (span_app f (x :: l2))) as X. rewrite app_length in X. lia. }
  assert (Word : forall ok t, ok 0 = false -> word_token t -> ok x = true ->
    exists p' r, (let! _ := set_token t None in let! s := str_create mem in let! _ := set_token t (Some s) in lex_word inp mem ok t fuel s x) p2 = (p', r) /\ framed p p' /\
    ((let (v, l'') := span ok (x :: l2) in r = Ok tt /\ p_token p' = t /\ (word_token t -> exists s, p_str p' = Some s /\ fst s = v) /\
         exists used, l = used ++ l'' /\ (t <> TEof -> at_ p' (pre ++ used) l'') /\ (t = TEof -> l'' = [] /\ cur p' (pre ++ l) [])) \/ (r = Err ENOMEM /\ starved)) /\
    tpos p' = start_of (pre ++ w)).
  { intros ok t H0 Ht Hok. unfold mbind at 1. cbn [set_token mput]. unfold mbind at 1. unfold str_create. unfold mbind at 1. unfold alloc. cbn [with_token p_n].
    destruct (mem (p_n p2)) eqn:Em.
    - cbn [mret]. unfold mbind at 1. cbn [set_token mput].
      destruct (word_spec ok t H0 fuel (with_token (count (with_token p2 t None) 1) t (Some ([], INIT_STR_LEN))) (pre ++ w) (x :: l2) ([], INIT_STR_LEN)) as (p3 & r3 & E3 & F3 & T3 & R3).
      + apply (cur_keep p2); [reflexivity|exact C2].
      + split; cbn [fst snd]; unfold INIT_STR_LEN; [lia|unfold lenN; cbn; lia].
      + reflexivity.
      + reflexivity.
      + cbn [fst]. rewrite (@lenN_nil N). lia.
      + apply Hfw.
      + exists p3, r3. split; [exact E3|]. split; [eapply framed_trans; [exact F2|exact F3]|]. split; [|rewrite T3; exact T2]. destruct R3 as [(-> & R3 & R4 & R5)|R3]; [left|right; exact R3].
        pose proof (span_app ok (x :: l2)) as Hs. destruct (span ok (x :: l2)) as [v l3]. cbn [fst snd] in *. split; [reflexivity|]. split; [exact R4|]. split; [intros _; exact R5|].
        exists (w ++ v). split; [rewrite <- app_assoc, <- Hs; exact Hw|]. split; [intros _; rewrite app_assoc; exact R3|]. intros ->. destruct Ht as [H|[H|H]]; discriminate.
    - eexists. eexists. split; [reflexivity|]. split; [exact F2|]. split; [|exact T2]. right. split; [reflexivity|]. exists (p_n p2). exact Em. }
  destruct (is_alpha x) eqn:Ea.
  { destruct (Word id_char TId) as (p3 & r3 & E3 & F3 & R3 & T3); [reflexivity|left; reflexivity|unfold id_char; rewrite Ea; reflexivity|].
    exists p3, r3. split; [exact E3|]. split; [exact F3|]. split; [|exact T3]. destruct (span id_char (x :: l2)). exact R3. }
  destruct (is_digit x) eqn:Ed.
  { destruct (Word is_digit TNum) as (p3 & r3 & E3 & F3 & R3 & T3); [reflexivity|right; left; reflexivity|exact Ed|].
    exists p3, r3. split; [exact E3|]. split; [exact F3|]. split; [|exact T3]. destruct (span is_digit (x :: l2)). exact R3. }
  clear Word. destruct (N.eqb_spec x 34) as [->|N6].
  2:{ exists p2. eexists. split; [reflexivity|]. split; [exact F2|]. split; [left; reflexivity|exact T2]. }
  unfold mbind at 1. cbn [set_token mput]. unfold mbind at 1. unfold str_create. unfold mbind at 1. unfold alloc. cbn [with_token p_n].
  destruct (mem (p_n p2)) eqn:Em.
  2:{ eexists. eexists. split; [reflexivity|]. split; [exact F2|]. split; [|exact T2]. right. split; [reflexivity|]. exists (p_n p2). exact Em. }
  cbn [mret]. unfold mbind at 1. cbn [set_token mput]. unfold mbind at 1. set (p3 := with_token (count _ _) _ _).
  destruct (next_spec p3 (pre ++ w ++ [34]) l2 (A2 _ _ eq_refl)) as (p4 & -> & C4 & M4).
  destruct (quote_spec fuel p4 (pre ++ w ++ [34]) l2 ([], INIT_STR_LEN) 0 C4) as (p5 & r5 & E5 & F5 & T5 & R5).
  - split; cbn [fst snd]; unfold INIT_STR_LEN; [lia|unfold lenN; cbn; lia].
  - transitivity (p_str p3); [apply M4|reflexivity].
  - transitivity (p_token p3); [apply M4|reflexivity].
  - cbn [fst]. rewrite (@lenN_nil N). rewrite lenN_cons in HlT. lia.
  - cbn [length] in Hlw. lia.
  - exists p5, r5. split; [exact E5|]. split; [eapply framed_trans; [exact F2|]; eapply framed_trans; [|exact F5]; exact (moved_framed _ _ M4)|].
    split; [|rewrite T5, (moved_tpos _ _ M4); exact T2]. destruct R5 as [R5|R5]; [left|right; exact R5]. destruct (quotef 0 l2) as [[v l3]|] eqn:Eq; [|exact R5].
    destruct R5 as (-> & R5 & R6 & R7). split; [reflexivity|]. split; [exact R6|]. split; [intros _; exact R7|]. apply quotef_app in Eq. exists (w ++ [34] ++ v ++ [34]).
    split; [rewrite Hw, Eq; cbn [List.app]; rewrite <- ?app_assoc; cbn [List.app]; rewrite <- ?app_assoc; reflexivity|]. split; [|discriminate]. intros _. rewrite <- ?app_assoc in R5; rewrite <- ?app_assoc. exact R5.
Qed.


(** The parser has just read the first token of [l]. *)
Definition lexed (p : pst) (pre l : list N) : Prop :=
  match lexf l with
  | Some (t, v, l') =>
    p_token p = t /\ (word_token t -> exists s, p_str p = Some s /\ fst s = v) /\
    exists used, l = used ++ l' /\ (t <> TEof -> at_ p (pre ++ used) l') /\ (t = TEof -> l' = [] /\ cur p (pre ++ l) [])
  | None => False
  end /\ tpos p = start_of (pre ++ fst (span ws l)).
Lemma lex_step fuel p pre l : at_ p pre l -> (S (length l) < fuel)%nat ->
  exists p' r, lex inp mem fuel p = (p', r) /\ framed p p' /\
    ((r = Ok tt /\ lexed p' pre l) \/ (r = Err EBADMSG /\ lexf l = None /\ tpos p' = start_of (pre ++ fst (span ws l))) \/ (r = Err ENOMEM /\ starved)).
Proof.
  intros A Hf. destruct (lex_spec fuel p pre l A Hf) as (p' & r & E & F & R & Tp). exists p', r. split; [exact E|]. split; [exact F|].
  unfold lexed. destruct R as [R|R]; [|auto]. destruct (lexf l) as [[[t v] l']|]; [destruct R as (R1 & R2); left; auto|right; left; auto].
Qed.

Definition applied (i : item) (p p' : pst) : Prop :=
  match i with
  | INone => p_section p' = p_section p /\ p_config p' = p_config p
  | ISection s => fst (p_section p') = s /\ good_str (p_section p') /\ p_config p' = p_config p
  | IAssign n v => p_section p' = p_section p /\ exists m1 m2, config_set m1 m2 (p_config p) (fst (p_section p)) n v = (p_config p', Ok tt)
  end.
Definition after (pre l : list N) (p : pst) (o : stmt) (p' : pst) (r : res bool) : Prop :=
  match o with
  | SDone => r = Ok true /\ p_config p' = p_config p
  | SLine i l' => r = Ok false /\ (exists used, l = used ++ l' /\ at_ p' (pre ++ used) l') /\ p_stack p' = [] /\ applied i p p'
  | SLast i => r = Ok false /\ p_idx p' = lenN T + 1 /\ applied i p p'
  | SBad e rest ex => r = Err e /\ (exists used, l = used ++ rest /\ tpos p' = start_of (pre ++ used ++ fst (span ws rest))) /\
      match ex with
      | None => p_config p' = p_config p
      | Some (n, v) => exists m1 m2, config_set m1 m2 (p_config p) (fst (p_section p)) n v = (p_config p', Ok tt)
      end
  end \/ (r = Err ENOMEM /\ starved).

Definition ending : mm bool := let! eof := peek TEof in let! eol := peek TEol in let! _ := (if eof || eol then mret tt else mfail (Err EPROTO)) in mret false.
Lemma ending_spec p0 pre0 l0 i p pre used l : lexed p pre l -> pre = pre0 ++ used -> l0 = used ++ l -> p_stack p = [] -> applied i p0 p ->
  exists p' r, ending p = (p', r) /\ after pre0 l0 p0 (finf i l) p' r.
Proof.
  intros (L1 & L2) -> -> Hs Ha. unfold ending, finf. destruct (lexf l) as [[[t v] l']|]; [|contradiction]. destruct L1 as (Et & _ & u & Hu & At1 & At2). unfold mbind, peek, mret, mfail. rewrite Et.
  assert (Bad : after pre0 (used ++ l) p0 (SBad EPROTO l match i with IAssign n v => Some (n, v) | _ => None end) p (Err EPROTO)).
  { left. split; [reflexivity|]. split; [exists used; split; [reflexivity|]; rewrite <- app_assoc in L2; exact L2|]. destruct i; cbn [applied] in Ha; [apply Ha|apply Ha|apply Ha]. }
  destruct t; cbn [is_token orb]; eexists; eexists; (split; [reflexivity|]); try exact Bad.
  - left. split; [reflexivity|]. split; [|exact Ha]. destruct (At2 eq_refl) as [_ (C1 & C2 & _)]. rewrite app_nil_r in C1. rewrite C2, C1. reflexivity.
  - left. split; [reflexivity|]. split; [|split; assumption]. exists (used ++ u). split; [rewrite Hu at 1; apply app_assoc|]. rewrite app_assoc. apply At1. discriminate.
Qed.

Lemma starved_after pre l p o p' : starved -> after pre l p o p' (Err ENOMEM).
Proof. intro H. right. auto. Qed.

Lemma push_spec p s : p_str p = Some s -> exists p' r, push mem p = (p', r) /\ 
  ((r = Ok tt /\ p' = with_stack (count p 1) (fst s :: p_stack p)) \/ (r = Err ENOMEM /\ starved)).
Proof.
  intro H. unfold push. rewrite H. destruct s as [b n]. unfold mbind, alloc, mput. destruct (mem (p_n p)) eqn:E; eexists; eexists; (split; [reflexivity|]).
  - left. auto.
  - right. split; [reflexivity|]. exists (p_n p). exact E.
Qed.
Lemma append_all_spec cs : forall s p, good_str s -> lenN (fst s) + lenN cs <= 2147483648 -> exists p' r, append_all mem s cs p = (p', r) /\ moved p p' /\ poss p' = poss p /\
  ((exists s', r = Ok s' /\ fst s' = fst s ++ cs /\ good_str s') \/ (r = Err ENOMEM /\ starved)).
Proof.
  induction cs as [|c cs IH]; intros s p G Hl; cbn [append_all].
  - exists p. eexists. split; [reflexivity|]. split; [apply moved_refl|]. split; [reflexivity|]. left. exists s. rewrite app_nil_r. auto.
  - rewrite lenN_cons in Hl. unfold mbind. destruct (append_spec s c p G ltac:(lia)) as (p1 & r1 & -> & M1 & P1 & [(s1 & -> & E1 & G1)|[-> S1]]).
    + destruct (IH s1 p1 G1) as (p2 & r2 & E2 & M2 & P2 & R2); [rewrite E1, lenN_app; change (lenN [c]) with 1; lia|].
      exists p2, r2. split; [exact E2|]. split; [eapply moved_trans; eassumption|]. split; [rewrite P2; exact P1|]. destruct R2 as [(s2 & -> & E3 & G3)|R2]; [left|right; exact R2].
      exists s2. split; [reflexivity|]. split; [rewrite E3, E1, <- app_assoc; reflexivity|exact G3].
    + exists p1. eexists. split; [reflexivity|]. split; [exact M1|]. split; [exact P1|]. right. auto.
Qed.

Definition inner (pre l : list N) (p p' : pst) (r : res unit) : Prop :=
  (r = Ok tt /\ exists i used l3, stmtf l = finf i l3 /\ l = used ++ l3 /\ lexed p' (pre ++ used) l3 /\ p_stack p' = [] /\ applied i p p') \/
  (exists e rest, r = Err e /\ stmtf l = SBad e rest None /\ (exists used, l = used ++ rest /\ tpos p' = start_of (pre ++ used ++ fst (span ws rest))) /\ p_config p' = p_config p) \/
  (r = Err ENOMEM /\ starved).

Lemma value_spec fuel p pre l : lexed p pre l -> (S (length l) < fuel)%nat ->
  exists p' r, parse_value inp mem fuel p = (p', r) /\
  ((r = Err ENOMEM /\ starved) \/
   p_section p' = p_section p /\ p_config p' = p_config p /\
   ((r = Ok tt /\ exists t v l', lexf l = Some (t, v, l') /\ word_token t /\ p_stack p' = v :: p_stack p /\ exists used, l = used ++ l' /\ lexed p' (pre ++ used) l') \/
    (r = Err EPROTO /\ tpos p' = start_of (pre ++ fst (span ws l)) /\ forall t v l', lexf l = Some (t, v, l') -> ~ word_token t) \/
    (exists t v l' used, r = Err EBADMSG /\ lexf l = Some (t, v, l') /\ word_token t /\ l = used ++ l' /\ lexf l' = None /\ tpos p' = start_of (pre ++ used ++ fst (span ws l'))))).
Proof.
  intros (L1 & L2) Hf. unfold parse_value, parse_word. destruct (lexf l) as [[[t v] l']|]; [|contradiction]. destruct L1 as (Et & Es & u & Hu & At & _).
  assert (Word : word_token t -> exists p' r, (let! _ := push mem in lex inp mem fuel) p = (p', r) /\
    ((r = Err ENOMEM /\ starved) \/
     p_section p' = p_section p /\ p_config p' = p_config p /\
     ((r = Ok tt /\ exists t0 v0 l0, Some (t, v, l') = Some (t0, v0, l0) /\ word_token t0 /\ p_stack p' = v0 :: p_stack p /\ exists used, l = used ++ l0 /\ lexed p' (pre ++ used) l0) \/
      (r = Err EPROTO /\ tpos p' = start_of (pre ++ fst (span ws l)) /\ forall t0 v0 l0, Some (t, v, l') = Some (t0, v0, l0) -> ~ word_token t0) \/
      (exists t0 v0 l0 used, r = Err EBADMSG /\ Some (t, v, l') = Some (t0, v0, l0) /\ word_token t0 /\ l = used ++ l0 /\ lexf l0 = None /\ tpos p' = start_of (pre ++ used ++ fst (span ws l0)))))).
  { intro Hw. destruct (Es Hw) as (s & E1 & E2). unfold mbind. destruct (push_spec p s E1) as (p1 & r1 & -> & [(-> & ->)|(-> & S1)]).
    - assert (Hn : t <> TEof) by (destruct Hw as [->|[->| ->]]; discriminate).
      destruct (lex_step fuel (with_stack (count p 1) (fst s :: p_stack p)) (pre ++ u) l' (At Hn)) as (p2 & r2 & -> & F2 & R2).
      { rewrite Hu, app_length in Hf. lia. }
      destruct F2 as (F2 & F3 & F4). exists p2, r2. split; [destruct r2 as [[]| | |]; reflexivity|].
      destruct R2 as [(-> & R2)|[(-> & R2 & R3)|R2]]; [right|right|left; exact R2]; (split; [exact F3|]; split; [exact F4|]); [left|right; right].
      + split; [reflexivity|]. exists t, v, l'. split; [reflexivity|]. split; [exact Hw|]. split; [rewrite F2; cbn [with_stack p_stack]; rewrite E2; reflexivity|]. exists u. auto.
      + exists t, v, l', u. rewrite app_assoc. auto 6.
    - exists p1. eexists. split; [reflexivity|]. left. auto. }
  assert (Bad : ~ word_token t -> exists p' r, (p, Err EPROTO) = (p', r) /\
    ((r = Err ENOMEM /\ starved) \/
     p_section p' = p_section p /\ p_config p' = p_config p /\
     ((r = Ok tt /\ exists t0 v0 l0, Some (t, v, l') = Some (t0, v0, l0) /\ word_token t0 /\ p_stack p' = v0 :: p_stack p /\ exists used, l = used ++ l0 /\ lexed p' (pre ++ used) l0) \/
      (r = Err EPROTO /\ tpos p' = start_of (pre ++ fst (span ws l)) /\ forall t0 v0 l0, Some (t, v, l') = Some (t0, v0, l0) -> ~ word_token t0) \/
      (exists t0 v0 l0 used, r = @Err unit EBADMSG /\ Some (t, v, l') = Some (t0, v0, l0) /\ word_token t0 /\ l = used ++ l0 /\ lexf l0 = None /\ tpos p' = start_of (pre ++ used ++ fst (span ws l0)))))).
  { intro Hn. eexists. eexists. split; [reflexivity|]. right. split; [reflexivity|]. split; [reflexivity|]. right. left. split; [reflexivity|]. split; [exact L2|].
    intros t0 v0 l0 E. injection E as <- <- <-. exact Hn. }
  unfold mbind at 1, peek at 1. rewrite Et. destruct t; cbn [is_token]; cbv beta iota; unfold mbind at 1, peek at 1; rewrite Et; cbn [is_token negb]; cbv beta iota;
    try (unfold mbind at 1, peek at 1; rewrite Et; cbn [is_token negb]; cbv beta iota);
    try (unfold mbind at 1, peek at 1; rewrite Et; cbn [is_token negb]; cbv beta iota);
    solve [apply Bad; intros [H|[H|H]]; discriminate | apply Word; unfold word_token; auto].
Qed.

Lemma pword_spec fuel p pre l t v l' : lexed p pre l -> lexf l = Some (t, v, l') -> word_token t -> (S (length l) < fuel)%nat ->
  exists p' r u, parse_word inp mem fuel t p = (p', r) /\ l = u ++ l' /\
  ((r = Err ENOMEM /\ starved) \/
   p_section p' = p_section p /\ p_config p' = p_config p /\
   ((r = Ok tt /\ p_stack p' = v :: p_stack p /\ lexed p' (pre ++ u) l') \/
    (r = Err EBADMSG /\ lexf l' = None /\ tpos p' = start_of (pre ++ u ++ fst (span ws l'))))).
Proof.
  intros (L1 & L2) El Hw Hf. rewrite El in L1. destruct L1 as (Et & Es & u & Hu & At & _). unfold parse_word. unfold mbind at 1, peek. rewrite Et.
  replace (is_token t t) with true by (destruct t; reflexivity). cbn [negb]. destruct (Es Hw) as (s & E1 & E2). unfold mbind.
  destruct (push_spec p s E1) as (p1 & r1 & -> & [(-> & ->)|(-> & S1)]).
  - assert (Hn : t <> TEof) by (destruct Hw as [->|[->| ->]]; discriminate).
    destruct (lex_step fuel (with_stack (count p 1) (fst s :: p_stack p)) (pre ++ u) l' (At Hn)) as (p2 & r2 & -> & F2 & R2).
    { rewrite Hu, app_length in Hf. lia. }
    destruct F2 as (F2 & F3 & F4). exists p2, r2, u. split; [destruct r2 as [[]| | |]; reflexivity|]. split; [exact Hu|].
    destruct R2 as [(-> & R2)|[(-> & R2 & R3)|R2]]; [right|right|left; exact R2]; (split; [exact F3|]; split; [exact F4|]); [left|right].
    + split; [reflexivity|]. split; [rewrite F2; cbn [with_stack p_stack]; rewrite E2; reflexivity|exact R2].
    + split; [reflexivity|]. split; [exact R2|]. rewrite app_assoc. exact R3.
  - exists p1. eexists. exists u. split; [reflexivity|]. split; [exact Hu|]. left. auto.
Qed.

(** The token just read, if it is the one expected, is followed by another. *)
Lemma lexed_next fuel p pre l t v l' : lexed p pre l -> lexf l = Some (t, v, l') -> t <> TEof -> (S (length l) < fuel)%nat ->
  exists p' r u, lex inp mem fuel p = (p', r) /\ l = u ++ l' /\
  ((r = Err ENOMEM /\ starved) \/
   framed p p' /\
   ((r = Ok tt /\ lexed p' (pre ++ u) l') \/ (r = Err EBADMSG /\ lexf l' = None /\ tpos p' = start_of (pre ++ u ++ fst (span ws l'))))).
Proof.
  intros (L1 & L2) El Hn Hf. rewrite El in L1. destruct L1 as (Et & Es & u & Hu & At & _).
  destruct (lex_step fuel p (pre ++ u) l' (At Hn)) as (p2 & r2 & E2 & F2 & R2); [rewrite Hu, app_length in Hf; lia|].
  exists p2, r2, u. split; [exact E2|]. split; [exact Hu|]. destruct R2 as [(-> & R2)|[(-> & R2 & R3)|R2]]; [right|right|left; exact R2]; (split; [exact F2|]); [left|right].
  - auto.
  - rewrite app_assoc. auto.
Qed.
Lemma lexed_token p pre l t v l' : lexed p pre l -> lexf l = Some (t, v, l') -> p_token p = t.
Proof. intros (L1 & _) E. rewrite E in L1. apply L1. Qed.
Lemma lexed_keep p p' pre l : poss p' = poss p -> (p_token p', p_str p', p_tline p', p_tcol p') = (p_token p, p_str p, p_tline p, p_tcol p) -> lexed p pre l -> lexed p' pre l.
Proof.
  unfold poss, lexed, at_, cur, tpos. intros E E'. injection E as E1 E2 E3 E4 E5. injection E' as E6 E7 E8 E9. rewrite E1, E2, E3, E4, E5, E6, E7, E8, E9. auto.
Qed.
Lemma lexed_some p pre l : lexed p pre l -> exists t v l', lexf l = Some (t, v, l').
Proof. intros (L1 & _). destruct (lexf l) as [[[t v] l']|]; [eauto|contradiction]. Qed.
Lemma lexed_tpos p pre l : lexed p pre l -> tpos p = start_of (pre ++ fst (span ws l)).
Proof. intros (_ & L2). exact L2. Qed.

Lemma token_eq (a b : token) : {a = b} + {a <> b}.
Proof. decide equality. Qed.
Lemma is_token_neq a b : a <> b -> is_token a b = false.
Proof. destruct a, b; intro; try reflexivity; congruence. Qed.

Lemma assignment_spec fuel p pre l n l1 : lexed p pre l -> lexf l = Some (TId, n, l1) -> p_stack p = [] -> (S (length l) < fuel)%nat ->
  exists p' r, parse_assignment inp mem fuel p = (p', r) /\ inner pre l p p' r.
Proof.
  intros L El Hs Hf. unfold parse_assignment. unfold mbind at 1.
  assert (Sf : stmtf l = match lexf l1 with
    | None => SBad EBADMSG l1 None
    | Some (TAssign, _, l2) =>
      match lexf l2 with
      | None => SBad EBADMSG l2 None
      | Some (TId, v, l3) | Some (TNum, v, l3) | Some (TQuote, v, l3) => finf (IAssign n v) l3
      | Some _ => SBad EPROTO l2 None
      end
    | Some _ => SBad EPROTO l1 None
    end) by (unfold stmtf; rewrite El; reflexivity).
  destruct (pword_spec fuel p pre l TId n l1 L El (or_introl eq_refl) Hf) as (p1 & r1 & u1 & -> & Hu1 & [(-> & S1)|(Sc1 & Cf1 & [(-> & St1 & L1)|(-> & B1 & B2)])]).
  { eexists. eexists. split; [reflexivity|]. right. right. auto. }
  2:{ eexists. eexists. split; [reflexivity|]. right. left. rewrite B1 in Sf. exists EBADMSG, l1. split; [reflexivity|]. split; [exact Sf|]. split; [exists u1; auto|exact Cf1]. }
  destruct (lexed_some _ _ _ L1) as (t & v0 & l2 & El1). pose proof (lexed_token _ _ _ _ _ _ L1 El1) as Et. unfold mbind at 1, peek at 1. rewrite Et.
  destruct (token_eq t TAssign) as [->|Hd].
  2:{ rewrite (is_token_neq _ _ Hd). cbn [negb]. eexists. eexists. split; [reflexivity|]. right. left. exists EPROTO, l1. split; [reflexivity|].
      split; [rewrite Sf, El1; destruct t; try reflexivity; congruence|]. split; [|exact Cf1]. exists u1. split; [exact Hu1|]. rewrite app_assoc. apply (lexed_tpos _ _ _ L1). }
  cbn [is_token negb]. cbv beta iota. rewrite El1 in Sf. assert (Hf1 : (S (length l1) < fuel)%nat) by (rewrite Hu1, app_length in Hf; lia).
  unfold mbind at 1. destruct (lexed_next fuel p1 _ l1 TAssign v0 l2 L1 El1 ltac:(discriminate) Hf1) as (p2 & r2 & u2 & -> & Hu2 & [(-> & S2)|(F2 & [(-> & L2)|(-> & B1 & B2)])]).
  { eexists. eexists. split; [reflexivity|]. right. right. auto. }
  2:{ eexists. eexists. split; [reflexivity|]. right. left. rewrite B1 in Sf. exists EBADMSG, l2. split; [reflexivity|]. split; [exact Sf|]. destruct F2 as (_ & _ & F2). split; [|congruence].
      exists (u1 ++ u2). split; [rewrite Hu1, Hu2, <- app_assoc; reflexivity|]. rewrite <- !app_assoc in *. exact B2. }
  destruct F2 as (F2 & F3 & F4). assert (Hf2 : (S (length l2) < fuel)%nat) by (rewrite Hu2, app_length in Hf1; lia).
  unfold mbind at 1. destruct (value_spec fuel p2 _ l2 L2 Hf2) as (p3 & r3 & -> & [(-> & S3)|(Sc3 & Cf3 & [(-> & t & v & l3 & El2 & Hw & St3 & u3 & Hu3 & L3)|[(-> & B1 & B2)|(t & v & l3 & u3 & -> & El2 & Hw & Hu3 & B1 & B2)]])]).
  { eexists. eexists. split; [reflexivity|]. right. right. auto. }
  2:{ eexists. eexists. split; [reflexivity|]. right. left. exists EPROTO, l2. split; [reflexivity|]. destruct (lexed_some _ _ _ L2) as (t & v & l3 & El2). split.
      - rewrite Sf, El2. specialize (B2 _ _ _ El2). destruct t; try reflexivity; exfalso; apply B2; unfold word_token; auto.
      - split; [|congruence]. exists (u1 ++ u2). split; [rewrite Hu1, Hu2, <- app_assoc; reflexivity|]. rewrite <- !app_assoc in *. exact B1. }
  2:{ eexists. eexists. split; [reflexivity|]. right. left. exists EBADMSG, l3. split; [reflexivity|]. split.
      - rewrite Sf, El2. unfold finf. rewrite B1. destruct Hw as [->|[->| ->]]; reflexivity.
      - split; [|congruence]. exists (u1 ++ u2 ++ u3). split; [rewrite Hu1, Hu2, Hu3, <- !app_assoc; reflexivity|]. rewrite <- !app_assoc in *. exact B2. }
  unfold mbind at 1, pop at 1. rewrite St3. cbv beta iota. unfold mbind at 1, pop at 1. cbn [with_stack p_stack]. rewrite F2, St1. cbv beta iota.
  unfold callback. cbn [with_stack p_n p_config p_section].
  destruct (config_set (mem (p_n p3)) (mem (p_n p3 + 1)) (p_config p3) (fst (p_section p3)) n v) as [c' r'] eqn:Ec. eexists. eexists. split; [reflexivity|].
  destruct (set_get _ _ _ _ _ _ _ _ Ec) as [_ G]. destruct r' as [[]|e| |]; [|right; right|contradiction|contradiction].
  - left. split; [reflexivity|]. exists (IAssign n v), (u1 ++ u2 ++ u3), l3. split; [rewrite Sf, El2; destruct Hw as [->|[->| ->]]; reflexivity|].
    split; [rewrite Hu1, Hu2, Hu3, <- !app_assoc; reflexivity|]. split; [rewrite <- !app_assoc in *; exact L3|]. split; [exact Hs|]. cbn [applied count with_config with_stack p_section p_config].
    split; [congruence|]. exists (mem (p_n p3)), (mem (p_n p3 + 1)). rewrite <- Cf1, <- F4, <- Cf3, <- Sc1, <- F3, <- Sc3. exact Ec.
  - destruct G as (-> & G & _). split; [reflexivity|]. destruct G as [G|G]; eexists; exact G.
Qed.

Lemma psection_spec fuel p pre l v l1 : lexed p pre l -> lexf l = Some (TLeft, v, l1) -> p_stack p = [] -> good_str (p_section p) -> lenN l <= lenN T -> (S (length l) < fuel)%nat ->
  exists p' r, parse_section inp mem fuel p = (p', r) /\ inner pre l p p' r.
Proof.
  intros L El Hs Hg HlT Hf. unfold parse_section. unfold mbind at 1, peek at 1. rewrite (lexed_token _ _ _ _ _ _ L El). cbn [is_token negb].
  assert (Sf : stmtf l = match lexf l1 with
    | None => SBad EBADMSG l1 None
    | Some (TId, s, l2) =>
      match lexf l2 with
      | None => SBad EBADMSG l2 None
      | Some (TRight, _, l3) => finf (ISection s) l3
      | Some _ => SBad EPROTO l2 None
      end
    | Some _ => SBad EPROTO l1 None
    end) by (unfold stmtf; rewrite El; reflexivity).
  unfold mbind at 1. destruct (lexed_next fuel p _ l TLeft v l1 L El ltac:(discriminate) Hf) as (p1 & r1 & u1 & -> & Hu1 & [(-> & S1)|(F1 & [(-> & L1)|(-> & B1 & B2)])]).
  { eexists. eexists. split; [reflexivity|]. right. right. auto. }
  2:{ eexists. eexists. split; [reflexivity|]. right. left. rewrite B1 in Sf. exists EBADMSG, l1. split; [reflexivity|]. split; [exact Sf|]. split; [exists u1; auto|apply F1]. }
  destruct F1 as (F1 & F2 & F3). assert (Hf1 : (S (length l1) < fuel)%nat) by (rewrite Hu1, app_length in Hf; lia).
  destruct (lexed_some _ _ _ L1) as (t & s & l2 & El1). rewrite El1 in Sf. unfold mbind at 1. destruct (token_eq t TId) as [->|Hd].
  2:{ unfold parse_word. unfold mbind at 1, peek at 1. rewrite (lexed_token _ _ _ _ _ _ L1 El1), (is_token_neq _ _ Hd). cbn [negb]. unfold mfail. cbv beta iota.
      eexists. eexists. split; [reflexivity|]. right. left. exists EPROTO, l1. split; [reflexivity|]. split; [rewrite Sf; destruct t; try reflexivity; congruence|]. split; [|exact F3].
      exists u1. split; [exact Hu1|]. rewrite app_assoc. apply (lexed_tpos _ _ _ L1). }
  destruct (pword_spec fuel p1 _ l1 TId s l2 L1 El1 (or_introl eq_refl) Hf1) as (p2 & r2 & u2 & -> & Hu2 & [(-> & S2)|(Sc2 & Cf2 & [(-> & St2 & L2)|(-> & B1 & B2)])]).
  { eexists. eexists. split; [reflexivity|]. right. right. auto. }
  2:{ eexists. eexists. split; [reflexivity|]. right. left. rewrite B1 in Sf. exists EBADMSG, l2. split; [reflexivity|]. split; [exact Sf|]. split; [|congruence].
      exists (u1 ++ u2). split; [rewrite Hu1, Hu2, <- app_assoc; reflexivity|]. rewrite <- !app_assoc in *. exact B2. }
  assert (Hf2 : (S (length l2) < fuel)%nat) by (rewrite Hu2, app_length in Hf1; lia).
  destruct (lexed_some _ _ _ L2) as (t & v2 & l3 & El2). rewrite El2 in Sf. cbv beta iota. unfold mbind at 1, peek at 1. rewrite (lexed_token _ _ _ _ _ _ L2 El2). destruct (token_eq t TRight) as [->|Hd].
  2:{ rewrite (is_token_neq _ _ Hd). cbn [negb]. eexists. eexists. split; [reflexivity|]. right. left. exists EPROTO, l2. split; [reflexivity|].
      split; [rewrite Sf; destruct t; try reflexivity; congruence|]. split; [|congruence]. exists (u1 ++ u2). split; [rewrite Hu1, Hu2, <- app_assoc; reflexivity|].
      rewrite app_assoc. rewrite (app_assoc pre). apply (lexed_tpos _ _ _ L2). }
  cbn [is_token negb]. cbv beta iota. unfold mbind at 1, pop at 1. rewrite St2. cbv beta iota. unfold mbind at 1, mget. cbv beta iota. unfold mbind at 1, str_copy.
  assert (Hsl : lenN s <= lenN l).
  { destruct (lexf_sound _ _ _ _ El1) as (w & l0 & E & _ & (-> & _)). rewrite Hu1, E, !lenN_app. lia. }
  set (p3 := with_stack p2 (p_stack p1)).
  destruct (append_all_spec s ([], snd (p_section p3)) p3) as (p4 & r4 & -> & M4 & P4 & [(s' & -> & E4 & G4)|(-> & S4)]).
  { split; cbn [fst snd p3 with_stack p_section]; [rewrite Sc2, F2; apply Hg|unfold lenN; cbn; lia]. }
  { cbn [fst]. rewrite (@lenN_nil N). lia. }
  2:{ eexists. eexists. split; [reflexivity|]. right. right. auto. }
  cbv beta iota. unfold mbind at 1, mput. cbv beta iota. assert (L5 : lexed (with_section p4 s') ((pre ++ u1) ++ u2) l2).
  { apply (lexed_keep p2); [| |exact L2].
    - unfold poss in *. cbn [with_section p_idx p_line p_col p_pline p_pcol]. exact P4.
    - destruct M4 as (M1 & M2 & _ & M4 & M5 & _). unfold p3 in *. cbn [with_section with_stack p_token p_str p_tline p_tcol] in *. rewrite M1, M2, M4, M5. reflexivity. }
  destruct (lexed_next fuel (with_section p4 s') _ l2 TRight v2 l3 L5 El2 ltac:(discriminate) Hf2) as (p6 & r6 & u6 & -> & Hu6 & [(-> & S6)|(F6 & [(-> & L6)|(-> & B1 & B2)])]).
  { eexists. eexists. split; [reflexivity|]. right. right. auto. }
  - eexists. eexists. split; [reflexivity|]. left. split; [reflexivity|]. exists (ISection s), (u1 ++ u2 ++ u6), l3. split; [rewrite Sf; reflexivity|].
    split; [rewrite Hu1, Hu2, Hu6, <- !app_assoc; reflexivity|]. split; [rewrite <- !app_assoc in *; exact L6|]. destruct F6 as (F6 & F7 & F8), M4 as (_ & _ & M4 & _ & _ & _ & M5).
    split; [rewrite F6; cbn [with_section p_stack]; rewrite M4; unfold p3; cbn [with_stack p_stack]; rewrite F1; exact Hs|].
    cbn [applied]. rewrite F7, F8. cbn [with_section p_section p_config]. split; [exact E4|]. split; [exact G4|]. rewrite M5. unfold p3. cbn [with_stack p_config]. congruence.
  - eexists. eexists. split; [reflexivity|]. right. left. exists EBADMSG, l3. split; [reflexivity|]. split; [rewrite Sf; unfold finf; rewrite B1; reflexivity|].
    destruct F6 as (F6 & F7 & F8), M4 as (_ & _ & M4 & _ & _ & _ & M5). split; [|rewrite F8; cbn [with_section p_config]; rewrite M5; unfold p3; cbn [with_stack p_config]; congruence].
    exists (u1 ++ u2 ++ u6). split; [rewrite Hu1, Hu2, Hu6, <- !app_assoc; reflexivity|]. rewrite <- !app_assoc in *. exact B2.
Qed.

Lemma applied_eq i p q p' : p_section p = p_section q -> p_config p = p_config q -> applied i q p' -> applied i p p'.
Proof. intros E1 E2. unfold applied. rewrite E1, E2. auto. Qed.

Lemma statement_spec fuel p pre l : at_ p pre l -> p_stack p = [] -> good_str (p_section p) -> (S (length l) < fuel)%nat ->
  exists p' r, (let! _ := lex inp mem fuel in parse_statement inp mem fuel) p = (p', r) /\ after pre l p (stmtf l) p' r.
Proof.
  intros A Hs Hg Hf. unfold mbind at 1. assert (HlT : lenN l <= lenN T) by (destruct A as (-> & _); rewrite lenN_app; lia).
  destruct (lex_step fuel p pre l A Hf) as (p1 & r1 & -> & (F1 & F2 & F3) & [(-> & L1)|[(-> & B1 & B2)|(-> & S1)]]).
  3:{ eexists. eexists. split; [reflexivity|]. apply starved_after. exact S1. }
  2:{ eexists. eexists. split; [reflexivity|]. unfold stmtf. rewrite B1. left. split; [reflexivity|]. split; [exists []; split; [reflexivity|exact B2]|exact F3]. }
  destruct (lexed_some _ _ _ L1) as (t & v & l1 & El). pose proof (lexed_token _ _ _ _ _ _ L1 El) as Et.
  unfold parse_statement. unfold mbind at 1, peek at 1. rewrite Et. destruct (token_eq t TEol) as [->|N1].
  { cbn [is_token]. destruct L1 as (L1 & _). rewrite El in L1. destruct L1 as (_ & _ & u & Hu & At & _). eexists. eexists. split; [reflexivity|].
    unfold stmtf. rewrite El. left. split; [reflexivity|]. split; [exists u; split; [exact Hu|apply At; discriminate]|]. split; [congruence|]. split; assumption. }
  rewrite (is_token_neq _ _ N1). unfold mbind at 1, peek at 1. rewrite Et. destruct (token_eq t TEof) as [->|N2].
  { cbn [is_token]. eexists. eexists. split; [reflexivity|]. unfold stmtf. rewrite El. left. auto. }
  rewrite (is_token_neq _ _ N2). unfold parse_expression.
  assert (Fin : forall X p2 r2, X p1 = (p2, r2) -> inner pre l p1 p2 r2 ->
    exists p' r, (let! _ := (let! _ := X in let! eof := peek TEof in let! eol := peek TEol in if eof || eol then mret tt else mfail (Err EPROTO)) in mret false) p1 = (p', r) /\ after pre l p (stmtf l) p' r).
  { intros X p2 r2 EX [(-> & i & u & l3 & Sf & Hu & L3 & Hs3 & Ha)|[(e & rest & -> & Sf & Hp & Hc)|(-> & S2)]].
    - destruct (ending_spec p pre l i p2 (pre ++ u) u l3 L3 eq_refl Hu Hs3 (applied_eq _ _ _ _ (eq_sym F2) (eq_sym F3) Ha)) as (p4 & r4 & E4 & R4).
      exists p4, r4. split; [|rewrite Sf; exact R4]. rewrite <- E4. unfold ending. unfold mbind. rewrite EX. unfold peek. destruct (is_token (p_token p2) TEof || is_token (p_token p2) TEol); reflexivity.
    - exists p2, (Err e). split; [unfold mbind; rewrite EX; reflexivity|]. rewrite Sf. left. split; [reflexivity|]. split; [exact Hp|]. congruence.
    - exists p2, (Err ENOMEM). split; [unfold mbind; rewrite EX; reflexivity|]. apply starved_after. exact S2. }
  assert (Red : forall i b, is_token t TId = i -> is_token t TLeft = b ->
    forall X, X = (if i then parse_assignment inp mem fuel else if b then parse_section inp mem fuel else mret tt) ->
    (let! _ := (let! i0 := peek TId in let! l0 := peek TLeft in let! _ := (if i0 then parse_assignment inp mem fuel else if l0 then parse_section inp mem fuel else mret tt) in
      let! eof := peek TEof in let! eol := peek TEol in if eof || eol then mret tt else mfail (Err EPROTO)) in mret false) p1 =
    (let! _ := (let! _ := X in let! eof := peek TEof in let! eol := peek TEol in if eof || eol then mret tt else mfail (Err EPROTO)) in mret false) p1).
  { intros i b E1 E2 X ->. unfold mbind at 1 2, peek at 1. rewrite Et, E1. unfold mbind at 1, peek at 1. rewrite Et, E2. reflexivity. }
  destruct (token_eq t TId) as [->|N3].
  { rewrite (Red true false eq_refl eq_refl _ eq_refl). destruct (assignment_spec fuel p1 pre l v l1 L1 El ltac:(congruence) Hf) as (p2 & r2 & E2 & R2). exact (Fin _ _ _ E2 R2). }
  destruct (token_eq t TLeft) as [->|N4].
  { rewrite (Red false true eq_refl eq_refl _ eq_refl). destruct (psection_spec fuel p1 pre l v l1 L1 El ltac:(congruence) ltac:(rewrite F2; exact Hg) HlT Hf) as (p2 & r2 & E2 & R2). exact (Fin _ _ _ E2 R2). }
  rewrite (Red false false (is_token_neq _ _ N3) (is_token_neq _ _ N4) _ eq_refl). exists p1, (Err EPROTO). split.
  { unfold mbind, mret, peek. rewrite Et, (is_token_neq _ _ N1), (is_token_neq _ _ N2). reflexivity. }
  assert (Sf : stmtf l = SBad EPROTO l None) by (unfold stmtf; rewrite El; destruct t; try reflexivity; congruence).
  rewrite Sf. left. split; [reflexivity|]. split; [exists []; split; [reflexivity|exact (lexed_tpos _ _ _ L1)]|exact F3].
Qed.

(** ** The loop *)

Definition ends (L0 : list assignment) (p' : pst) (r : res unit) : Prop :=
  (r = Ok tt /\ exists is, file is T /\ gives (p_config p') (L0 ++ assignments [] is)) \/
  (r = UB OobRead /\ exists is a b i, T = a ++ b /\ lines is a /\ line i b /\ i <> INone) \/
  (exists e is a used rest ex, r = Err e /\ (e = EBADMSG \/ e = EPROTO) /\ T = a ++ used ++ rest /\ lines is a /\ stmtf (used ++ rest) = SBad e rest ex /\
     tpos p' = start_of (a ++ used ++ fst (span ws rest)) /\
     gives (p_config p') (L0 ++ assignments [] is ++ match ex with None => [] | Some (n, v) => [(sect [] is, n, v)] end)) \/
  (r = Err ENOMEM /\ starved).

Lemma loop_spec L0 fuel : (S (length T) < fuel)%nat -> forall n p pre l is, at_ p pre l -> p_stack p = [] -> good_str (p_section p) -> (length l < n)%nat ->
  lines is pre -> fst (p_section p) = sect [] is -> gives (p_config p) (L0 ++ assignments [] is) ->
  exists p' r, parse_loop inp mem n fuel p = (p', r) /\ ends L0 p' r.
Proof.
  intros Hf. induction n as [|n IH]; intros p pre l is A Hs Hg Hn Hl Hsec Hc; [lia|]. cbn [parse_loop].
  assert (HlT : (length l <= length T)%nat) by (destruct A as (-> & _); rewrite app_length; lia).
  destruct (statement_spec fuel p pre l A Hs Hg ltac:(lia)) as (p1 & r1 & E1 & R1).
  assert (Eq : (let! _ := lex inp mem fuel in let! done := parse_statement inp mem fuel in if done then mret tt else parse_loop inp mem n fuel) p =
    match r1 with Ok done => (if done then mret tt else parse_loop inp mem n fuel) p1 | Err e => (p1, Err e) | UB u => (p1, UB u) | OutOfFuel => (p1, OutOfFuel) end).
  { revert E1. unfold mbind. destruct (lex inp mem fuel p) as [p2 [[]|e|u|]]; [|intro H; injection H as <- <-; reflexivity..].
    destruct (parse_statement inp mem fuel p2) as [p3 r3]. intro H; injection H as <- <-. reflexivity. }
  rewrite Eq. clear Eq E1. destruct R1 as [R1|(-> & S1)]; [|eexists; eexists; split; [reflexivity|]; right; right; right; auto].
  pose proof (stmtf_sound l) as Ss. destruct (stmtf l) as [|i l'|i|e rest ex] eqn:Est.
  - destruct R1 as (-> & R1). exists p1, (Ok tt). split; [reflexivity|]. left. split; [reflexivity|]. exists is. split; [exists pre, l; destruct A as (A & _); auto|]. rewrite R1. exact Hc.
  - destruct R1 as (-> & (u & Hu & A1) & Hs1 & Ha). destruct Ss as (a & Ea & Hli).
    assert (u = a ++ [10]) as ->.
    { apply (app_inv_tail l'). rewrite <- Hu, Ea, <- app_assoc. reflexivity. }
    assert (Hl1 : lines (is ++ [i]) (pre ++ a ++ [10])) by (apply lines_snoc; assumption).
    apply (IH p1 (pre ++ a ++ [10]) l' (is ++ [i]) A1 Hs1).
    + destruct i; cbn [applied] in Ha; [destruct Ha as [-> _]; exact Hg|apply Ha|destruct Ha as [-> _]; exact Hg].
    + rewrite Ea, app_length in Hn. cbn [length] in Hn. lia.
    + exact Hl1.
    + rewrite sect_snoc. destruct i; cbn [applied] in Ha; [destruct Ha as [-> _]; exact Hsec|apply Ha|destruct Ha as [-> _]; exact Hsec].
    + rewrite assignments_app, app_assoc. destruct i as [|s|x v]; cbn [assignments applied] in *.
      * rewrite app_nil_r. destruct Ha as [_ ->]. exact Hc.
      * rewrite app_nil_r. destruct Ha as (_ & _ & ->). exact Hc.
      * destruct Ha as (_ & m1 & m2 & Ha). rewrite Hsec in Ha. exact (gives_set _ _ _ _ _ _ _ _ Hc Ha).
  - destruct R1 as (-> & Hi & Ha). destruct Ss as (Ss & Hne).
    assert (En : parse_loop inp mem n fuel p1 = (with_token p1 TNone None, UB OobRead) \/ n = O).
    { destruct n; [right; reflexivity|left]. cbn [parse_loop]. unfold mbind at 1. unfold lex. unfold mbind at 1, set_token at 1, mput. cbv beta iota. unfold mbind at 1.
      destruct fuel as [|fuel']; [lia|]. cbn [skip_ws]. unfold mbind at 1, p_next. cbn [with_token p_idx]. rewrite in_len_T, Hi. rewrite (proj2 (N.eqb_neq _ _)) by lia.
      assert (Er : rd inp (lenN T + 1) = UB OobRead).
      { unfold rd, inp. destruct (N.ltb_spec (lenN T + 1) (lenN (T ++ [0]))) as [H|H]; [rewrite lenN_app in H; change (lenN [0]) with 1 in H; lia|reflexivity]. }
      rewrite Er. reflexivity. }
    destruct En as [En| ->].
    + eexists. eexists. split; [exact En|]. right. left. split; [reflexivity|]. exists is, pre, l, i. destruct A as (A & _). auto.
    + exfalso. assert (l = []) by (destruct l; [reflexivity|cbn [length] in Hn; lia]). subst l. discriminate.
  - destruct R1 as (-> & (u & Hu & Hp) & Hex). exists p1, (Err e). split; [reflexivity|]. right. right. left. exists e, is, pre, u, rest, ex.
    split; [reflexivity|]. split; [exact (stmtf_errno _ _ _ _ Est)|]. split; [destruct A as (A & _); rewrite A, Hu; reflexivity|]. split; [exact Hl|]. split; [rewrite <- Hu; exact Est|]. split; [exact Hp|].
    rewrite app_assoc. destruct ex as [[x v]|]; [|rewrite app_nil_r, Hex; exact Hc]. destruct Hex as (m1 & m2 & Hex). rewrite Hsec in Hex. exact (gives_set _ _ _ _ _ _ _ _ Hc Hex).
Qed.
End Parser.

(** ** Errors *)

Definition bad (o : stmt) : Prop := exists e r x, o = SBad e r x.
(** The kind of the next token; those that end a line are of one kind. *)
Definition kind (l : list N) : option token := match lexf l with None => None | Some (TEol, _, _) => Some TEof | Some (t, _, _) => Some t end.
(** [r2] begins as [r1] does. *)
Definition heads (r1 r2 : list N) : Prop := exists c a b, r1 = c :: a /\ r2 = c :: b.
Lemma heads_not f r1 r2 : heads r1 r2 -> not_hd f r1 -> not_hd f r2.
Proof. intros (c & a & b & -> & ->). exact (fun H => H). Qed.

Record context (l rest : list N) (e : errno) (ex : option (list N * list N)) (u : list N) (K : option token -> bool) : Prop := mkcx {
  cx_app : l = u ++ rest;
  cx_same : forall r2, heads rest r2 -> K (kind r2) = true -> bad (stmtf (u ++ r2));
  cx_none : K None = true;
  cx_here : K (kind rest) = true;
  cx_errno : e = EBADMSG <-> lexf rest = None;
  cx_viable : exists more, forall w, Forall space w -> line_here (u ++ w ++ more);
  cx_extra : forall n v, ex = Some (n, v) -> forall w, Forall space w -> line (IAssign n v) (u ++ w)
}.
Lemma a_name : name [97].
Proof. exists 97, []. split; [reflexivity|]. split; [unfold letter; lia|constructor]. Qed.
Lemma end_space w : Forall space w -> line_end w.
Proof. left. assumption. Qed.
Ltac flat := repeat (rewrite <- ?app_assoc; cbn [List.app]).
Ltac isbad := eexists; eexists; eexists; reflexivity.

Definition not_end (k : option token) : bool := match k with Some TEof => false | _ => true end.
Definition not_ (t : token) (k : option token) : bool := match k with Some t' => negb (is_token t' t) | None => true end.
Lemma finf_bad i l3 e rest ex : finf i l3 = SBad e rest ex -> rest = l3 /\ (e = EBADMSG <-> lexf rest = None) /\ not_end (kind rest) = true /\ (forall n v, ex = Some (n, v) -> i = IAssign n v).
Proof.
  unfold finf, kind. destruct (lexf l3) as [[[t v] l']|] eqn:E.
  - destruct t; intro H; try discriminate H; injection H as <- <- <-; rewrite E; (split; [reflexivity|]; split; [split; [discriminate|congruence]|]; split; [reflexivity|]); intros n0 v0; destruct i; intro H; try discriminate H; injection H as <- <-; reflexivity.
  - intro H; injection H as <- <- <-. rewrite E. split; [reflexivity|]. split; [tauto|]. split; [reflexivity|]. discriminate.
Qed.
Lemma finf_isbad i l : not_end (kind l) = true -> bad (finf i l).
Proof. unfold finf, kind. destruct (lexf l) as [[[t v] l']|]; [destruct t|]; intro H; try discriminate H; isbad. Qed.

Lemma stmtf_bad l e rest ex : stmtf l = SBad e rest ex -> exists u K, context l rest e ex u K.
Proof.
  unfold stmtf. destruct (lexf l) as [[[t v] l1]|] eqn:El.
  2:{ intro H; injection H as <- <- <-. exists [], (fun k => match k with None => true | _ => false end). constructor.
      - reflexivity.
      - intros r2 _ H. unfold kind in H. cbn [List.app]. unfold stmtf. destruct (lexf r2) as [[[t v] l']|]; [destruct t; discriminate|isbad].
      - reflexivity.
      - unfold kind. rewrite El. reflexivity.
      - rewrite El. tauto.
      - exists []. intros w Hw. rewrite app_nil_r. right. exists INone. apply end_space. exact Hw.
      - discriminate. }
  assert (Start : SBad EPROTO l None = SBad e rest ex -> match t with TEof | TEol | TId | TLeft => False | _ => True end -> exists u K, context l rest e ex u K).
  { intros H Ht; injection H as <- <- <-. exists [], (fun k => match k with Some TEof | Some TId | Some TLeft => false | _ => true end). constructor.
    - reflexivity.
    - intros r2 _ H. unfold kind in H. cbn [List.app]. unfold stmtf. destruct (lexf r2) as [[[t' v'] l']|]; [destruct t'; try discriminate H; isbad|isbad].
    - reflexivity.
    - unfold kind. rewrite El. destruct t; try reflexivity; contradiction.
    - split; [discriminate|congruence].
    - exists []. intros w Hw. rewrite app_nil_r. right. exists INone. apply end_space. exact Hw.
    - discriminate. }
  destruct (lexf_sound _ _ _ _ El) as (w1 & l0 & -> & Hw1 & Ht).
  destruct t; cbn [token_text] in Ht; try (intro H; apply Start; [exact H|exact I]); try discriminate.
  - (* a section *)
    subst l0. clear Start.
    assert (S1 : forall r, stmtf (w1 ++ 91 :: r) = match lexf r with
      | None => SBad EBADMSG r None
      | Some (TId, s, l2) => match lexf l2 with None => SBad EBADMSG l2 None | Some (TRight, _, l3) => finf (ISection s) l3 | Some _ => SBad EPROTO l2 None end
      | Some _ => SBad EPROTO r None end) by (intro r; unfold stmtf; rewrite (lexf_complete w1 _ TLeft [] r Hw1 eq_refl); reflexivity).
    assert (C1 : forall e0, SBad e0 l1 None = SBad e rest ex -> (e0 = EBADMSG <-> lexf l1 = None) -> not_ TId (kind l1) = true -> exists u K, context (w1 ++ 91 :: l1) rest e ex u K).
    { intros e0 H He Hk. injection H as <- <- <-. exists (w1 ++ [91]), (not_ TId). constructor.
      - flat. reflexivity.
      - intros r2 _ H. flat. rewrite S1. unfold kind in H. destruct (lexf r2) as [[[t' v'] l']|]; [destruct t'; try discriminate H; isbad|isbad].
      - reflexivity.
      - exact Hk.
      - exact He.
      - exists [97; 93]. intros w Hw. right. exists (ISection [97]), w1, w, [], []. split; [flat; reflexivity|]. split; [exact Hw1|]. split; [exact Hw|]. split; [exact a_name|]. split; [constructor|left; constructor].
      - discriminate. }
    destruct (lexf l1) as [[[t s] l2]|] eqn:El1; [|intro H; apply (C1 _ H); [tauto|unfold kind; rewrite El1; reflexivity]].
    destruct t; try (intro H; apply (C1 _ H); [split; [discriminate|congruence]|unfold kind; rewrite El1; reflexivity]). clear C1.
    destruct (lexf_sound _ _ _ _ El1) as (w2 & l0 & -> & Hw2 & (-> & Hs & Hh)).
    assert (S2 : forall r, not_hd id_char r -> stmtf (w1 ++ 91 :: w2 ++ s ++ r) = match lexf r with None => SBad EBADMSG r None | Some (TRight, _, l3) => finf (ISection s) l3 | Some _ => SBad EPROTO r None end).
    { intros r Hr. rewrite S1, (lexf_complete w2 _ TId s r Hw2); [reflexivity|]. split; [reflexivity|]. split; assumption. }
    assert (C2 : forall e0, SBad e0 l2 None = SBad e rest ex -> (e0 = EBADMSG <-> lexf l2 = None) -> not_ TRight (kind l2) = true -> exists u K, context (w1 ++ 91 :: w2 ++ s ++ l2) rest e ex u K).
    { intros e0 H He Hk. injection H as <- <- <-. exists (w1 ++ [91] ++ w2 ++ s), (not_ TRight). constructor.
      - flat. reflexivity.
      - intros r2 Hr H. flat. rewrite (S2 r2 (heads_not _ _ _ Hr Hh)). unfold kind in H. destruct (lexf r2) as [[[t' v'] l']|]; [destruct t'; try discriminate H; isbad|isbad].
      - reflexivity.
      - exact Hk.
      - exact He.
      - exists [93]. intros w Hw. right. exists (ISection s), w1, w2, w, []. split; [flat; reflexivity|]. split; [exact Hw1|]. split; [exact Hw2|]. split; [exact Hs|]. split; [exact Hw|left; constructor].
      - discriminate. }
    destruct (lexf l2) as [[[t v2] l3]|] eqn:El2; [|intro H; apply (C2 _ H); [tauto|unfold kind; rewrite El2; reflexivity]].
    destruct t; try (intro H; apply (C2 _ H); [split; [discriminate|congruence]|unfold kind; rewrite El2; reflexivity]). clear C2.
    destruct (lexf_sound _ _ _ _ El2) as (w3 & l0 & -> & Hw3 & ->). intro H. apply finf_bad in H as (-> & He & Hk & Hex).
    exists (w1 ++ [91] ++ w2 ++ s ++ w3 ++ [93]), not_end. constructor.
    + flat. reflexivity.
    + intros r2 _ H. flat. rewrite (stmtf_section w1 w2 s w3 r2 Hw1 Hw2 Hs Hw3). apply finf_isbad. exact H.
    + reflexivity.
    + exact Hk.
    + exact He.
    + exists []. intros w Hw. right. exists (ISection s), w1, w2, w3, w. split; [flat; rewrite app_nil_r; reflexivity|]. split; [exact Hw1|]. split; [exact Hw2|]. split; [exact Hs|]. split; [exact Hw3|left; exact Hw].
    + intros n v0 E. specialize (Hex _ _ E). discriminate.
  - (* an assignment *)
    destruct Ht as (-> & Hn & Hh). clear Start. rename v into n.
    assert (S1 : forall r, not_hd id_char r -> stmtf (w1 ++ n ++ r) = match lexf r with
      | None => SBad EBADMSG r None
      | Some (TAssign, _, l2) => match lexf l2 with None => SBad EBADMSG l2 None | Some (TId, v, l3) | Some (TNum, v, l3) | Some (TQuote, v, l3) => finf (IAssign n v) l3 | Some _ => SBad EPROTO l2 None end
      | Some _ => SBad EPROTO r None end).
    { intros r Hr. unfold stmtf. rewrite (lexf_complete w1 _ TId n r Hw1); [reflexivity|]. split; [reflexivity|]. split; assumption. }
    assert (C1 : forall e0, SBad e0 l1 None = SBad e rest ex -> (e0 = EBADMSG <-> lexf l1 = None) -> not_ TAssign (kind l1) = true -> exists u K, context (w1 ++ n ++ l1) rest e ex u K).
    { intros e0 H He Hk. injection H as <- <- <-. exists (w1 ++ n), (not_ TAssign). constructor.
      - flat. reflexivity.
      - intros r2 Hr H. flat. rewrite (S1 r2 (heads_not _ _ _ Hr Hh)). unfold kind in H. destruct (lexf r2) as [[[t' v'] l']|]; [destruct t'; try discriminate H; isbad|isbad].
      - reflexivity.
      - exact Hk.
      - exact He.
      - exists [61; 97]. intros w Hw. right. exists (IAssign n [97]), w1, w, [], [97], []. split; [flat; reflexivity|]. split; [exact Hw1|]. split; [exact Hn|]. split; [exact Hw|]. split; [constructor|]. split; [left; split; [exact a_name|reflexivity]|left; constructor].
      - discriminate. }
    destruct (lexf l1) as [[[t v1] l2]|] eqn:El1; [|intro H; apply (C1 _ H); [tauto|unfold kind; rewrite El1; reflexivity]].
    destruct t; try (intro H; apply (C1 _ H); [split; [discriminate|congruence]|unfold kind; rewrite El1; reflexivity]). clear C1.
    destruct (lexf_sound _ _ _ _ El1) as (w2 & l0 & -> & Hw2 & ->).
    assert (S2 : forall r, stmtf (w1 ++ n ++ w2 ++ 61 :: r) = match lexf r with None => SBad EBADMSG r None | Some (TId, v, l3) | Some (TNum, v, l3) | Some (TQuote, v, l3) => finf (IAssign n v) l3 | Some _ => SBad EPROTO r None end).
    { intros r. rewrite S1.
      - rewrite (lexf_complete w2 _ TAssign [] r Hw2 eq_refl). reflexivity.
      - apply not_hd_app; [exact Hw2|intros c Hc; apply (space_not_id c Hc)|reflexivity]. }
    assert (C2 : forall e0, SBad e0 l2 None = SBad e rest ex -> (e0 = EBADMSG <-> lexf l2 = None) -> not_ TId (kind l2) && not_ TNum (kind l2) && not_ TQuote (kind l2) = true -> exists u K, context (w1 ++ n ++ w2 ++ 61 :: l2) rest e ex u K).
    { intros e0 H He Hk. injection H as <- <- <-. exists (w1 ++ n ++ w2 ++ [61]), (fun k => not_ TId k && not_ TNum k && not_ TQuote k). constructor.
      - flat. reflexivity.
      - intros r2 Hr H. flat. rewrite S2. unfold kind in H. destruct (lexf r2) as [[[t' v'] l']|]; [destruct t'; try discriminate H; isbad|isbad].
      - reflexivity.
      - exact Hk.
      - exact He.
      - exists [97]. intros w Hw. right. exists (IAssign n [97]), w1, w2, w, [97], []. split; [flat; reflexivity|]. split; [exact Hw1|]. split; [exact Hn|]. split; [exact Hw2|]. split; [exact Hw|]. split; [left; split; [exact a_name|reflexivity]|left; constructor].
      - discriminate. }
    destruct (lexf l2) as [[[t v] l3]|] eqn:El2; [|intro H; apply (C2 _ H); [tauto|unfold kind; rewrite El2; reflexivity]].
    destruct t; try (intro H; apply (C2 _ H); [split; [discriminate|congruence]|unfold kind; rewrite El2; reflexivity]); clear C2;
      destruct (lexf_sound _ _ _ _ El2) as (w3 & l0 & -> & Hw3 & Hv); cbn [token_text] in Hv.
    + destruct Hv as (-> & Hv & Hhv). intro H. apply finf_bad in H as (-> & He & Hk & Hex). exists (w1 ++ n ++ w2 ++ [61] ++ w3 ++ v), not_end. constructor.
      * flat. reflexivity.
      * intros r2 Hr H. flat. rewrite S2, (lexf_complete w3 _ TId v r2 Hw3); [apply finf_isbad; exact H|]. split; [reflexivity|]. split; [exact Hv|exact (heads_not _ _ _ Hr Hhv)].
      * reflexivity.
      * exact Hk.
      * exact He.
      * exists []. intros w Hw. right. exists (IAssign n v), w1, w2, w3, v, w. split; [flat; rewrite app_nil_r; reflexivity|]. split; [exact Hw1|]. split; [exact Hn|]. split; [exact Hw2|]. split; [exact Hw3|]. split; [left; auto|left; exact Hw].
      * intros n0 v0 E. specialize (Hex _ _ E). injection Hex as <- <-. intros w Hw. exists w1, w2, w3, v, w. split; [flat; reflexivity|]. split; [exact Hw1|]. split; [exact Hn|]. split; [exact Hw2|]. split; [exact Hw3|]. split; [left; auto|left; exact Hw].
    + destruct Hv as (-> & Hv & Hhv). intro H. apply finf_bad in H as (-> & He & Hk & Hex). exists (w1 ++ n ++ w2 ++ [61] ++ w3 ++ v), not_end. constructor.
      * flat. reflexivity.
      * intros r2 Hr H. flat. rewrite S2, (lexf_complete w3 _ TNum v r2 Hw3); [apply finf_isbad; exact H|]. split; [reflexivity|]. split; [exact Hv|exact (heads_not _ _ _ Hr Hhv)].
      * reflexivity.
      * exact Hk.
      * exact He.
      * exists []. intros w Hw. right. exists (IAssign n v), w1, w2, w3, v, w. split; [flat; rewrite app_nil_r; reflexivity|]. split; [exact Hw1|]. split; [exact Hn|]. split; [exact Hw2|]. split; [exact Hw3|]. split; [right; left; auto|left; exact Hw].
      * intros n0 v0 E. specialize (Hex _ _ E). injection Hex as <- <-. intros w Hw. exists w1, w2, w3, v, w. split; [flat; reflexivity|]. split; [exact Hw1|]. split; [exact Hn|]. split; [exact Hw2|]. split; [exact Hw3|]. split; [right; left; auto|left; exact Hw].
    + destruct Hv as (-> & Hv). intro H. apply finf_bad in H as (-> & He & Hk & Hex). exists (w1 ++ n ++ w2 ++ [61] ++ w3 ++ [34] ++ v ++ [34]), not_end. constructor.
      * flat. reflexivity.
      * intros r2 Hr H. flat. rewrite S2, (lexf_complete w3 _ TQuote v r2 Hw3); [apply finf_isbad; exact H|]. split; [reflexivity|exact Hv].
      * reflexivity.
      * exact Hk.
      * exact He.
      * exists []. intros w Hw. right. exists (IAssign n v), w1, w2, w3, ([34] ++ v ++ [34]), w. split; [flat; rewrite app_nil_r; reflexivity|]. split; [exact Hw1|]. split; [exact Hn|]. split; [exact Hw2|]. split; [exact Hw3|]. split; [right; right; auto|left; exact Hw].
      * intros n0 v0 E. specialize (Hex _ _ E). injection Hex as <- <-. intros w Hw. exists w1, w2, w3, ([34] ++ v ++ [34]), w. split; [flat; reflexivity|]. split; [exact Hw1|]. split; [exact Hn|]. split; [exact Hw2|]. split; [exact Hw3|]. split; [right; right; auto|left; exact Hw].
Qed.

Lemma tokf_begins l : begins_token l <-> tokf l <> None.
Proof.
  destruct l as [|c l]; [split; [discriminate|exact (fun _ => I)]|]. cbn [begins_token tokf]. destruct (N.eqb_spec c 10); [split; [discriminate|tauto]|].
  destruct (N.eqb_spec c 59); [split; [destruct (snd (span not_eol l)); discriminate|tauto]|].
  destruct (N.eqb_spec c 61); [split; [discriminate|tauto]|]. destruct (N.eqb_spec c 91); [split; [discriminate|tauto]|]. destruct (N.eqb_spec c 93); [split; [discriminate|tauto]|].
  destruct (is_alpha c) eqn:Ea; [apply alpha_letter in Ea; split; [destruct (span id_char (c :: l)); discriminate|tauto]|].
  destruct (is_digit c) eqn:Ed; [apply digit_digit in Ed; split; [destruct (span is_digit (c :: l)); discriminate|tauto]|].
  assert (Na : ~ letter c) by (intro H; apply alpha_letter in H; congruence). assert (Nd : ~ digit c) by (intro H; apply digit_digit in H; congruence).
  destruct (N.eqb_spec c 34) as [->|]; [|split; [tauto|congruence]]. destruct (quotef 0 l) as [[v l']|] eqn:Eq.
  - split; [discriminate|]. intros _. repeat right. split; [reflexivity|]. exists v, l'. split; [exact (quotef_app _ _ _ _ Eq)|]. apply qprop_0. exact (quotef_sound _ _ _ _ Eq).
  - split; [|congruence]. intros H. exfalso. assert (H' : exists v r, l = v ++ [34] ++ r /\ quotable v) by tauto. destruct H' as (v & r & -> & Hq). cbn [List.app] in Eq. apply qprop_0 in Hq. rewrite (quotef_complete v 0 r Hq) in Eq. discriminate.
Qed.

(** The first character determines the kind of a token. *)
Lemma kind_head w c a b : Forall space w -> ws c = false -> kind (w ++ c :: b) = kind (w ++ c :: a) \/ kind (w ++ c :: b) = None \/ ~ begins_token (c :: a).
Proof.
  intros Hw Hc. unfold kind, lexf. apply (forall_iff _ _ _ ws_space) in Hw. rewrite !(span_eq ws w) by (assumption || exact Hc). cbn [snd].
  assert (B : tokf (c :: a) = None -> ~ begins_token (c :: a)) by (intros E H; apply tokf_begins in H; congruence).
  cbn [tokf] in *. destruct (c =? 10); [auto|].
  destruct (c =? 59); [destruct (snd (span not_eol a)), (snd (span not_eol b)); auto|]. destruct (c =? 61); [auto|]. destruct (c =? 91); [auto|]. destruct (c =? 93); [auto|].
  destruct (is_alpha c); [destruct (span id_char (c :: a)), (span id_char (c :: b)); auto|]. destruct (is_digit c); [destruct (span is_digit (c :: a)), (span is_digit (c :: b)); auto|].
  destruct (c =? 34); [|auto]. destruct (quotef 0 a) as [[v l']|]; [|auto]. destruct (quotef 0 b) as [[v2 l2]|]; auto.
Qed.

Definition extra (ex : list item) (used : list N) : Prop := ex = [] \/ exists n v, ex = [IAssign n v] /\ line (IAssign n v) used.
Lemma bad_here l : bad (stmtf l) -> ~ line_here l.
Proof. intros (e & r & x & H) Hl. apply stmtf_here with (e := e) (rest := r) (ex := x) in Hl. contradiction. Qed.
Lemma stmtf_offends l e rest ex : stmtf l = SBad e rest ex ->
  exists u, l = u ++ rest /\ offends e (u ++ fst (span ws rest)) (snd (span ws rest)) /\ extra (match ex with None => [] | Some (n, v) => [IAssign n v] end) (u ++ fst (span ws rest)).
Proof.
  intro H. pose proof (stmtf_errno _ _ _ _ H) as Hee. destruct (stmtf_bad _ _ _ _ H) as (u & K & Cx). exists u. split; [exact (cx_app _ _ _ _ _ _ Cx)|].
  pose proof (span_app ws rest) as Ha. assert (Hw : Forall space (fst (span ws rest))) by (apply (forall_iff _ _ _ ws_space); apply span_all). pose proof (span_stop ws rest) as Hst.
  assert (Lt : lexf rest = tokf (snd (span ws rest))) by reflexivity.
  destruct (span ws rest) as [w r]. cbn [fst snd] in *. destruct Cx as [C1 C2 C3 C4 C5 C6 C7]. unfold offends.
  assert (Hnb : e = EBADMSG /\ ~ begins_token r \/ e = EPROTO /\ begins_token r).
  { rewrite Lt in C5. destruct Hee as [-> | ->]; [left|right].
    - split; [reflexivity|]. rewrite tokf_begins. tauto.
    - split; [reflexivity|]. rewrite tokf_begins. intro E. apply C5 in E. discriminate. }
  split; [|destruct ex as [[n v]|]; [right|left; reflexivity]; exists n, v; split; [reflexivity|]; apply C7; [reflexivity|exact Hw]].
  split; [rewrite <- app_assoc, <- Ha, <- C1; apply bad_here; rewrite H; isbad|].
  split; [destruct r as [|x r]; [exact I|]; intro Hx; apply ws_space in Hx; rewrite (Hst _ _ eq_refl) in Hx; discriminate|].
  split; [destruct C6 as (more & C6); exists more; rewrite <- app_assoc; apply C6; exact Hw|].
  split.
  { intros x r' ->. specialize (Hst _ _ eq_refl). destruct Hnb as [[-> Hnb]|[-> Hnb]]; [right; exact Hnb|left]. intro more. rewrite <- app_assoc. apply bad_here. apply C2.
    - rewrite Ha. destruct w as [|y w]; cbn [List.app]; [exists x, r', more; auto|exists y, (w ++ x :: r'), (w ++ x :: more); auto].
    - rewrite Ha in C4. destruct (kind_head w x r' more Hw Hst) as [E|[E|E]]; [rewrite E; exact C4|rewrite E; exact C3|contradiction]. }
  exact Hnb.
Qed.

(** There is one way to read a text. *)
Lemma file_stmtf is t : file is t -> match is with [] => stmtf t = SDone | i :: is => exists t', stmtf t = SLine i t' /\ file is t' end.
Proof.
  intros (a & b & -> & Hl & He). destruct Hl as [|i t l ts Hi Hl].
  - cbn [List.app]. destruct (stmtf_complete INone b [] He) as [_ E]. exact E.
  - exists (ts ++ b). split; [|exists ts, b; auto]. destruct (stmtf_complete i t (ts ++ b) Hi) as [E _]. rewrite <- E. f_equal. flat. reflexivity.
Qed.
Lemma file_rest is' a : lines is' a -> forall is rest, file is (a ++ rest) -> exists is2, is = is' ++ is2 /\ file is2 rest.
Proof.
  induction 1 as [|i t l ts Hi Hl IH]; intros is rest Hf; [exists is; auto|].
  replace ((t ++ [10] ++ ts) ++ rest) with (t ++ 10 :: (ts ++ rest)) in Hf by (flat; reflexivity). destruct (stmtf_complete i t (ts ++ rest) Hi) as [E _].
  apply file_stmtf in Hf. destruct is as [|i0 is]; [congruence|]. destruct Hf as (t' & E' & Hf). rewrite E in E'. injection E' as <- <-. destruct (IH _ _ Hf) as (is2 & -> & H2). exists is2. auto.
Qed.

(** Positions without overflow. *)
Lemma posn_position t : 4 * lenN t + 8 < two32 -> posn t = position t /\ fst (position t) <= 1 + lenN t /\ snd (position t) <= 4 * lenN t.
Proof.
  induction t as [|c t IH] using rev_ind; [intros _; split; [reflexivity|]; change (position []) with (1, 0); cbn [fst snd]; rewrite (@lenN_nil N); lia|]. rewrite lenN_app. change (lenN [c]) with 1. intro H. destruct IH as (E & B1 & B2); [lia|].
  unfold posn, position in *. rewrite !fold_left_app. cbn [fold_left]. rewrite E. destruct (fold_left step_position t (1, 0)) as [l k]. cbn [fst snd step_position] in *.
  unfold two32 in *. unfold add32, mul32, two32, TAB_WIDTH in *. destruct (c =? 10); [|destruct (c =? 9)]; cbn [fst snd].
  - rewrite (N.mod_small (l + 1)) by lia. split; [reflexivity|]. lia.
  - rewrite (N.mod_small (k + 4)) by lia. assert (Ed : (k + 4) / 4 = k / 4 + 1) by (replace (k + 4) with (k + 1 * 4) by lia; apply N.div_add; lia). rewrite Ed.
    pose proof (N.mul_div_le k 4 ltac:(lia)). rewrite N.mod_small by lia. split; [reflexivity|]. lia.
  - rewrite (N.mod_small (k + 1)) by lia. split; [reflexivity|]. lia.
Qed.

(** ** The parser *)

Definition fails (mem : N -> bool) : Prop := exists n, mem n = false.
Lemma config_parse_all mem fuel c L0 T : ~ In 0 T -> lenN T <= 2147483648 -> (S (length T) < fuel)%nat -> gives c L0 ->
  exists c' row col r, config_parse mem fuel c T = (c', row, col, r) /\
  ((r = Ok tt /\ exists is, file is T /\ gives c' (L0 ++ assignments [] is)) \/
   (r = UB OobRead /\ exists is a b i, T = a ++ b /\ lines is a /\ line i b /\ i <> INone) \/
   (exists e is a used rest ex, r = Err e /\ T = a ++ used ++ rest /\ lines is a /\ offends e used rest /\ extra ex used /\
      (row, col) = start_of (a ++ used) /\ gives c' (L0 ++ assignments [] (is ++ ex))) \/
   (r = Err ENOMEM /\ fails mem)).
Proof.
  intros HT HL Hf Hg. unfold config_parse. destruct (mem 0) eqn:M0; cbn [negb].
  2:{ do 4 eexists. split; [reflexivity|]. right. right. right. split; [reflexivity|]. exists 0. exact M0. }
  destruct (mem 1) eqn:M1; cbn [negb].
  2:{ do 4 eexists. split; [reflexivity|]. right. right. right. split; [reflexivity|]. exists 1. exact M1. }
  destruct (loop_spec T mem HT HL L0 fuel Hf fuel (mkpst 0 1 0 1 0 0 0 [] TNone None ([], INIT_STR_LEN) c 2) [] T []) as (p' & r & E & R).
  - split; [reflexivity|]. split; reflexivity.
  - reflexivity.
  - split; cbn [p_section fst snd]; unfold INIT_STR_LEN; [lia|rewrite (@lenN_nil N); lia].
  - lia.
  - constructor.
  - reflexivity.
  - cbn [assignments p_config]. rewrite app_nil_r. exact Hg.
  - rewrite E. destruct R as [(-> & R)|[(-> & R)|[(e & is & a & u & rest & ex & -> & He & HTe & Hl & Hs & Hp & Hc)|(-> & R)]]].
    + do 4 eexists. split; [reflexivity|]. left. auto.
    + do 4 eexists. split; [reflexivity|]. right. left. auto.
    + do 4 eexists. split; [reflexivity|]. right. right. left. destruct (stmtf_offends _ _ _ _ Hs) as (u' & Hu & Ho & Hx). apply app_inv_tail in Hu as <-.
      exists e, is, a, (u ++ fst (span ws rest)), (snd (span ws rest)), (match ex with None => [] | Some (n, v) => [IAssign n v] end).
      split; [reflexivity|]. split; [rewrite HTe, (span_app ws rest) at 1; flat; reflexivity|]. split; [exact Hl|]. split; [exact Ho|]. split; [exact Hx|]. split; [exact Hp|].
      rewrite assignments_app. destruct ex as [[n v]|]; cbn [assignments]; exact Hc.
    + do 4 eexists. split; [reflexivity|]. right. right. right. split; [reflexivity|exact R].
Qed.

(** ** Histories *)

Lemma gives_exists c : exists l, gives c l.
Proof.
  set (keys := flat_map (fun sec : section => map (fun e : entry => (fst sec, fst e)) (snd sec)) c).
  exists (flat_map (fun k => match config_get c (fst k) (snd k) with Some v => [(fst k, snd k, v)] | None => [] end) keys). intros s n.
  assert (A : forall ks, assigned (flat_map (fun k => match config_get c (fst k) (snd k) with Some v => [(fst k, snd k, v)] | None => [] end) ks) s n = if in_dec (list_eq_dec N.eq_dec) n (map snd (filter (fun k => if list_eq_dec N.eq_dec (fst k) s then true else false) ks)) then config_get c s n else None).
  { induction ks as [|[a b] ks IH]; [reflexivity|]. cbn [flat_map fst snd filter]. destruct (list_eq_dec N.eq_dec a s) as [->|Hd].
    - cbn [map snd]. destruct (config_get c s b) as [v|] eqn:E; cbn [List.app assigned]; rewrite IH.
      + destruct (list_eq_dec N.eq_dec s s) as [_|]; [|congruence]. destruct (list_eq_dec N.eq_dec b n) as [->|Hb].
        * rewrite E. destruct (in_dec _ n (map snd _)); (destruct (in_dec _ n (n :: _)) as [|X]; [reflexivity|exfalso; apply X; left; reflexivity]).
        * destruct (in_dec _ n (map snd _)) as [I|I], (in_dec _ n (b :: _)) as [I'|I']; try reflexivity; [destruct (config_get c s n); reflexivity|exfalso; apply I'; right; exact I|destruct I' as [I'|I']; contradiction].
      + destruct (in_dec _ n (map snd _)) as [I|I], (in_dec _ n (b :: _)) as [I'|I']; try reflexivity; [exfalso; apply I'; right; exact I|destruct I' as [I'|I']; [congruence|contradiction]].
    - destruct (config_get c a b) as [v|]; cbn [List.app assigned]; rewrite IH; [|reflexivity]. destruct (list_eq_dec N.eq_dec a s); [contradiction|]. destruct (if in_dec _ _ _ then _ else _); reflexivity. }
  rewrite A. destruct (in_dec _ n _) as [I|I]; [reflexivity|]. destruct (config_get c s n) as [v|] eqn:E; [|reflexivity]. exfalso. apply I. apply in_map_iff. exists (s, n). split; [reflexivity|].
  apply filter_In. split; [|cbn [fst]; destruct (list_eq_dec N.eq_dec s s); congruence]. clear - E. unfold config_get in E.
  assert (Fs : forall c0 x es, find_section c0 s = Some (x, es) -> In (s, es) c0).
  { induction c0 as [|[y ys] c0 IH]; cbn [find_section fst]; [discriminate|]. intros x es. destruct (str_eq y s) eqn:Ey; [apply str_eq_spec in Ey as ->; intro H; injection H as <- <-; left; reflexivity|]. intro H. right. exact (IH _ _ H). }
  destruct (find_section c s) as [[x es]|] eqn:Ex; [|discriminate]. apply Fs in Ex. apply in_flat_map. exists (s, es). split; [exact Ex|]. cbn [fst snd].
  assert (Fe : forall l y w, find_entry l n = Some (y, w) -> In n (map fst l)).
  { induction l as [|[z w0] l IH]; cbn [find_entry fst map]; [discriminate|]. intros y w. destruct (str_eq z n) eqn:Ez; [apply str_eq_spec in Ez as ->; intros _; left; reflexivity|]. intro H. right. exact (IH _ _ H). }
  destruct (find_entry es n) as [[y w]|] eqn:Ey; [|discriminate]. apply Fe in Ey. apply in_map_iff in Ey as ([z w0] & <- & Hz). apply in_map_iff. exists (z, w0). auto.
Qed.
Lemma assigned_app a : forall b s n, assigned (a ++ b) s n = match assigned b s n with Some v => Some v | None => assigned a s n end.
Proof.
  induction a as [|[[s0 n0] v0] a IH]; intros b s n; cbn [List.app assigned]; [destruct (assigned b s n); reflexivity|]. rewrite IH. destruct (assigned b s n); reflexivity.
Qed.
Lemma gives_after c l c' l' : gives c l -> gives c' (l ++ l') -> forall s n, config_get c' s n = value_after c l' s n.
Proof. intros H H' s n. rewrite H', assigned_app. unfold value_after. rewrite H. reflexivity. Qed.

Lemma run_sets_spec calls : forall c c' rs s n, run_sets c calls = (c', rs) ->
  (forall m1 m2 v r, In (m1, m2, (s, n, v), r) (combine calls rs) -> r = Ok tt) ->
  config_get c' s n = value_after c (successful calls rs) s n.
Proof.
  induction calls as [|[[m1 m2] [[s0 n0] v0]] calls IH]; intros c c' rs s n; cbn [run_sets].
  - intro H; injection H as <- <-. reflexivity.
  - destruct (config_set m1 m2 c s0 n0 v0) as [c1 r1] eqn:E1. destruct (run_sets c1 calls) as [c2 rs2] eqn:E2. intro H; injection H as <- <-. cbn [combine]. intro Hok.
    rewrite (IH _ _ _ _ _ E2) by (intros; eapply Hok; right; eassumption). destruct (set_get _ _ _ _ _ _ _ _ E1) as [G1 G2]. unfold value_after.
    destruct (list_eq_dec N.eq_dec s0 s) as [->|Hs]; [destruct (list_eq_dec N.eq_dec n0 n) as [->|Hn]|].
    + specialize (Hok m1 m2 v0 r1 (or_introl eq_refl)). subst r1. cbn [successful assigned]. destruct (assigned (successful calls rs2) s n); [reflexivity|].
      destruct (list_eq_dec N.eq_dec s s); [|congruence]. destruct (list_eq_dec N.eq_dec n n); [|congruence]. exact G2.
    + rewrite G1 by congruence. destruct r1; cbn [successful assigned]; try reflexivity. destruct (assigned (successful calls rs2) s n); [reflexivity|].
      destruct (list_eq_dec N.eq_dec s s); [|reflexivity]. destruct (list_eq_dec N.eq_dec n0 n); [contradiction|reflexivity].
    + rewrite G1 by congruence. destruct r1; cbn [successful assigned]; try reflexivity. destruct (assigned (successful calls rs2) s n); [reflexivity|].
      destruct (list_eq_dec N.eq_dec s0 s); [contradiction|reflexivity].
Qed.

(** ** One reading *)

Definition final (b : list N) : Prop := forall i t, stmtf b <> SLine i t.
Lemma lines_unique is1 a1 : lines is1 a1 -> forall is2 a2 b1 b2, lines is2 a2 -> a1 ++ b1 = a2 ++ b2 -> final b1 -> final b2 -> is1 = is2 /\ b1 = b2.
Proof.
  induction 1 as [|i t l ts Hi Hl IH]; intros is2 a2 b1 b2 H2 E F1 F2; inversion H2 as [E1 E2|i2 t2 l2 ts2 Hi2 Hl2 E1 E2]; subst.
  - cbn [List.app] in E. auto.
  - exfalso. destruct (stmtf_complete i2 t2 (ts2 ++ b2) Hi2) as [S _]. apply (F1 i2 (ts2 ++ b2)). cbn [List.app] in E. rewrite E, <- S. f_equal. flat. reflexivity.
  - exfalso. destruct (stmtf_complete i t (ts ++ b1) Hi) as [S _]. apply (F2 i (ts ++ b1)). cbn [List.app] in E. rewrite <- E, <- S. f_equal. flat. reflexivity.
  - destruct (stmtf_complete i t (ts ++ b1) Hi) as [S _]. destruct (stmtf_complete i2 t2 (ts2 ++ b2) Hi2) as [S2 _].
    assert (X : t ++ 10 :: (ts ++ b1) = t2 ++ 10 :: (ts2 ++ b2)) by (revert E; flat; exact (fun H => H)). rewrite X, S2 in S. injection S as <- E'.
    destruct (IH l2 ts2 b1 b2 Hl2 (eq_sym E') F1 F2) as [-> ->]. auto.
Qed.
Lemma final_end b : line_end b -> final b.
Proof. intros H i t. destruct (stmtf_complete INone b [] H) as [_ E]. congruence. Qed.
Lemma final_last b i : line i b -> final b.
Proof. intros H i' t. destruct (stmtf_complete i b [] H) as [_ E]. rewrite E. destruct i; discriminate. Qed.
Lemma final_bad b : ~ line_here b -> final b.
Proof. intros H i t E. apply H. apply stmtf_here. congruence. Qed.

(** No line ends with a newline. *)
Lemma end_last e t : line_end e -> e <> t ++ [10].
Proof.
  intros H ->. destruct H as [H|(w & c & E & _ & Hc)].
  - rewrite Forall_app in H. destruct H as [_ H]. apply Forall_inv in H. unfold space in H. lia.
  - destruct c as [|x c] using rev_ind; [apply app_inj_tail in E as [_ E]; discriminate|]. rewrite !app_assoc in E. apply app_inj_tail in E as [_ <-]. apply Hc. apply in_or_app. right. left. reflexivity.
Qed.
Lemma last_10 a e t : line_end e -> (forall t', a <> t' ++ [10]) -> a ++ e <> t ++ [10].
Proof.
  intros He Ha E. destruct e as [|x e] using rev_ind; [rewrite app_nil_r in E; exact (Ha _ E)|]. rewrite app_assoc in E. apply app_inj_tail in E as [_ ->]. exact (end_last _ e He eq_refl).
Qed.
Lemma snoc_10 a x : x <> 10 -> forall t' : list N, a ++ [x] <> t' ++ [10].
Proof. intros H t' E. apply app_inj_tail in E as [_ E]. contradiction. Qed.
Lemma all_10 (P : N -> Prop) a v : Forall P v -> v <> [] -> ~ P 10 -> forall t' : list N, a ++ v <> t' ++ [10].
Proof.
  intros Hv Hn HP t' E. destruct v as [|x v] using rev_ind; [congruence|]. rewrite app_assoc in E. apply app_inj_tail in E as [_ ->]. rewrite Forall_app in Hv. destruct Hv as [_ Hv]. apply Forall_inv in Hv. contradiction.
Qed.
Lemma line_last i b t : line i b -> b <> t ++ [10].
Proof.
  destruct i as [|s|n v]; cbn [line].
  - apply end_last.
  - intros (w1 & w2 & w3 & e & -> & _ & _ & _ & _ & He). rewrite !app_assoc. apply last_10; [exact He|]. apply snoc_10. discriminate.
  - intros (w1 & w2 & w3 & vt & e & -> & _ & _ & _ & _ & Hv & He). rewrite !app_assoc. apply last_10; [exact He|].
    destruct Hv as [(Hv & ->)|[([Hn Hv] & ->)|(Hv & ->)]].
    + destruct Hv as (c & s & -> & Hc & Hs). apply (all_10 (fun c => letter c \/ digit c \/ c = 95)); [constructor; auto|discriminate|unfold letter, digit; lia].
    + apply (all_10 digit); [exact Hv|exact Hn|unfold digit; lia].
    + rewrite !app_assoc. apply snoc_10. discriminate.
Qed.

(** ** All of it *)

Definition enough (fuel : nat) (t : list N) : Prop := (S (length t) < fuel)%nat.
Lemma parse_cases mem fuel c T c' row col r : ~ In 0 T -> lenN T <= 2147483648 -> enough fuel T -> config_parse mem fuel c T = (c', row, col, r) ->
  (r = Ok tt /\ exists is, file is T /\ forall s n, config_get c' s n = value_after c (assignments [] is) s n) \/
  (r = UB OobRead /\ unterminated T) \/
  (exists e is a used rest ex, r = Err e /\ (e = EBADMSG \/ e = EPROTO) /\ T = a ++ used ++ rest /\ lines is a /\ offends e used rest /\ extra ex used /\
      (row, col) = start_of (a ++ used) /\ forall s n, config_get c' s n = value_after c (assignments [] (is ++ ex)) s n) \/
  (r = Err ENOMEM /\ exists n, mem n = false).
Proof.
  intros HT HL Hf E. destruct (gives_exists c) as (L0 & HG). destruct (config_parse_all mem fuel c L0 T HT HL Hf HG) as (c1 & row1 & col1 & r1 & E1 & R). rewrite E in E1. injection E1 as <- <- <- <-.
  destruct R as [(-> & is & R1 & R2)|[R|[(e & is & a & u & rest & ex & -> & R1 & R2 & R3 & R4 & R5 & R6)|R]]]; [left|right; left; exact R|right; right; left|right; right; right; exact R].
  - split; [reflexivity|]. exists is. split; [exact R1|]. exact (gives_after _ _ _ _ HG R2).
  - exists e, is, a, u, rest, ex. split; [reflexivity|]. split; [destruct R3 as (_ & _ & _ & _ & [[-> _]|[-> _]]); auto|]. split; [exact R1|]. split; [exact R2|]. split; [exact R3|]. split; [exact R4|]. split; [exact R5|].
    exact (gives_after _ _ _ _ HG R6).
Qed.
Lemma file_not_last is T : file is T -> ~ unterminated T.
Proof.
  intros (a & b & -> & Hl & He) (is2 & a2 & b2 & i & E & Hl2 & Hi & Hn).
  destruct (lines_unique _ _ Hl _ _ _ _ Hl2 E (final_end _ He) (final_last _ _ Hi)) as [_ ->].
  destruct (stmtf_complete INone b2 [] He) as [_ E1]. destruct (stmtf_complete i b2 [] Hi) as [_ E2]. rewrite E1 in E2. destruct i; congruence.
Qed.
Lemma file_unique is1 is2 T : file is1 T -> file is2 T -> is1 = is2.
Proof. intros (a & b & -> & Hl & He) (a2 & b2 & E & Hl2 & He2). exact (proj1 (lines_unique _ _ Hl _ _ _ _ Hl2 E (final_end _ He) (final_end _ He2))). Qed.
Lemma not_bad is a b T : T = a ++ b -> lines is a -> ~ line_here b -> (forall is, ~ file is T) /\ ~ unterminated T.
Proof.
  intros -> Hl Hb. split.
  - intros is2 (a2 & b2 & E & Hl2 & He). destruct (lines_unique _ _ Hl _ _ _ _ Hl2 E (final_bad _ Hb) (final_end _ He)) as [_ ->]. apply Hb. right. exists INone. exact He.
  - intros (is2 & a2 & b2 & i & E & Hl2 & Hi & _). destruct (lines_unique _ _ Hl _ _ _ _ Hl2 E (final_bad _ Hb) (final_last _ _ Hi)) as [_ ->]. apply Hb. right. exists i. exact Hi.
Qed.

Lemma cstr_text f t : text_of f t -> cstr (f ++ [0]) = Ok t.
Proof.
  intros (H0 & Hf). assert (G : forall m, cstr (t ++ 0 :: m) = Ok t).
  { intro m. clear Hf. induction t as [|c t IH]; cbn [List.app cstr]; [reflexivity|]. destruct (N.eqb_spec c 0) as [->|]; [exfalso; apply H0; left; reflexivity|].
    rewrite IH by (intro; apply H0; right; assumption). reflexivity. }
  destruct Hf as [->|(more & ->)]; [apply G|]. rewrite <- app_assoc. cbn [List.app]. apply G.
Qed.
From Coq Require Import String.
Lemma level_level v : (if str_eq v w_error then Ok LogError else if str_eq v w_warning then Ok LogWarn else if str_eq v w_notice then Ok LogNotice else if str_eq v w_info then Ok LogInfo else
  if str_eq v w_debug then Ok LogDebug else Err EOTHER) = match level_of v with Some l => Ok l | None => Err EOTHER end.
Proof. unfold level_of, str_eq. repeat match goal with |- context [list_eq_dec N.eq_dec v ?x] => change x with w_error || change x with w_warning || change x with w_notice || change x with w_info || change x with w_debug; destruct (list_eq_dec N.eq_dec v _); [reflexivity|] end. reflexivity. Qed.

Lemma param_all mem fuel pm f t is : text_of f t -> lenN t <= 2147483648 -> enough fuel t -> file is t -> (forall n, mem n = true) -> (forall n, pm n = true) ->
  param_create mem fuel pm (Some f) = match parameters is with Some p => Ok p | None => Err EOTHER end.
Proof.
  intros Ht HL Hf Hfile Hm Hpm. unfold param_create. rewrite (cstr_text _ _ Ht). cbn [bind]. unfold param_parse. destruct (config_parse mem fuel [] t) as [[[c row] col] r] eqn:E.
  destruct (parse_cases _ _ _ _ _ _ _ _ (proj1 Ht) HL Hf E) as [(-> & is2 & R1 & R2)|[(-> & R)|[(e & is2 & a & u & rest & ex & -> & _ & R1 & R2 & R3 & _)|(_ & n & R)]]].
  - rewrite (file_unique _ _ _ R1 Hfile) in R2. clear R1 is2. unfold param_key_val. rewrite !Hpm. cbn [bind]. unfold param_log_level.
    assert (G : forall s n def, match config_get c s n with None => def | Some v => v end = match assigned (assignments [] is) s n with Some v => v | None => def end).
    { intros s n def. rewrite R2. unfold value_after. destruct (assigned (assignments [] is) s n); reflexivity. }
    rewrite !G, level_level. unfold parameters. change (chars ""%string) with (@nil N). change (chars "log_level"%string) with w_log_level. change (chars "info"%string) with DEF_MAX_LOG_LEVEL.
    destruct (level_of _); reflexivity.
  - exfalso. exact (file_not_last _ _ Hfile R).
  - exfalso. exact (proj1 (not_bad _ _ _ _ R1 R2 (proj1 R3)) _ Hfile).
  - rewrite Hm in R. discriminate.
Qed.
Lemma param_only mem fuel pm f t p : text_of f t -> lenN t <= 2147483648 -> enough fuel t -> param_create mem fuel pm (Some f) = Ok p ->
  exists is, file is t /\ parameters is = Some p.
Proof.
  intros Ht HL Hf. unfold param_create. rewrite (cstr_text _ _ Ht). cbn [bind]. unfold param_parse. destruct (config_parse mem fuel [] t) as [[[c row] col] r] eqn:E. intro Ep.
  destruct (parse_cases _ _ _ _ _ _ _ _ (proj1 Ht) HL Hf E) as [(-> & is & R1 & R2)|[(-> & R)|[(e & is2 & a & u & rest & ex & -> & _)|(-> & _)]]]; try discriminate.
  exists is. split; [exact R1|]. unfold param_key_val in Ep. unfold param_log_level in Ep.
  assert (G : forall s n def, match config_get c s n with None => def | Some v => v end = match assigned (assignments [] is) s n with Some v => v | None => def end).
  { intros s n def. rewrite R2. unfold value_after. destruct (assigned (assignments [] is) s n); reflexivity. }
  rewrite !G, level_level in Ep. unfold parameters. change (chars ""%string) with (@nil N). change (chars "log_level"%string) with w_log_level. change (chars "info"%string) with DEF_MAX_LOG_LEVEL.
  destruct (level_of _); [|destruct (pm 0); discriminate]. destruct (pm 0); [|discriminate]. destruct (pm 1); [|discriminate]. destruct (pm 2); [|discriminate]. destruct (pm 3); [|discriminate].
  destruct (pm 4); [|discriminate]. destruct (pm 5); [|discriminate]. destruct (pm 6); [|discriminate]. cbn [bind] in Ep. injection Ep as <-. reflexivity.
Qed.
