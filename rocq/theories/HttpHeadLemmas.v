(** Lemmas about the heads of HTTP messages, and incomplete messages. *)
From Verif Require Import Base BaseLemmas BufModel BufLemmas UriModel UriSpec UriLemmas HttpModel HttpSpec HttpLemmas HttpSafeLemmas HttpChunkLemmas.

(** ** Incomplete messages *)

Lemma split_at {A} (p q a b : list A) : p ++ q = a ++ b ->
  (exists r, a = p ++ r /\ r <> [] /\ q = r ++ b) \/ (exists p', p = a ++ p' /\ b = p' ++ q).
Proof.
  revert a. induction p as [|x p IH]; intros a H; cbn [List.app] in H.
  - destruct a as [|y a]; [right; exists []; auto|]. left. exists (y :: a). split; [reflexivity|]. split; [discriminate|exact H].
  - destruct a as [|y a]; cbn [List.app] in H; [right; exists (x :: p); auto|]. injection H as -> H.
    destruct (IH a H) as [(r & -> & H1 & H2)|(p' & -> & H1)]; [left; exists r; auto|right; exists p'; auto].
Qed.

Lemma find_none p r : ~ In 0 p -> ~ In 13 p -> find_crlf (p ++ 0 :: r) = Ok None.
Proof.
  induction p as [|c p IH]; intros H0 H1; [reflexivity|]. cbn [List.app find_crlf].
  destruct (N.eqb_spec c 0) as [->|]; [exfalso; apply H0; left; reflexivity|].
  rewrite IH by (intro; (apply H0 + apply H1); right; assumption).
  destruct (N.eqb_spec c CR) as [->|]; [exfalso; apply H1; left; reflexivity|]. cbn [andb bind]. destruct p; reflexivity.
Qed.
Lemma find_none13 p r : ~ In 0 p -> ~ In 13 p -> find_crlf (p ++ 13 :: 0 :: r) = Ok None.
Proof.
  induction p as [|c p IH]; intros H0 H1; [reflexivity|]. cbn [List.app find_crlf].
  destruct (N.eqb_spec c 0) as [->|]; [exfalso; apply H0; left; reflexivity|].
  rewrite IH by (intro; (apply H0 + apply H1); right; assumption).
  destruct (N.eqb_spec c CR) as [->|]; [exfalso; apply H1; left; reflexivity|]. cbn [andb bind]. destruct p; reflexivity.
Qed.
(** Part of a line. *)
Lemma find_part line p r : ~ In 0 line -> ~ In 13 line -> line ++ crlf = p ++ r -> r <> [] -> find_crlf (p ++ [0]) = Ok None.
Proof.
  intros H0 H1 E Hr. symmetry in E. apply split_at in E. destruct E as [(x & -> & Hx & _)|(x & -> & E)].
  - apply find_none; intro; (apply H0 + apply H1); apply in_or_app; left; assumption.
  - destruct x as [|c [|d x]].
    + rewrite app_nil_r. apply find_none; assumption.
    + unfold crlf in E. injection E as <- <-. rewrite <- app_assoc. apply find_none13; assumption.
    + unfold crlf in E. injection E as _ _ E. destruct x; [cbn in E; congruence|discriminate].
Qed.

Lemma start_part a b c p r : (forall x, In x a \/ In x b \/ In x c -> x <> 0 /\ x <> 13) ->
  a ++ [32] ++ b ++ [32] ++ c ++ crlf = p ++ r -> r <> [] -> http_parse_start (p ++ [0]) = Err EAGAIN.
Proof.
  intros Hx E Hr. unfold http_parse_start. rewrite (find_part (a ++ [32] ++ b ++ [32] ++ c) p r); [reflexivity| | | |exact Hr].
  - intro H. rewrite !in_app_iff in H. assert (In 0 a \/ In 0 b \/ In 0 c) as X by (destruct H as [H|[[H|[]]|[H|[[H|[]]|H]]]]; auto; discriminate). destruct (Hx 0 X); congruence.
  - intro H. rewrite !in_app_iff in H. assert (In 13 a \/ In 13 b \/ In 13 c) as X by (destruct H as [H|[[H|[]]|[H|[[H|[]]|H]]]]; auto; discriminate). destruct (Hx 13 X); congruence.
  - rewrite <- E, <- !app_assoc. reflexivity.
Qed.

Lemma headers_part hs : Forall header_ok hs -> forall fuel p r, headers_text hs ++ crlf = p ++ r -> r <> [] -> (length p < fuel)%nat ->
  http_parse_headers fuel (p ++ [0]) = Err EAGAIN.
Proof.
  intro H. induction H as [|h hs Hh Hhs IH]; intros fuel p r E Hr Hf; (destruct fuel as [|fuel]; [lia|]); cbn [http_parse_headers http_header_line].
  - rewrite (find_part [] p r (fun H => H) (fun H => H) E Hr). reflexivity.
  - destruct h as [name value]. destruct Hh as (H1 & H2 & H3). cbn [fst snd] in *.
    change (headers_text ((name, value) :: hs)) with (header_text (name, value) ++ headers_text hs) in E. unfold header_text in E. cbn [fst snd] in E.
    destruct (words_no13 _ H1) as [N1 N2]. destruct (words_no13 _ H3) as [N3 N4].
    assert (L0 : ~ In 0 (name ++ [58; 32] ++ value)) by (rewrite !in_app_not; split; [exact N2|]; split; [intros [X|[X|[]]]; discriminate|exact N4]).
    assert (L13 : ~ In 13 (name ++ [58; 32] ++ value)) by (rewrite !in_app_not; split; [exact N1|]; split; [intros [X|[X|[]]]; discriminate|exact N3]).
    assert (E' : p ++ r = ((name ++ [58; 32] ++ value) ++ crlf) ++ headers_text hs ++ crlf) by (rewrite <- E, <- !app_assoc; reflexivity).
    apply split_at in E'. destruct E' as [(x & Ex & Hx & _)|(p' & -> & E')].
    + rewrite (find_part _ p x L0 L13 Ex Hx). reflexivity.
    + assert (Ef : (((name ++ [58; 32] ++ value) ++ crlf) ++ p') ++ [0] = (name ++ [58; 32] ++ value) ++ 13 :: 10 :: (p' ++ [0])) by (rewrite <- !app_assoc; reflexivity).
      rewrite Ef, find_at by assumption. cbn [bind List.app]. destruct (N.eqb_spec (lenN (name ++ 58 :: 32 :: value)) 0) as [X|_].
      { rewrite lenN_app, lenN_cons in X. lia. }
      assert (Eh : exists c t, p' ++ [0] = c :: t /\ (c =? 32) || (c =? 9) = false).
      { destruct p' as [|c t]; [eexists _, _; split; reflexivity|]. exists c, (t ++ [0]). split; [reflexivity|].
        destruct Hhs as [|[n2 v2] hs' (K1 & K2 & _) _]; [cbn in E'; injection E' as <- _; reflexivity|].
        change (headers_text ((n2, v2) :: hs')) with (header_text (n2, v2) ++ headers_text hs') in E'. unfold header_text in E'. cbn [fst snd] in *.
        destruct n2 as [|c' t']; [cbn in E'; injection E' as <- _; reflexivity|].
        cbn [List.app] in E'. injection E' as <- _. destruct (words_head _ c' t' K1 eq_refl) as [W1 W2].
        destruct (N.eqb_spec c' 32); [contradiction|]. destruct (N.eqb_spec c' 9); [contradiction|]. reflexivity. }
      destruct Eh as (c & t & Ec & Eb). rewrite Ec, Eb. cbn [bind]. rewrite <- Ec.
      rewrite cut_at by assumption. rewrite (IH fuel p' r E' Hr); [reflexivity|]. rewrite !app_length in Hf. cbn [length] in Hf. lia.
Qed.

Lemma cstr_all a : ~ In 0 a -> cstr (a ++ [0]) = Ok a.
Proof.
  induction a as [|c a IH]; intro H; cbn [List.app cstr]; [reflexivity|].
  destruct (N.eqb_spec c 0) as [->|]; [exfalso; apply H; left; reflexivity|]. rewrite IH by (intro; apply H; right; assumption). reflexivity.
Qed.

Lemma message_part m fuel p r : message_ok m -> (forall b, hm_body m = Some b -> ~ In 0 b /\ lenN b < 2147483648) ->
  http_text m = p ++ r -> r <> [] -> http_msg_parse fuel p = Err EAGAIN.
Proof.
  intros (Hs & Hh & Hf & Hb) Hn E Hr. unfold http_text in E. symmetry in E. apply split_at in E. destruct E as [(x & Ex & Hx & _)|(p' & -> & E)].
  - unfold http_msg_parse, head_text, start_ok in *. destruct (hm_start m) as [[a b] c].
    destruct Hs as (A1 & A2 & A3 & A4 & A5 & A6).
    assert (E' : p ++ x = (a ++ [32] ++ b ++ [32] ++ c ++ crlf) ++ headers_text (hm_headers m) ++ crlf) by (rewrite <- Ex, <- !app_assoc; reflexivity).
    apply split_at in E'. destruct E' as [(y & Ey & Hy & _)|(p' & -> & E')].
    + rewrite (start_part a b c p y A6 Ey Hy). reflexivity.
    + destruct (start_ok_parse a b c (p' ++ [0]) A1 A2 A3 A4 A5 A6) as (mem1 & E1 & _).
      replace (((a ++ [32] ++ b ++ [32] ++ c ++ crlf) ++ p') ++ [0]) with (a ++ [32] ++ b ++ [32] ++ c ++ crlf ++ p' ++ [0]) by (rewrite <- !app_assoc; reflexivity).
      rewrite E1. cbn [bind]. rewrite (headers_part _ Hh _ p' x E' Hx); [reflexivity|]. rewrite app_length. cbn [length]. lia.
  - destruct (head_parse m fuel p' Hs Hh) as (mem1 & mem2 & L & Ep). rewrite Ep. clear Ep.
    unfold http_parse_body. rewrite <- L. rewrite (app_assoc mem1 mem2), from_app. cbn [bind].
    pose proof (framing_no _ Hf) as Fc. unfold body_of in E. destruct (hm_body m) as [b|] eqn:Eb.
    + destruct Hb as (Hne & hs1 & h & hs2 & Eh & H1 & H2 & H3). destruct (Hn b eq_refl) as [N1 N2]. subst b.
      rewrite cstr_all by (intro; apply N1; apply in_or_app; left; assumption). cbn [bind].
      pose proof (framing_len hs1 h hs2 (lenN (p' ++ r)) H1 H2 N2 H3) as Fl. rewrite <- Eh in Fl.
      destruct (http_framing (hm_headers m)) as [ch l]. cbn [fst snd] in *. subst ch l. cbv iota.
      assert (Lr : 0 < lenN r) by (destruct r; [congruence|rewrite lenN_cons; lia]).
      rewrite lenN_app. destruct (N.eqb_spec (lenN p' + lenN r) 0); [lia|]. cbn [negb].
      destruct (N.ltb_spec (lenN p') (lenN p' + lenN r)); [reflexivity|lia].
    + symmetry in E. apply app_eq_nil in E. destruct E as [_ E]. congruence.
Qed.


(** ** White space *)

Definition rests (ws : list (list N)) : list N := flat_map (fun w => 32 :: w) (filter nonempty ws).
Lemma pieces_some s : exists w ws, pieces s = w :: ws.
Proof. induction s as [|c s (w & ws & E)]; cbn [pieces]; [eauto|]. rewrite E. destruct (blankb c); eauto. Qed.
Lemma squash_pieces s w ws : pieces s = w :: ws -> squash false s = w ++ rests ws /\ squash true s = rests (w :: ws).
Proof.
  revert w ws. induction s as [|c s IH]; intros w ws E; cbn [pieces squash] in *; [injection E as <- <-; auto|].
  change (is_space c) with (blankb c). destruct (pieces_some s) as (v & vs & Ev). rewrite Ev in E. destruct (IH v vs Ev) as [I1 I2].
  destruct (blankb c); injection E as <- <-.
  - rewrite I2. cbn [List.app]. auto.
  - rewrite I1. auto.
Qed.
Lemma trim_spaced s : trim_ws s = spaced s.
Proof.
  unfold trim_ws, spaced. induction s as [|c s IH]; [reflexivity|]. cbn [drop_ws]. change (is_space c) with (blankb c).
  destruct (blankb c) eqn:Eb.
  - rewrite IH. cbn [pieces]. rewrite Eb. reflexivity.
  - destruct (pieces_some (c :: s)) as (w & ws & E). destruct (squash_pieces _ _ _ E) as [-> _]. rewrite E.
    cbn [pieces] in E. rewrite Eb in E. destruct (pieces_some s) as (v & vs & Ev). rewrite Ev in E. injection E as <- <-. reflexivity.
Qed.

(** ** Lines *)

Lemma find_line m a b : find_crlf m = Ok (Some (a, b)) <-> m = a ++ 13 :: 10 :: b /\ line a.
Proof.
  split.
  - intro E. pose proof (find_sound _ _ _ E) as [Em H0]. split; [exact Em|]. split; [exact H0|]. clear Em H0. revert a b E.
    induction m as [|c m IH]; intros a b E x y; [discriminate|]. cbn [find_crlf] in E. destruct (c =? 0); [discriminate|].
    destruct m as [|d m]; [discriminate|]. destruct ((c =? 13) && (d =? 10)) eqn:Ec.
    + injection E as <- <-. destruct x; discriminate.
    + destruct (find_crlf (d :: m)) as [[[a' b']|]| | |] eqn:Ef; cbn [bind] in E; try discriminate. injection E as <- <-.
      intro X. destruct x as [|c' x]; cbn [List.app crlf] in X.
      * injection X as -> X. apply find_sound in Ef. destruct Ef as [Ef _]. rewrite X in Ef. injection Ef as -> _. discriminate.
      * injection X as <- X. apply (IH _ _ eq_refl _ _ X).
  - intros [-> [H0 H1]]. induction a as [|c a IH]; [reflexivity|]. cbn [List.app find_crlf].
    destruct (N.eqb_spec c 0) as [->|]; [exfalso; apply H0; left; reflexivity|].
    rewrite IH. 2:{ intro; apply H0; right; assumption. } 2:{ intros x y ->. apply (H1 (c :: x) y). reflexivity. }
    destruct a as [|d a]; cbn [List.app].
    + change (13 =? 10) with false. rewrite andb_false_r. reflexivity.
    + destruct (N.eqb_spec c 13) as [->|]; [|reflexivity]. destruct (N.eqb_spec d 10) as [->|]; [|reflexivity]. exfalso. apply (H1 [] a). reflexivity.
Qed.

Lemma header_sound fuel : forall pre m l rest, http_header_line fuel pre m = Ok (Some l, rest) ->
  exists l', l = pre ++ l' /\ m = l' ++ crlf ++ rest /\ folded l' /\ (pre = [] -> forall x, l' <> crlf ++ x) /\ forall c t, rest = c :: t -> c <> 32 /\ c <> 9.
Proof.
  induction fuel as [|fuel IH]; intros pre m l rest E; [discriminate|]. cbn [http_header_line] in E.
  destruct (find_crlf m) as [[[a b]|]| | |] eqn:Ef; cbn [bind] in E; try discriminate. apply find_line in Ef. destruct Ef as [-> Hl].
  destruct (N.eqb_spec (lenN (pre ++ a)) 0) as [|Hne]; [discriminate|]. destruct b as [|c b]; [discriminate|].
  destruct ((c =? 32) || (c =? 9)) eqn:Ec.
  - apply IH in E. destruct E as (l' & -> & -> & Hf & _ & Hr). exists (a ++ crlf ++ c :: l').
    split; [rewrite <- !app_assoc; reflexivity|]. split; [rewrite <- !app_assoc; reflexivity|].
    apply orb_true_iff in Ec. rewrite !N.eqb_eq in Ec. split; [apply folded_more; assumption|]. split; [|exact Hr].
    intros -> x X. destruct a as [|y [|z a]]; [apply Hne; reflexivity| |].
    + cbn in X. discriminate.
    + cbn in X. injection X as -> -> _. destruct Hl as [_ Hl]. apply (Hl [] a). reflexivity.
  - injection E as <- <-. exists a. repeat split; auto; try (constructor; exact Hl).
    + intros -> x ->. destruct Hl as [_ Hl]. apply (Hl [] x). reflexivity.
    + injection H as -> ->. intros ->. discriminate.
    + injection H as -> ->. intros ->. discriminate.
Qed.

Lemma header_none fuel m rest : http_header_line fuel [] m = Ok (None, rest) -> m = crlf ++ rest.
Proof.
  destruct fuel as [|fuel]; [discriminate|]. cbn [http_header_line]. intro E.
  destruct (find_crlf m) as [[[a b]|]| | |] eqn:Ef; cbn [bind] in E; try discriminate. apply find_line in Ef. destruct Ef as [-> Hl].
  cbn [List.app] in E. destruct (N.eqb_spec (lenN a) 0) as [X|Hne]; [injection E as <-; destruct a; [reflexivity|rewrite lenN_cons in X; lia]|].
  destruct b as [|c b]; [discriminate|]. destruct ((c =? 32) || (c =? 9)); [|discriminate]. exfalso.
  assert (Q : forall fuel pre m, pre <> [] -> http_header_line fuel pre m <> Ok (None, rest)).
  { clear. intro fuel. induction fuel as [|fuel IH]; intros pre m Hp; [discriminate|]. cbn [http_header_line].
    destruct (find_crlf m) as [[[a b]|]| | |]; cbn [bind]; try discriminate. destruct (N.eqb_spec (lenN (pre ++ a)) 0) as [X|_].
    - destruct pre; [congruence|]. rewrite lenN_app, lenN_cons in X. lia.
    - destruct b as [|c b]; [discriminate|]. destruct ((c =? 32) || (c =? 9)); [|discriminate]. apply IH. destruct pre; [congruence|discriminate]. }
  apply Q in E; [exact E|]. destruct a; discriminate.
Qed.

Lemma header_complete l : folded l -> forall fuel pre rest c t, (length l < fuel)%nat -> pre <> [] \/ (l <> [] /\ forall x, l <> crlf ++ x) -> rest = c :: t -> c <> 32 -> c <> 9 ->
  http_header_line fuel pre (l ++ crlf ++ rest) = Ok (Some (pre ++ l), rest).
Proof.
  intro H. induction H as [a Ha|a c l Ha Hc Hl IH]; intros fuel pre rest d t Hf Hp Hr D1 D2; (destruct fuel as [|fuel]; [lia|]); cbn [http_header_line].
  - rewrite (proj2 (find_line (a ++ crlf ++ rest) a rest)) by (split; [reflexivity|exact Ha]). cbn [bind].
    destruct (N.eqb_spec (lenN (pre ++ a)) 0) as [X|_].
    { exfalso. destruct pre; [|rewrite lenN_app, lenN_cons in X; lia]. destruct Hp as [Hp|[Hp _]]; [congruence|]. destruct a; [congruence|]. cbn [List.app] in X. rewrite lenN_cons in X. lia. }
    subst rest. destruct (N.eqb_spec d 32); [contradiction|]. destruct (N.eqb_spec d 9); [contradiction|]. reflexivity.
  - rewrite (proj2 (find_line ((a ++ crlf ++ c :: l) ++ crlf ++ rest) a (c :: l ++ crlf ++ rest))) by (split; [rewrite <- !app_assoc; reflexivity|exact Ha]). cbn [bind].
    destruct (N.eqb_spec (lenN (pre ++ a)) 0) as [X|_].
    { exfalso. destruct pre; [|rewrite lenN_app, lenN_cons in X; lia]. destruct Hp as [Hp|[_ Hp]]; [congruence|]. destruct a; [apply (Hp (c :: l)); reflexivity|]. cbn [List.app] in X. rewrite lenN_cons in X. lia. }
    replace ((c =? 32) || (c =? 9)) with true by (destruct Hc as [-> | ->]; reflexivity).
    rewrite (IH fuel _ rest d t); [| |left; destruct pre; [destruct a|]; discriminate|exact Hr|exact D1|exact D2].
    + rewrite <- !app_assoc. reflexivity.
    + rewrite !app_length in Hf. cbn [length] in Hf. lia.
Qed.

Lemma cut_first c s a b : str_cut c s = Some (a, b) -> ~ In c a.
Proof.
  revert a b. induction s as [|x s IH]; intros a b E; cbn [str_cut] in E; [discriminate|].
  destruct (N.eqb_spec x c) as [->|Hx]; [injection E as <- <-; auto|].
  destruct (str_cut c s) as [[a' b']|]; [|discriminate]. injection E as <- <-. intros [->|X]; [congruence|]. apply (IH _ _ eq_refl X).
Qed.

Lemma fields_sound fuel : forall m hs mem rest, http_parse_headers fuel m = Ok (hs, mem, rest) ->
  exists f, m = f ++ rest /\ fields f hs /\ lenZ mem = lenZ f.
Proof.
  induction fuel as [|fuel IH]; intros m hs mem rest E; [discriminate|]. cbn [http_parse_headers] in E.
  destruct (http_header_line (S (length m)) [] m) as [[[l|] r]| | |] eqn:El; cbn [bind] in E; try discriminate.
  - apply header_sound in El. destruct El as (l' & -> & -> & Hf & Hn & Hr). cbn [List.app] in E. specialize (Hn eq_refl).
    destruct (str_cut 58 l') as [[name value]|] eqn:Ec; [|discriminate]. pose proof (cut_first _ _ _ _ Ec) as H58. apply cut_sound in Ec. subst l'.
    destruct (http_parse_headers fuel r) as [[[hs' mem'] rest']| | |] eqn:Eh; cbn [bind] in E; try discriminate. injection E as <- <- <-.
    apply IH in Eh. destruct Eh as (f & -> & If & Il). rewrite !trim_spaced.
    exists (name ++ [58] ++ value ++ crlf ++ f). split; [rewrite <- ?app_assoc; reflexivity|]. split.
    + apply fields_more; try assumption.
      * intros x ->. apply (Hn (x ++ 58 :: value)). rewrite <- app_assoc. reflexivity.
      * intros c t' ->. apply (Hr c (t' ++ rest')). reflexivity.
    + unfold lenZ, crlf in *. repeat (rewrite app_length; cbn [length]). rewrite !trim_mem_len. lia.
  - apply header_none in El. subst m. injection E as <- <- <-. exists crlf. repeat split. constructor.
Qed.

Lemma fields_more_one f hs : fields f hs -> exists c t, f = c :: t.
Proof. intro H. destruct H as [|name value t hs H1 H2 H3 H4 H5]; [unfold crlf; eauto|]. destruct name as [|c n]; cbn [List.app]; eauto. Qed.
Lemma fields_long f hs : fields f hs -> (length hs < length f)%nat.
Proof. intro H. induction H; [cbn; lia|]. repeat (rewrite app_length; cbn [length]). lia. Qed.

Lemma fields_complete f hs : fields f hs -> forall fuel rest, (length hs < fuel)%nat ->
  exists mem, http_parse_headers fuel (f ++ rest) = Ok (hs, mem, rest) /\ lenZ mem = lenZ f.
Proof.
  intro H. induction H as [|name value t hs Hf H58 Hn Hh Ht IH]; intros fuel rest Hl; (destruct fuel as [|fuel]; [lia|]); cbn [http_parse_headers].
  - cbn. eexists. split; reflexivity.
  - destruct (fields_more_one _ _ Ht) as (c & t' & Et). destruct (Hh c t' Et) as [C1 C2].
    replace ((name ++ [58] ++ value ++ crlf ++ t) ++ rest) with ((name ++ [58] ++ value) ++ crlf ++ (t ++ rest)) by (rewrite <- !app_assoc; reflexivity).
    rewrite (header_complete _ Hf _ [] (t ++ rest) c (t' ++ rest)); [| | |subst t; reflexivity|exact C1|exact C2].
    + cbn [bind List.app]. rewrite cut_at by exact H58. cbn [length] in Hl. destruct (IH fuel rest) as (mem & Em & Lm); [lia|]. rewrite Em. cbn [bind].
      rewrite !trim_spaced. eexists. split; [reflexivity|]. unfold lenZ, crlf in *. repeat (rewrite app_length; cbn [length]). rewrite !trim_mem_len. lia.
    + rewrite (app_length (name ++ [58] ++ value)). lia.
    + right. split; [destruct name; discriminate|]. intros x X. destruct name as [|a [|b n]]; try discriminate.
      cbn in X. injection X as -> -> X. apply (Hn n). reflexivity.
Qed.

(** ** Heads *)

Lemma start_sound m a b c mem rest : http_parse_start m = Ok (a, b, c, mem, rest) ->
  a <> [] /\ b <> [] /\ c <> [] /\ ~ In 32 a /\ ~ In 32 b /\ line (a ++ [32] ++ b ++ [32] ++ c) /\
  m = (a ++ [32] ++ b ++ [32] ++ c ++ crlf) ++ rest /\ lenZ mem = lenZ (a ++ [32] ++ b ++ [32] ++ c ++ crlf).
Proof.
  unfold http_parse_start. destruct (find_crlf m) as [[[l r]|]| | |] eqn:Ef; cbn [bind]; try discriminate. apply find_line in Ef. destruct Ef as [-> Hl].
  destruct (str_cut 32 l) as [[a' l']|] eqn:E1; [|discriminate]. pose proof (cut_first _ _ _ _ E1) as F1. apply cut_sound in E1.
  destruct (N.eqb_spec (lenN a') 0) as [|A1]; [discriminate|].
  destruct (str_cut 32 l') as [[b' c']|] eqn:E2; [|discriminate]. pose proof (cut_first _ _ _ _ E2) as F2. apply cut_sound in E2.
  destruct (N.eqb_spec (lenN b') 0) as [|A2]; [discriminate|]. destruct (N.eqb_spec (lenN c') 0) as [|A3]; [discriminate|].
  intro E. injection E as <- <- <- <- <-. subst l l'.
  repeat split; try assumption; try (intros ->; apply A1 + apply A2 + apply A3; reflexivity); try apply Hl.
  - rewrite <- !app_assoc. cbn [List.app]. rewrite <- !app_assoc. reflexivity.
  - unfold lenZ, crlf. repeat (rewrite app_length; cbn [length]). lia.
Qed.

Lemma start_complete a b c rest : a <> [] -> b <> [] -> c <> [] -> ~ In 32 a -> ~ In 32 b -> line (a ++ [32] ++ b ++ [32] ++ c) ->
  exists mem, http_parse_start ((a ++ [32] ++ b ++ [32] ++ c ++ crlf) ++ rest) = Ok (a, b, c, mem, rest) /\ lenZ mem = lenZ (a ++ [32] ++ b ++ [32] ++ c ++ crlf).
Proof.
  intros Ha Hb Hc Sa Sb Hl. unfold http_parse_start.
  rewrite (proj2 (find_line _ (a ++ [32] ++ b ++ [32] ++ c) rest)) by (split; [rewrite <- !app_assoc; reflexivity|exact Hl]). cbn [bind].
  change (a ++ [32] ++ b ++ [32] ++ c) with (a ++ 32 :: b ++ 32 :: c).
  rewrite cut_at by assumption. destruct (N.eqb_spec (lenN a) 0) as [X|_]; [destruct a; [congruence|rewrite lenN_cons in X; lia]|].
  rewrite cut_at by assumption. destruct (N.eqb_spec (lenN b) 0) as [X|_]; [destruct b; [congruence|rewrite lenN_cons in X; lia]|].
  destruct (N.eqb_spec (lenN c) 0) as [X|_]; [destruct c; [congruence|rewrite lenN_cons in X; lia]|].
  eexists. split; [reflexivity|]. unfold lenZ, crlf. rewrite !app_length. reflexivity.
Qed.

Lemma head_complete s a b c hs fuel rest : head_of s a b c hs -> exists mem, lenZ mem = lenZ s /\
  http_msg_parse fuel (s ++ rest) =
    (let* (ts, body, num) := http_parse_body fuel hs (mem ++ rest ++ [0]) (lenZ s) in
     Ok (mkhmsg (a, b, c) (hs ++ ts) body, (lenZ s + num)%Z)).
Proof.
  intros (A1 & A2 & A3 & A4 & A5 & A6 & f & -> & Hf). unfold http_msg_parse.
  destruct (start_complete a b c (f ++ rest ++ [0]) A1 A2 A3 A4 A5 A6) as (mem1 & E1 & L1).
  replace (((a ++ [32] ++ b ++ [32] ++ c ++ crlf ++ f) ++ rest) ++ [0]) with ((a ++ [32] ++ b ++ [32] ++ c ++ crlf) ++ f ++ rest ++ [0]) by (rewrite <- !app_assoc; reflexivity).
  rewrite E1. cbn [bind]. pose proof (fields_long _ _ Hf) as Hl.
  destruct (fields_complete _ _ Hf (S (length (f ++ rest ++ [0]))) (rest ++ [0])) as (mem2 & E2 & L2); [rewrite !app_length; lia|].
  rewrite E2. cbn [bind]. exists (mem1 ++ mem2).
  assert (L : lenZ (mem1 ++ mem2) = lenZ (a ++ [32] ++ b ++ [32] ++ c ++ crlf ++ f)).
  { unfold lenZ in *. rewrite !app_length in *. cbn [length] in *. lia. }
  split; [exact L|]. rewrite L, app_assoc. reflexivity.
Qed.

Lemma accepted fuel buf m n : http_msg_parse fuel buf = Ok (m, n) ->
  exists s a b c hs ts rest, buf = s ++ rest /\ head_of s a b c hs /\ hm_start m = (a, b, c) /\ hm_headers m = hs ++ ts /\
    (not_chunked hs -> ts = [] /\
      match hm_body m with None => n = lenZ s | Some body => body <> [] /\ n = lenZ (s ++ body) /\ exists more, rest = body ++ more end).
Proof.
  unfold http_msg_parse. destruct (http_parse_start (buf ++ [0])) as [[[[[a b] c] mem1] r]| | |] eqn:E1; cbn [bind]; try discriminate.
  apply start_sound in E1. destruct E1 as (A1 & A2 & A3 & A4 & A5 & A6 & E1 & L1).
  destruct (http_parse_headers (S (length r)) r) as [[[hs mem2] rest]| | |] eqn:E2; cbn [bind]; try discriminate.
  apply fields_sound in E2. destruct E2 as (f & -> & Hf & L2).
  set (s := a ++ [32] ++ b ++ [32] ++ c ++ crlf ++ f).
  assert (Hs : head_of s a b c hs) by (repeat split; try assumption; try apply A6; exists f; split; [reflexivity|exact Hf]).
  assert (Es : buf ++ [0] = s ++ rest) by (rewrite E1; unfold s; rewrite <- !app_assoc; reflexivity).
  assert (Er : exists rest', rest = rest' ++ [0] /\ buf = s ++ rest').
  { destruct (list_eq_dec N.eq_dec rest []) as [->|Hne].
    - exfalso. rewrite app_nil_r in Es. assert (Hin : In 0 s) by (rewrite <- Es; apply in_or_app; right; left; reflexivity).
      revert Es. assert (Hlast : exists s', s = s' ++ [10]).
      { unfold s. clear -Hf. assert (F : exists f', f = f' ++ [10]).
        { induction Hf as [|? ? ? ? ? ? ? ? ? (f' & ->)]; [exists [13]; reflexivity|]. eexists. rewrite !app_assoc. reflexivity. }
        destruct F as [f' ->]. eexists. rewrite !app_assoc. reflexivity. }
      destruct Hlast as [s' ->]. intro X. apply app_inj_tail in X. destruct X. discriminate.
    - destruct (exists_last Hne) as (q & x & ->). rewrite app_assoc in Es. apply app_inj_tail in Es. destruct Es as [-> <-]. eauto. }
  destruct Er as (rest' & -> & ->). rewrite app_assoc.
  assert (L : lenZ (mem1 ++ mem2) = lenZ s) by (unfold s; unfold lenZ in *; rewrite !app_length in *; cbn [length] in *; lia).
  destruct (http_parse_body fuel hs ((mem1 ++ mem2) ++ rest' ++ [0]) (lenZ (mem1 ++ mem2))) as [[[ts body] num]| | |] eqn:E3; cbn [bind]; try discriminate.
  intro E. injection E as <- <-. exists s, a, b, c, hs, ts, rest'. split; [reflexivity|]. split; [exact Hs|]. split; [reflexivity|]. split; [reflexivity|].
  intro H. cbn [hm_body]. unfold http_parse_body in E3. rewrite from_app in E3. cbn [bind] in E3.
  destruct (cstr_nul (rest' ++ [0])) as (str & t & Ec & Et & H0); [apply in_or_app; right; left; reflexivity|]. rewrite Ec in E3. cbn [bind] in E3.
  pose proof (framing_no _ H) as Fc. destruct (http_framing hs) as [ch l]. cbn [fst] in Fc. subst ch.
  destruct (l =? 0) eqn:Hl0; cbn [negb] in E3; [injection E3 as <- <- <-; split; [reflexivity|rewrite L; lia]|].
  destruct (lenN str <? l) eqn:Hl; [discriminate|]. apply N.eqb_neq in Hl0. apply N.ltb_ge in Hl. injection E3 as <- <- <-. split; [reflexivity|].
  assert (Hlen : (N.to_nat l <= length rest')%nat).
  { assert (X : length (rest' ++ [0]) = length (str ++ 0 :: t)) by (rewrite Et; reflexivity). rewrite !app_length in X. cbn [length] in X. unfold lenN in Hl. lia. }
  rewrite firstn_app. replace (N.to_nat l - length rest')%nat with 0%nat by lia. cbn [firstn]. rewrite app_nil_r. split; [|split].
  - intro X. apply (f_equal (@length N)) in X. rewrite firstn_length in X. cbn [length] in X. lia.
  - unfold lenZ in *. rewrite (app_length s), firstn_length. lia.
  - exists (skipn (N.to_nat l) rest'). symmetry. apply firstn_skipn.
Qed.

Lemma accepts s a b c hs body fuel rest : head_of s a b c hs -> framed (mkhmsg (a, b, c) hs body) ->
  (forall x, body = Some x -> ~ In 0 x /\ lenN x < 2147483648) ->
  http_msg_parse fuel (s ++ match body with Some x => x | None => [] end ++ rest) =
    Ok (mkhmsg (a, b, c) hs body, lenZ (s ++ match body with Some x => x | None => [] end)).
Proof.
  intros Hs [Hf Hb] Hn. cbn [hm_body hm_headers] in *.
  destruct (head_complete s a b c hs fuel (match body with Some x => x | None => [] end ++ rest) Hs) as (mem & L & E). rewrite E. clear E.
  unfold http_parse_body. rewrite <- L, from_app. cbn [bind]. pose proof (framing_no _ Hf) as Fc. destruct body as [x|].
  - destruct Hb as (Hne & hs1 & h & hs2 & Eh & H1 & H2 & H3). destruct (Hn x eq_refl) as [N1 N2].
    rewrite <- app_assoc. destruct (cstr_prefix x rest N1) as [t Et]. rewrite Et. cbn [bind].
    pose proof (framing_len hs1 h hs2 (lenN x) H1 H2 N2 H3) as Fl. rewrite <- Eh in Fl.
    destruct (http_framing hs) as [ch l]. cbn [fst snd] in *. subst ch l. cbv iota.
    destruct (N.eqb_spec (lenN x) 0) as [X|_]; [destruct x; [congruence|rewrite lenN_cons in X; lia]|]. cbn [negb].
    rewrite lenN_app. destruct (N.ltb_spec (lenN x + lenN t) (lenN x)); [lia|]. cbn [bind].
    rewrite lenN_to_nat, firstn_app, firstn_all, Nat.sub_diag. cbn [firstn]. rewrite !app_nil_r.
    f_equal. f_equal. rewrite L. unfold lenZ. rewrite app_length. unfold lenN. lia.
  - destruct (cstr_prefix [] rest (fun H => H)) as [t Et]. cbn [List.app] in *. rewrite Et. cbn [bind].
    pose proof (framing_keep _ Hb (false, 0)) as Fl. rewrite <- framing_fold in Fl.
    destruct (http_framing hs) as [ch l]. cbn [fst snd] in *. subst ch l. cbv iota. change (0 =? 0) with true. cbn [negb bind].
    rewrite !app_nil_r. f_equal. f_equal. lia.
Qed.

(** ** Incomplete chunks *)

Lemma chunks_part ds t : chunks_text ds t -> forall fuel lim pre p r total, t = p ++ r -> r <> [] -> (length ds < fuel)%nat ->
  (lim <= lenZ pre + lenZ p)%Z -> (0 <= total)%Z -> (total + total_of ds < 2147483647)%Z ->
  http_chunks fuel false lim (pre ++ p ++ [0]) (lenZ pre) total [] = Err EAGAIN.
Proof.
  intro H. induction H as [|d ds h t Hd Hh Ht IH]; intros fuel lim pre p r total E Hr Hf Hl H0 HT; (destruct fuel as [|fuel]; [cbn in Hf; lia|]); cbn [http_chunks]; rewrite from_app; cbn [bind].
  - rewrite (find_part [48] p r); [reflexivity| | |exact E|exact Hr]; cbn; intuition discriminate.
  - destruct (hex_plain _ _ Hh) as (P1 & P2 & P3). rewrite total_cons in *.
    assert (D0 : (0 < lenZ d)%Z) by (destruct d; [congruence|unfold lenZ; cbn [length]; lia]).
    assert (T0 : (0 <= total_of ds)%Z) by (unfold total_of, lenZ; lia).
    assert (E' : p ++ r = (h ++ crlf) ++ d ++ crlf ++ t) by (rewrite <- E, <- !app_assoc; reflexivity).
    apply split_at in E'. destruct E' as [(x & Ex & Hx & _)|(p' & -> & E')]; [rewrite (find_part h p x P1 P2 Ex Hx); reflexivity|].
    replace (((h ++ crlf) ++ p') ++ [0]) with (h ++ 13 :: 10 :: p' ++ [0]) by (rewrite <- !app_assoc; reflexivity).
    rewrite find_at by assumption. cbn [bind]. fold (sized h). rewrite P3.
    assert (Em : firstn (Z.to_nat (lenZ pre)) (pre ++ h ++ 13 :: 10 :: p' ++ [0]) ++ h ++ [13; 10] ++ p' ++ [0] = pre ++ h ++ 13 :: 10 :: p' ++ [0]).
    { replace (firstn (Z.to_nat (lenZ pre)) (pre ++ h ++ 13 :: 10 :: p' ++ [0])) with pre; [reflexivity|].
      unfold lenZ. rewrite Nat2Z.id, firstn_app, firstn_all, Nat.sub_diag. cbn. rewrite app_nil_r. reflexivity. }
    rewrite Em. clear Em. change ([13; 10] ++ p' ++ [0]) with (13 :: 10 :: p' ++ [0]). rewrite (scan_hex_of (lenN d) h) by (try assumption; unfold lenZ, lenN in *; lia).
    assert (Ez : Z.of_N (lenN d) = lenZ d) by (unfold lenN, lenZ; lia). rewrite Ez. destruct (Z.eqb_spec (lenZ d) 0); [lia|].
    unfold INT_MIN, INT_MAX. destruct (Z.ltb_spec (total + lenZ d) (-2147483648)); [lia|]. destruct (Z.ltb_spec 2147483647 (total + lenZ d)); [lia|]. cbn [orb bind].
    destruct (Z.ltb_spec lim (lenZ pre + lenZ h + 2 + lenZ d + 2)) as [|Hd2]; [reflexivity|].
    assert (E2 : p' ++ r = (d ++ crlf) ++ t) by (rewrite <- E', <- !app_assoc; reflexivity).
    apply split_at in E2. destruct E2 as [(x & Ex & Hx & _)|(p'' & -> & E2)].
    { exfalso. assert (length (d ++ crlf) = length (p' ++ x)) as X by (rewrite Ex; reflexivity). rewrite !app_length in X. destruct x; [congruence|]. unfold lenZ, crlf in *. rewrite !app_length in *. cbn [length] in *. lia. }
    set (m := pre ++ h ++ 13 :: 10 :: ((d ++ crlf) ++ p'') ++ [0]).
    assert (E1 : from m (lenZ pre + lenZ h + 2 + lenZ d) = Ok (crlf ++ p'' ++ [0])).
    { replace (lenZ pre + lenZ h + 2 + lenZ d)%Z with (lenZ (pre ++ h ++ 13 :: 10 :: d)) by (unfold lenZ; repeat (rewrite app_length; cbn [length]); lia).
      rewrite <- (from_app (pre ++ h ++ 13 :: 10 :: d)). f_equal. unfold m. rewrite <- !app_assoc. reflexivity. }
    assert (E3 : from m (lenZ pre + lenZ h + 2 + lenZ d + 1) = Ok (10 :: p'' ++ [0])).
    { replace (lenZ pre + lenZ h + 2 + lenZ d + 1)%Z with (lenZ (pre ++ h ++ 13 :: 10 :: d ++ [13])) by (unfold lenZ; repeat (rewrite app_length; cbn [length]); lia).
      rewrite <- (from_app (pre ++ h ++ 13 :: 10 :: d ++ [13])). f_equal. unfold m. rewrite <- !app_assoc. cbn [List.app]. rewrite <- !app_assoc. reflexivity. }
    unfold byte_at. rewrite E1. cbn [bind List.app]. change (crlf ++ p'' ++ [0]) with (13 :: 10 :: p'' ++ [0]). cbn [bind]. change (13 =? 13) with true. cbn [negb]. rewrite E3. cbn [bind]. change (10 =? 10) with true. cbn [negb].
    replace (lenZ pre + lenZ h + 2 + lenZ d + 2)%Z with (lenZ (pre ++ h ++ crlf ++ d ++ crlf)) by (unfold lenZ, crlf; repeat (rewrite app_length; cbn [length]); lia).
    assert (Em : m = (pre ++ h ++ crlf ++ d ++ crlf) ++ p'' ++ [0]) by (unfold m; rewrite <- !app_assoc; reflexivity). rewrite Em.
    apply (IH fuel lim (pre ++ h ++ crlf ++ d ++ crlf) p'' r); [exact E2|exact Hr|cbn [length] in Hf; lia| |lia|lia].
    unfold lenZ, crlf in *. rewrite !app_length in *. cbn [length] in *. lia.
Qed.

Lemma chunked_part m fuel ds t trailers p r : start_ok m -> Forall header_ok (hm_headers m) -> is_chunked (hm_headers m) -> Forall header_ok trailers ->
  chunks_text ds t -> ~ In 0 (concat ds) -> lenN (concat ds) < 2147483647 -> (length ds < fuel)%nat ->
  head_text m ++ t ++ headers_text trailers ++ crlf = p ++ r -> r <> [] -> http_msg_parse fuel p = Err EAGAIN.
Proof.
  intros Hs Hh Hc Htr Ht Hn Hl Hf E Hr. symmetry in E. apply split_at in E. destruct E as [(x & Ex & Hx & _)|(p' & -> & E)].
  - unfold http_msg_parse, head_text, start_ok in *. destruct (hm_start m) as [[a b] c]. destruct Hs as (A1 & A2 & A3 & A4 & A5 & A6).
    assert (E' : p ++ x = (a ++ [32] ++ b ++ [32] ++ c ++ crlf) ++ headers_text (hm_headers m) ++ crlf) by (rewrite <- Ex, <- !app_assoc; reflexivity).
    apply split_at in E'. destruct E' as [(y & Ey & Hy & _)|(p' & -> & E')].
    + rewrite (start_part a b c p y A6 Ey Hy). reflexivity.
    + destruct (start_ok_parse a b c (p' ++ [0]) A1 A2 A3 A4 A5 A6) as (mem1 & E1 & _).
      replace (((a ++ [32] ++ b ++ [32] ++ c ++ crlf) ++ p') ++ [0]) with (a ++ [32] ++ b ++ [32] ++ c ++ crlf ++ p' ++ [0]) by (rewrite <- !app_assoc; reflexivity).
      rewrite E1. cbn [bind]. rewrite (headers_part _ Hh _ p' x E' Hx); [reflexivity|]. rewrite app_length. cbn [length]. lia.
  - destruct (head_parse m fuel p' Hs Hh) as (mem1 & mem2 & L & Ep). rewrite Ep. clear Ep.
    unfold http_parse_body. rewrite <- L. rewrite (app_assoc mem1 mem2), from_app. cbn [bind].
    assert (N0 : ~ In 0 p').
    { intro X. assert (Y : In 0 (p' ++ r)) by (apply in_or_app; left; exact X). rewrite <- E in Y.
      repeat (apply in_app_or in Y; destruct Y as [Y|Y]); [apply (chunks_plain _ _ Ht Hn Y)|apply (headers_plain _ Htr Y)|cbn in Y; intuition discriminate]. }
    rewrite cstr_all by exact N0. cbn [bind]. pose proof (framing_yes _ Hc) as Fc. destruct (http_framing (hm_headers m)) as [ch cl]. cbn [fst] in Fc. subst ch.
    assert (HT : (0 <= total_of ds < 2147483647)%Z) by (unfold total_of, lenZ; unfold lenN in Hl; lia).
    symmetry in E. apply split_at in E. destruct E as [(x & Ex & Hx & _)|(q & -> & E)].
    + rewrite (chunks_part ds t Ht fuel _ (mem1 ++ mem2) p' x 0 Ex Hx Hf); [reflexivity|lia|lia|lia].
    + set (lim := (lenZ (mem1 ++ mem2) + lenZ (t ++ q))%Z).
      assert (Hlim : (lenZ (mem1 ++ mem2) + lenZ t <= lim)%Z) by (unfold lim, lenZ; rewrite !app_length; lia). clearbody lim.
      rewrite <- (app_assoc t).
      rewrite (chunks_read ds t Ht); [|assumption|assumption|lia|lia|lia]. cbn [bind]. rewrite Z.add_0_l. unfold INT_MAX.
      destruct (Z.eqb_spec (total_of ds) 2147483647); [lia|]. destruct (Z.ltb_spec (total_of ds + 1) 0); [lia|]. destruct (Z.ltb_spec (total_of ds) 0); [lia|].
      rewrite (chunks_read ds t Ht); [|assumption|assumption|lia|change (lenZ (@nil N)) with 0%Z; lia|lia]. cbn [bind List.app]. fold (total_of ds). rewrite Z.eqb_refl. cbn [negb].
      replace (lenZ (mem1 ++ mem2) + lenZ t)%Z with (lenZ ((mem1 ++ mem2) ++ t)) by (unfold lenZ; rewrite !app_length; lia).
      rewrite (app_assoc (mem1 ++ mem2) t), from_app. cbn [bind]. rewrite (headers_part _ Htr _ q r E Hr); [reflexivity|]. rewrite app_length. cbn [length]. lia.
Qed.
