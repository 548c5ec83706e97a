(** Lemmas about the model of http_msg.c. *)
From Verif Require Import Base BaseLemmas BufModel BufLemmas UriModel UriSpec UriLemmas HttpModel HttpSpec.

(** ** Searching *)

Lemma find_at a b : ~ In 0 a -> ~ In 13 a -> find_crlf (a ++ 13 :: 10 :: b) = Ok (Some (a, b)).
Proof.
  induction a as [|c a IH]; intros H0 H13; [reflexivity|]. cbn [List.app find_crlf].
  destruct (N.eqb_spec c 0) as [->|]; [exfalso; apply H0; left; reflexivity|].
  rewrite IH by (intro; (apply H0 + apply H13); right; assumption).
  destruct (N.eqb_spec c 13) as [->|]; [exfalso; apply H13; left; reflexivity|].
  destruct a; reflexivity.
Qed.
Lemma find_sound m a b : find_crlf m = Ok (Some (a, b)) -> m = a ++ 13 :: 10 :: b /\ ~ In 0 a.
Proof.
  revert a b. induction m as [|c m IH]; intros a b H; [discriminate|]. cbn [find_crlf] in H.
  destruct (N.eqb_spec c 0); [discriminate|]. destruct m as [|d m']; [discriminate|].
  destruct (N.eqb_spec c 13) as [->|]; cbn [andb] in H.
  - destruct (N.eqb_spec d 10) as [->|].
    + injection H as <- <-. auto.
    + destruct (find_crlf (d :: m')) as [[[x y]|]| | |]; try discriminate. injection H as <- <-.
      destruct (IH x y eq_refl) as [E1 E2]. rewrite E1. split; [reflexivity|]. intros [|]; [congruence|contradiction].
  - destruct (find_crlf (d :: m')) as [[[x y]|]| | |]; try discriminate. injection H as <- <-.
    destruct (IH x y eq_refl) as [E1 E2]. rewrite E1. split; [reflexivity|]. intros [|]; [congruence|contradiction].
Qed.
Lemma find_safe m : In 0 m -> exists r, find_crlf m = Ok r.
Proof.
  induction m as [|c m IH]; intro H; [contradiction|]. cbn [find_crlf]. destruct (N.eqb_spec c 0); [eauto|].
  destruct H as [|H]; [congruence|]. destruct m as [|d m']; [contradiction|].
  destruct (_ && _); [eauto|]. destruct (IH H) as [r E]. rewrite E. cbn [bind]. destruct r as [[a b]|]; eauto.
Qed.
Lemma find_rest m a b : find_crlf m = Ok (Some (a, b)) -> In 0 m -> In 0 b.
Proof.
  intros H H0. apply find_sound in H. destruct H as [-> H]. apply in_app_or in H0.
  destruct H0 as [|[|[|]]]; [contradiction|discriminate|discriminate|assumption].
Qed.

(** ** White space *)

Lemma space_blank c : is_space c = true <-> blank c.
Proof.
  unfold is_space, blank. rewrite orb_true_iff, andb_true_iff, !N.leb_le, N.eqb_eq. lia.
Qed.
Lemma not_space c : ~ blank c -> is_space c = false.
Proof. intro H. destruct (is_space c) eqn:E; [apply space_blank in E; contradiction|reflexivity]. Qed.

Lemma squash_word w s : (forall c, In c w -> c <> 0 /\ ~ blank c) -> squash false (w ++ s) = w ++ squash false s.
Proof.
  induction w as [|c w IH]; intro H; [reflexivity|]. cbn [List.app squash].
  rewrite not_space by (apply H; left; reflexivity). cbn [List.app]. rewrite IH by (intros; apply H; right; assumption). reflexivity.
Qed.
Lemma squash_words s : words s -> squash false s = s /\ squash true s = 32 :: s.
Proof.
  intro H. induction H as [w Hw Hc|w s Hw Hc Hs IH].
  - rewrite <- (app_nil_r w). rewrite squash_word by assumption. split; [reflexivity|].
    destruct w as [|c w]; [congruence|]. cbn [List.app squash]. rewrite not_space by (apply Hc; left; reflexivity).
    rewrite squash_word by (intros; apply Hc; right; assumption). reflexivity.
  - destruct IH as [IH1 IH2]. rewrite squash_word by assumption. cbn [squash]. change (is_space 32) with true. cbv iota. rewrite IH2. split; [reflexivity|].
    destruct w as [|c w]; [congruence|]. cbn [List.app squash]. rewrite not_space by (apply Hc; left; reflexivity).
    rewrite squash_word by (intros; apply Hc; right; assumption). cbn [squash]. change (is_space 32) with true. cbv iota. rewrite IH2. reflexivity.
Qed.
Lemma drop_words s : words s -> drop_ws s = s.
Proof.
  intro H. destruct H as [w Hw Hc|w s Hw Hc Hs]; (destruct w as [|c w]; [congruence|]); cbn [List.app drop_ws];
    rewrite not_space by (apply Hc; left; reflexivity); reflexivity.
Qed.
Lemma trim_words s : s = [] \/ words s -> trim_ws s = s /\ trim_ws (32 :: s) = s.
Proof.
  intros [->|H]; [split; reflexivity|]. unfold trim_ws. cbn [drop_ws]. change (is_space 32) with true. cbv iota.
  rewrite drop_words by assumption. split; apply squash_words; assumption.
Qed.
Lemma words_chars s c : s = [] \/ words s -> In c s -> c <> 0 /\ (blank c -> c = 32).
Proof.
  intros [->|H]; [contradiction|]. revert c. induction H as [w Hw Hc|w s Hw Hc Hs IH]; intros c Hin.
  - apply Hc in Hin. tauto.
  - apply in_app_or in Hin. destruct Hin as [Hin|[<-|Hin]]; [apply Hc in Hin; tauto|split; [discriminate|auto]|auto].
Qed.
Lemma words_no13 s : s = [] \/ words s -> ~ In 13 s /\ ~ In 0 s.
Proof.
  intro H. split; intro Hin; apply (words_chars s _ H) in Hin; destruct Hin as [H1 H2]; [|congruence].
  assert (B : blank 13) by (left; lia). apply H2 in B. discriminate.
Qed.
Lemma words_head s c t : s = [] \/ words s -> s = c :: t -> c <> 32 /\ c <> 9.
Proof.
  intros H E. assert (X : ~ blank c).
  { destruct H as [->|H]; [discriminate|]. destruct H as [w Hw Hc|w s Hw Hc Hs]; (destruct w as [|x w]; [congruence|]);
      injection E as -> _; apply (Hc c); left; reflexivity. }
  split; intros ->; apply X; [right; reflexivity|left; lia].
Qed.

Lemma squash_len sp s : (length (squash sp s) <= length s + if sp then 1 else 0)%nat.
Proof.
  revert sp. induction s as [|c s IH]; intro sp; cbn [squash length]; [lia|].
  destruct (is_space c); [specialize (IH true); cbn in IH; destruct sp; lia|].
  rewrite app_length. cbn [length]. specialize (IH false). cbv iota in IH. destruct sp; cbn [length]; lia.
Qed.
Lemma drop_len s : (length (drop_ws s) <= length s)%nat.
Proof. induction s as [|c s IH]; cbn; [lia|]. destruct (is_space c); cbn; lia. Qed.
Lemma trim_mem_len s : length (trim_mem s) = length s.
Proof.
  unfold trim_mem. rewrite !app_length, !repeat_length. unfold trim_ws.
  pose proof (squash_len false (drop_ws s)) as Hq. cbv iota in Hq. pose proof (drop_len s). lia.
Qed.

(** ** Reading a head *)

Lemma start_ok_parse a b c rest : a <> [] -> b <> [] -> c <> [] -> ~ In 32 a -> ~ In 32 b ->
  (forall x, In x a \/ In x b \/ In x c -> x <> 0 /\ x <> 13) ->
  exists mem, http_parse_start (a ++ [32] ++ b ++ [32] ++ c ++ crlf ++ rest) = Ok (a, b, c, mem, rest) /\
    lenZ mem = lenZ (a ++ [32] ++ b ++ [32] ++ c ++ crlf).
Proof.
  intros Ha Hb Hc Sa Sb Hx. unfold http_parse_start.
  assert (E : a ++ [32] ++ b ++ [32] ++ c ++ crlf ++ rest = (a ++ [32] ++ b ++ [32] ++ c) ++ 13 :: 10 :: rest).
  { unfold crlf. rewrite <- !app_assoc. reflexivity. }
  assert (NI : forall y, y = 0 \/ y = 13 -> ~ In y (a ++ [32] ++ b ++ [32] ++ c)).
  { intros y Hy. rewrite !in_app_not.
    assert (N1 : forall x, In x a \/ In x b \/ In x c -> x <> y) by (intros x Hin ->; destruct (Hx y Hin); lia).
    assert (N2 : ~ In y [32]) by (intros [<-|[]]; lia).
    split; [intro; apply (N1 y); auto|]. split; [exact N2|]. split; [intro; apply (N1 y); auto|]. split; [exact N2|]. intro; apply (N1 y); auto. }
  rewrite E, find_at by (apply NI; auto). cbn [bind]. change (a ++ [32] ++ b ++ [32] ++ c) with (a ++ 32 :: b ++ 32 :: c).
  rewrite cut_at by assumption. destruct (N.eqb_spec (lenN a) 0) as [X|_]; [destruct a; [congruence|rewrite lenN_cons in X; lia]|].
  rewrite cut_at by assumption. destruct (N.eqb_spec (lenN b) 0) as [X|_]; [destruct b; [congruence|rewrite lenN_cons in X; lia]|].
  destruct (N.eqb_spec (lenN c) 0) as [X|_]; [destruct c; [congruence|rewrite lenN_cons in X; lia]|].
  eexists. split; [reflexivity|]. unfold lenZ, crlf. rewrite !app_length. reflexivity.
Qed.

Lemma headers_parse hs rest : Forall header_ok hs -> forall fuel, (length hs < fuel)%nat ->
  exists mem, http_parse_headers fuel (headers_text hs ++ crlf ++ rest) = Ok (hs, mem, rest) /\ lenZ mem = lenZ (headers_text hs ++ crlf).
Proof.
  intro H. induction H as [|h hs Hh Hhs IH]; intros fuel Hf; (destruct fuel as [|fuel]; [cbn in Hf; lia|]); cbn [http_parse_headers].
  - cbn. eexists. split; reflexivity.
  - destruct h as [name value]. destruct Hh as (H1 & H2 & H3). cbn [fst snd] in *.
    change (headers_text ((name, value) :: hs)) with (header_text (name, value) ++ headers_text hs). unfold header_text. cbn [fst snd].
    remember (headers_text hs ++ crlf ++ rest) as tail eqn:Et.
    assert (E : ((name ++ [58; 32] ++ value ++ crlf) ++ headers_text hs) ++ crlf ++ rest = (name ++ [58; 32] ++ value) ++ 13 :: 10 :: tail).
    { subst tail. unfold crlf. rewrite <- !app_assoc. reflexivity. }
    rewrite E. cbn [http_header_line].
    destruct (words_no13 _ H1) as [N1 N2]. destruct (words_no13 _ H3) as [N3 N4].
    rewrite find_at.
    2:{ rewrite !in_app_not. split; [exact N2|]. split; [intros [X|[X|[]]]; discriminate|exact N4]. }
    2:{ rewrite !in_app_not. split; [exact N1|]. split; [intros [X|[X|[]]]; discriminate|exact N3]. }
    cbn [bind List.app]. destruct (N.eqb_spec (lenN (name ++ 58 :: 32 :: value)) 0) as [X|_].
    { rewrite lenN_app, lenN_cons in X. lia. }
    assert (Eh : exists c t, tail = c :: t /\ (c =? 32) || (c =? 9) = false).
    { subst tail. destruct Hhs as [|[n2 v2] hs' (K1 & K2 & _) _]; [eexists _, _; split; [reflexivity|reflexivity]|].
      change (headers_text ((n2, v2) :: hs')) with (header_text (n2, v2) ++ headers_text hs'). unfold header_text. cbn [fst snd] in *.
      destruct n2 as [|c t]; [eexists _, _; split; [reflexivity|reflexivity]|].
      destruct (words_head _ c t K1 eq_refl) as [W1 W2]. eexists _, _. split; [reflexivity|].
      destruct (N.eqb_spec c 32); [contradiction|]. destruct (N.eqb_spec c 9); [contradiction|]. reflexivity. }
    destruct Eh as (c & t & Ec & Eb). rewrite Ec, Eb. cbn [bind]. rewrite <- Ec.
    rewrite cut_at by assumption. destruct (IH fuel) as (mem & Em & Lm); [cbn in Hf; lia|]. rewrite Em. cbn [bind].
    destruct (trim_words _ H1) as [T1 _]. destruct (trim_words _ H3) as [_ T2]. rewrite T1, T2.
    eexists. split; [reflexivity|]. unfold lenZ in *. rewrite !app_length, !trim_mem_len in *. unfold crlf in *. cbn [length] in *. rewrite !app_length, !trim_mem_len. cbn [length]. lia.
Qed.

Lemma head_parse m fuel rest : start_ok m -> Forall header_ok (hm_headers m) ->
  exists mem1 mem2, lenZ (mem1 ++ mem2) = lenZ (head_text m) /\
    http_msg_parse fuel (head_text m ++ rest) =
      (let* (ts, body, num) := http_parse_body fuel (hm_headers m) (mem1 ++ mem2 ++ rest ++ [0]) (lenZ (head_text m)) in
       Ok (mkhmsg (hm_start m) (hm_headers m ++ ts) body, (lenZ (head_text m) + num)%Z)).
Proof.
  intros Hs Hh. unfold http_msg_parse, head_text, start_ok in *. destruct (hm_start m) as [[a b] c].
  destruct Hs as (A1 & A2 & A3 & A4 & A5 & A6).
  destruct (start_ok_parse a b c (headers_text (hm_headers m) ++ crlf ++ rest ++ [0]) A1 A2 A3 A4 A5 A6) as (mem1 & E1 & L1).
  assert (E : (a ++ [32] ++ b ++ [32] ++ c ++ crlf ++ headers_text (hm_headers m) ++ crlf) ++ rest =
              a ++ [32] ++ b ++ [32] ++ c ++ crlf ++ headers_text (hm_headers m) ++ crlf ++ rest) by (rewrite <- !app_assoc; reflexivity).
  rewrite E, <- !app_assoc, E1. cbn [bind].
  destruct (headers_parse (hm_headers m) (rest ++ [0]) Hh (S (length (headers_text (hm_headers m) ++ crlf ++ rest ++ [0])))) as (mem2 & E2 & L2).
  { rewrite app_length. assert (length (hm_headers m) <= length (headers_text (hm_headers m)))%nat; [|lia].
    clear. induction (hm_headers m) as [|h hs IH]; [cbn; lia|]. change (headers_text (h :: hs)) with (header_text h ++ headers_text hs).
    rewrite app_length. unfold header_text at 1. rewrite !app_length. cbn [length]. lia. }
  rewrite E2. cbn [bind]. exists mem1, mem2.
  assert (L : lenZ (mem1 ++ mem2) = lenZ (a ++ [32] ++ b ++ [32] ++ c ++ crlf ++ headers_text (hm_headers m) ++ crlf)).
  { unfold lenZ in *. rewrite !app_length in *. cbn [length] in *. lia. }
  split; [exact L|]. rewrite L. reflexivity.
Qed.

(** ** Framing *)

Lemma same_word_spec a b : same_word a b = true <-> same_name a b.
Proof. unfold same_word, same_name. change upper with to_upper. destruct (list_eq_dec _ _ _); split; intros; congruence. Qed.

Lemma decimal_digits s v n : decimal_value v s = Some n ->
  fold_left (fun v d => (v * 10 + Z.of_N d)%Z) (digits_of dec_digit s) (Z.of_N v) = Z.of_N n.
Proof.
  revert v. induction s as [|c s IH]; intros v H; cbn [decimal_value] in H; [injection H as ->; reflexivity|].
  cbn [digits_of]. unfold dec_digit, is_digit. destruct ((48 <=? c) && (c <=? 57)) eqn:E; [|discriminate].
  cbn [fold_left]. rewrite <- IH with (v := v * 10 + (c - 48)) by exact H. f_equal. lia.
Qed.
Lemma decimal_head c s n v : decimal_value v (c :: s) = Some n -> 48 <= c <= 57.
Proof. cbn [decimal_value]. destruct (N.leb_spec 48 c), (N.leb_spec c 57); cbn [andb]; try discriminate. lia. Qed.
Lemma atoi_decimal s n : decimal s n -> n < 2147483648 -> atoi s = Z.of_N n.
Proof.
  intros [Hs Hd] Hn. destruct s as [|c s]; [congruence|]. pose proof (decimal_head _ _ _ _ Hd) as Hc.
  unfold atoi. cbn [drop_ws]. rewrite not_space by (unfold blank; lia). cbn [sign_of].
  destruct (N.eqb_spec c 45); [lia|]. destruct (N.eqb_spec c 43); [lia|].
  unfold value_of. change 0%Z with (Z.of_N 0) at 1. rewrite (decimal_digits _ 0 n Hd). unfold to_int.
  rewrite Z.min_l by lia. rewrite Z.mod_small by lia. destruct (Z.ltb_spec (Z.of_N n) 2147483648); lia.
Qed.

Definition framing_step (st : bool * N) (h : list N * list N) : bool * N :=
  let (chunked, len) := st in
  (chunked || (same_word (fst h) s_transfer_encoding && same_word (snd h) s_chunked),
   if same_word (fst h) s_content_length then Z.to_N (atoi (snd h) mod 18446744073709551616)%Z else len).
Lemma framing_fold hs : http_framing hs = fold_left framing_step hs (false, 0).
Proof. reflexivity. Qed.
Lemma framing_chunked hs : forall b l, fst (fold_left framing_step hs (b, l)) = b || existsb (fun h => same_word (fst h) s_transfer_encoding && same_word (snd h) s_chunked) hs.
Proof.
  induction hs as [|h hs IH]; intros b l; cbn [fold_left existsb]; [rewrite orb_false_r; reflexivity|].
  unfold framing_step at 2. rewrite IH. rewrite orb_assoc. reflexivity.
Qed.
Lemma framing_no hs : not_chunked hs -> fst (http_framing hs) = false.
Proof.
  intro H. rewrite framing_fold, framing_chunked. cbn [orb]. destruct (existsb _ hs) eqn:E; [|reflexivity].
  apply existsb_exists in E. destruct E as (h & Hin & E). apply andb_prop in E. destruct E as [E1 E2].
  exfalso. apply (H h Hin). split; apply same_word_spec; assumption.
Qed.
Lemma framing_yes hs : is_chunked hs -> fst (http_framing hs) = true.
Proof.
  intros (h & Hin & E1 & E2). rewrite framing_fold, framing_chunked. cbn [orb]. apply existsb_exists. exists h. split; [exact Hin|].
  apply same_word_spec in E1. apply same_word_spec in E2. unfold s_transfer_encoding, s_chunked. unfold transfer_encoding, chunked in *. rewrite E1, E2. reflexivity.
Qed.
Lemma framing_keep hs : (forall h, In h hs -> ~ same_name (fst h) content_length) -> forall st, snd (fold_left framing_step hs st) = snd st.
Proof.
  induction hs as [|h hs IH]; intros H st; [reflexivity|]. cbn [fold_left]. rewrite IH by (intros; apply H; right; assumption).
  destruct st as [b l]. unfold framing_step. cbn [snd]. destruct (same_word (fst h) s_content_length) eqn:E; [|reflexivity].
  exfalso. apply (H h (or_introl eq_refl)). apply same_word_spec. exact E.
Qed.
Lemma framing_len hs1 h hs2 n : same_name (fst h) content_length -> decimal (snd h) n -> n < 2147483648 ->
  (forall h', In h' hs2 -> ~ same_name (fst h') content_length) -> snd (http_framing (hs1 ++ h :: hs2)) = n.
Proof.
  intros H1 H2 Hn H3. rewrite framing_fold, fold_left_app. cbn [fold_left]. rewrite framing_keep by assumption.
  destruct (fold_left framing_step hs1 (false, 0)) as [b l]. unfold framing_step. cbn [snd].
  apply same_word_spec in H1. change s_content_length with content_length. rewrite H1. rewrite (atoi_decimal _ n H2 Hn).
  rewrite Z.mod_small by lia. lia.
Qed.

Lemma from_app a b : from (a ++ b) (lenZ a) = Ok b.
Proof.
  unfold from, lenZ. rewrite app_length. destruct (Z.leb_spec 0 (Z.of_nat (length a))); [|lia].
  destruct (Z.leb_spec (Z.of_nat (length a)) (Z.of_nat (length a + length b))); [|lia]. cbn [andb].
  rewrite Nat2Z.id, skipn_app, skipn_all, Nat.sub_diag. reflexivity.
Qed.
Lemma cstr_prefix a b : ~ In 0 a -> exists t, cstr (a ++ b ++ [0]) = Ok (a ++ t).
Proof.
  induction a as [|c a IH]; intro H; cbn [List.app cstr].
  - clear H. induction b as [|c b IH]; [exists []; reflexivity|]. cbn [List.app cstr]. destruct (c =? 0); [exists []; reflexivity|].
    destruct IH as [t E]. rewrite E. eexists. reflexivity.
  - destruct (N.eqb_spec c 0) as [->|]; [exfalso; apply H; left; reflexivity|].
    destruct IH as [t E]; [intro; apply H; right; assumption|]. rewrite E. exists t. reflexivity.
Qed.

Lemma message_parse m fuel rest : message_ok m -> (forall b, hm_body m = Some b -> ~ In 0 b /\ lenN b < 2147483648) ->
  http_msg_parse fuel (http_text m ++ rest) = Ok (m, lenZ (http_text m)).
Proof.
  intros (Hs & Hh & Hf & Hb) Hn. unfold http_text. rewrite <- app_assoc.
  destruct (head_parse m fuel (body_of m ++ rest) Hs Hh) as (mem1 & mem2 & L & E). rewrite E. clear E.
  unfold http_parse_body. rewrite <- L. rewrite (app_assoc mem1 mem2), from_app. cbn [bind].
  pose proof (framing_no _ Hf) as Fc.
  unfold body_of. destruct (hm_body m) as [b|] eqn:Eb.
  - destruct Hb as (Hne & hs1 & h & hs2 & Eh & H1 & H2 & H3). destruct (Hn b eq_refl) as [N1 N2].
    rewrite <- app_assoc. destruct (cstr_prefix b rest N1) as [t Et]. rewrite Et. cbn [bind].
    pose proof (framing_len hs1 h hs2 (lenN b) H1 H2 N2 H3) as Fl. rewrite <- Eh in Fl.
    destruct (http_framing (hm_headers m)) as [ch l]. cbn [fst snd] in *. subst ch l. cbv iota.
    destruct (N.eqb_spec (lenN b) 0) as [X|_]; [destruct b; [congruence|rewrite lenN_cons in X; lia]|]. cbn [negb].
    rewrite lenN_app. destruct (N.ltb_spec (lenN b + lenN t) (lenN b)); [lia|]. cbn [bind].
    rewrite lenN_to_nat, firstn_app, firstn_all, Nat.sub_diag. cbn [firstn]. rewrite !app_nil_r. destruct m; cbn in *. subst.
    f_equal. f_equal. rewrite L. unfold lenZ. rewrite app_length. unfold lenN. lia.
  - destruct (cstr_prefix [] rest (fun H => H)) as [t Et]. cbn [List.app] in *. rewrite Et. cbn [bind].
    pose proof (framing_keep _ Hb (false, 0)) as Fl. rewrite <- framing_fold in Fl.
    destruct (http_framing (hm_headers m)) as [ch l]. cbn [fst snd] in *. subst ch l. cbv iota. change (0 =? 0) with true. cbn [negb bind].
    rewrite !app_nil_r. destruct m; cbn in *. subst. f_equal. f_equal. lia.
Qed.

(** ** Generating *)

Lemma written_firstn len t rest k : (k <= length t)%nat -> (k <= N.to_nat (len - 1))%nat -> firstn k (written len t rest) = firstn k t.
Proof.
  intros H1 H2. unfold written. rewrite firstn_app. rewrite firstn_firstn. rewrite Nat.min_l by lia.
  rewrite firstn_length. replace (k - Nat.min (N.to_nat (len - 1)) (length t))%nat with 0%nat by lia. cbn [firstn]. apply app_nil_r.
Qed.
Lemma written_skipn len t rest k : (Nat.min (N.to_nat (len - 1)) (length t) <= k)%nat -> (k <= N.to_nat len)%nat ->
  skipn k (written len t rest) = repeat 0 (N.to_nat len - k) ++ rest.
Proof.
  intros H1 H2. unfold written. rewrite skipn_app. rewrite firstn_length. rewrite skipn_all2 by (rewrite firstn_length; lia). cbn [List.app].
  rewrite skipn_app, repeat_length. rewrite (repeat_split (N.to_nat len - Nat.min (N.to_nat (len - 1)) (length t)) (k - Nat.min (N.to_nat (len - 1)) (length t))) by lia.
  rewrite skipn_app, skipn_all2 by (rewrite repeat_length; lia). cbn [List.app]. rewrite repeat_length, Nat.sub_diag. cbn [skipn].
  replace (k - Nat.min (N.to_nat (len - 1)) (length t) - (N.to_nat len - Nat.min (N.to_nat (len - 1)) (length t)))%nat with 0%nat by lia.
  cbn [skipn]. f_equal. f_equal. lia.
Qed.
Lemma written_len len t rest : 0 < len -> lenN (written len t rest) = len + lenN rest.
Proof. intro H. unfold written, lenN. rewrite !app_length, repeat_length, firstn_length. lia. Qed.

Lemma cat_one len t rest s : 0 < len -> len + lenN rest < two64 -> lenN t + lenN s < two64 -> ~ In 0 s ->
  util_strncat (written len t rest) (s ++ [0]) (lenN t) len = Ok (written len (t ++ s) rest, lenN (t ++ s)).
Proof.
  intros Hl Hr Hts Hs. pose proof (written_len len t rest Hl) as WL. rewrite lenN_app.
  destruct (N.lt_ge_cases (lenN t) len) as [Hlt|Hge].
  - rewrite strncat_ok by (assumption || lia).
    assert (E : firstn (N.to_nat (lenN t)) (written len t rest) ++ firstn (N.to_nat (len - 1 - lenN t)) s ++
       0 :: skipn (N.to_nat (lenN t + N.min (lenN s) (len - 1 - lenN t) + 1)) (written len t rest) = written len (t ++ s) rest); [|rewrite E; reflexivity].
    rewrite written_firstn by (unfold lenN in *; lia). rewrite lenN_to_nat, firstn_all.
    rewrite written_skipn by (unfold lenN in *; lia).
    unfold written. rewrite firstn_app. rewrite (firstn_all2 t) by (unfold lenN in *; lia).
    replace (N.to_nat (len - 1) - length t)%nat with (N.to_nat (len - 1 - lenN t)) by (unfold lenN in *; lia).
    rewrite <- app_assoc. f_equal. f_equal. rewrite app_length, firstn_length.
    change (0 :: repeat 0 ?n ++ rest) with (repeat 0 (S n) ++ rest). f_equal. f_equal. unfold lenN in *. lia.
  - rewrite strncat_full by (assumption || lia).
    assert (E : firstn (N.to_nat (len - 1)) (written len t rest) ++ 0 :: skipn (N.to_nat len) (written len t rest) = written len (t ++ s) rest); [|rewrite E; reflexivity].
    rewrite written_firstn by (unfold lenN in *; lia). rewrite written_skipn by (unfold lenN in *; lia). rewrite Nat.sub_diag. cbn [repeat List.app].
    unfold written. rewrite firstn_app. replace (N.to_nat (len - 1) - length t)%nat with 0%nat by (unfold lenN in *; lia). cbn [firstn]. rewrite app_nil_r.
    f_equal. rewrite firstn_length. replace (N.to_nat len - Nat.min (N.to_nat (len - 1)) (length t))%nat with 1%nat by (unfold lenN in *; lia). reflexivity.
Qed.

Lemma cat_many len rest strs : 0 < len -> len + lenN rest < two64 -> Forall (fun s => ~ In 0 s) strs ->
  forall t, lenN (t ++ concat strs) < two64 ->
  http_cat (written len t rest) strs (lenN t) len = Ok (written len (t ++ concat strs) rest, lenN (t ++ concat strs)).
Proof.
  intros Hl Hr Hs. induction Hs as [|s strs Hs Hss IH]; intros t Ht; cbn [http_cat concat] in *; [rewrite app_nil_r; reflexivity|].
  rewrite app_assoc in Ht. rewrite cat_one by (assumption || (rewrite !lenN_app in Ht; lia)). cbn [bind]. rewrite IH by exact Ht. rewrite <- app_assoc. reflexivity.
Qed.

Lemma written_nil len buf : 0 < len -> repeat 0 (N.to_nat len) ++ skipn (N.to_nat len) buf = written len [] (skipn (N.to_nat len) buf).
Proof. intro H. unfold written. rewrite firstn_nil. cbn [length List.app]. rewrite Nat.sub_0_r. reflexivity. Qed.

Lemma http_generate_ok m buf len : no_nul m -> 0 < len -> len <= lenN buf -> lenN buf < two64 -> lenN (http_text m) < two64 ->
  http_msg_generate m buf len = Ok (written len (http_text m) (skipn (N.to_nat len) buf), lenN (http_text m)).
Proof.
  intros Hn Hl Hb Hb2 Ht. unfold http_msg_generate. destruct (N.ltb_spec (lenN buf) len); [lia|].
  rewrite written_nil by exact Hl. set (rest := skipn (N.to_nat len) buf).
  assert (Hr : len + lenN rest < two64) by (unfold rest, lenN in *; rewrite skipn_length; lia). clearbody rest.
  unfold http_text, head_text, no_nul in *. destruct (hm_start m) as [[a b] c]. destruct Hn as (N1 & N2 & N3 & N4).
  set (t1 := a ++ [32] ++ b ++ [32] ++ c ++ crlf).
  assert (E1 : concat [a; [32]; b; [32]; c; [13; 10]] = t1) by (cbn [concat]; rewrite app_nil_r; reflexivity).
  assert (E2 : concat (flat_map (fun h : list N * list N => [fst h; [58; 32]; snd h; [13; 10]]) (hm_headers m)) = headers_text (hm_headers m)).
  { clear. induction (hm_headers m) as [|h hs IH]; [reflexivity|]. cbn [flat_map]. rewrite concat_app, IH. cbn [concat]. rewrite app_nil_r. reflexivity. }
  assert (Et : a ++ [32] ++ b ++ [32] ++ c ++ crlf ++ headers_text (hm_headers m) ++ crlf = (t1 ++ headers_text (hm_headers m)) ++ crlf).
  { unfold t1. rewrite <- !app_assoc. reflexivity. }
  rewrite Et in *. clearbody t1.
  assert (L1 : lenN t1 < two64) by (rewrite !lenN_app in Ht; lia).
  change 0 with (lenN (@nil N)) at 1. rewrite cat_many; [|assumption|assumption| |rewrite E1; exact L1].
  2:{ repeat constructor; try assumption; cbn; intuition discriminate. }
  rewrite E1. cbn [List.app bind].
  rewrite cat_many; [|assumption|assumption| |rewrite E2; rewrite !lenN_app; rewrite !lenN_app in Ht; lia].
  2:{ clear -N4. induction (hm_headers m) as [|h hs IH]; [constructor|]. cbn [flat_map].
      destruct (N4 h (or_introl eq_refl)). repeat constructor; try assumption; try (cbn; intuition discriminate).
      apply IH. intros; apply N4; right; assumption. }
  rewrite E2. cbn [bind].
  rewrite cat_many; [|assumption|assumption| |change (concat [[13; 10]]) with crlf; rewrite !lenN_app; rewrite !lenN_app in Ht; lia].
  2:{ repeat constructor. cbn; intuition discriminate. }
  change (concat [[13; 10]]) with crlf. cbn [bind]. set (t := (t1 ++ headers_text (hm_headers m)) ++ crlf) in *. clearbody t. clear E1 E2 Et L1.
  unfold body_of in *. destruct (hm_body m) as [body|]; [|rewrite app_nil_r; reflexivity].
  rewrite lenN_app in Ht. rewrite add64_ok by lia. rewrite lenN_app.
  rewrite (sub64_ok len 1) by lia. pose proof (written_len len t rest Hl) as WL.
  destruct (N.ltb_spec (lenN t + lenN body) len).
  - destruct (N.ltb_spec (lenN body) (lenN body)); [lia|]. rewrite WL. destruct (N.ltb_spec (len + lenN rest) (lenN t + lenN body)); [lia|].
    cbn [bind]. rewrite written_firstn by (unfold lenN in *; lia). rewrite written_skipn by (unfold lenN in *; lia).
    rewrite !lenN_to_nat, !firstn_all. f_equal. f_equal. unfold written. rewrite firstn_all2 by (rewrite app_length; unfold lenN in *; lia).
    rewrite <- app_assoc. do 2 f_equal. f_equal. f_equal. rewrite app_length. unfold lenN. lia.
  - destruct (N.ltb_spec (lenN t) (len - 1)).
    + rewrite (sub64_ok (len - 1)) by lia. destruct (N.ltb_spec (lenN body) (len - 1 - lenN t)); [lia|]. rewrite WL.
      destruct (N.ltb_spec (len + lenN rest) (lenN t + (len - 1 - lenN t))); [lia|]. cbn [bind].
      rewrite written_firstn by (unfold lenN in *; lia). rewrite written_skipn by (unfold lenN in *; lia).
      rewrite !lenN_to_nat, !firstn_all. f_equal. f_equal. unfold written. rewrite firstn_app, (firstn_all2 t) by (unfold lenN in *; lia).
      replace (N.to_nat (len - 1) - length t)%nat with (N.to_nat (len - 1 - lenN t)) by (unfold lenN in *; lia).
      rewrite <- app_assoc. do 2 f_equal. f_equal. f_equal. rewrite app_length, firstn_length. unfold lenN in *. lia.
    + cbn [bind]. f_equal. f_equal. unfold written. rewrite firstn_app. replace (N.to_nat (len - 1) - length t)%nat with 0%nat by (unfold lenN in *; lia).
      cbn [firstn]. rewrite app_nil_r. reflexivity.
Qed.

Lemma generate_parse m fuel buf len b n : message_ok m -> (forall b, hm_body m = Some b -> ~ In 0 b /\ lenN b < 2147483648) ->
  len <= lenN buf -> lenN buf < two64 -> lenN (http_text m) < two64 ->
  http_msg_generate m buf len = Ok (b, n) -> n < len ->
  forall more, http_msg_parse fuel (firstn (N.to_nat n) b ++ more) = Ok (m, Z.of_N n).
Proof.
  intros Hm Hb H1 H2 H3 Hg Hn more.
  assert (Hnn : no_nul m).
  { destruct Hm as (Hs & Hh & _). unfold start_ok, no_nul in *. destruct (hm_start m) as [[x y] z]. destruct Hs as (_ & _ & _ & _ & _ & Hx).
    rewrite Forall_forall in Hh.
    split; [intro X; destruct (Hx 0); [auto|congruence]|]. split; [intro X; destruct (Hx 0); [auto|congruence]|].
    split; [intro X; destruct (Hx 0); [auto|congruence]|]. intros h Hin. destruct (Hh h Hin) as (W1 & _ & W2).
    split; apply words_no13; assumption. }
  rewrite (http_generate_ok m buf len Hnn ltac:(lia) H1 H2 H3) in Hg. injection Hg as <- <-.
  rewrite lenN_to_nat, written_firstn by (unfold lenN in *; lia). rewrite firstn_all.
  rewrite message_parse by assumption. f_equal. f_equal. unfold lenZ, lenN. lia.
Qed.

Lemma hex_from_len fuel n : (length (hex_from fuel n) <= fuel)%nat.
Proof. revert n. induction fuel as [|fuel IH]; intro n; cbn [hex_from]; [cbn; lia|]. destruct (n <? 16); [cbn; lia|]. rewrite app_length. cbn [length]. specialize (IH (n / 16)). lia. Qed.
Lemma hex_digit_nth d : d < 16 -> hex_digit d = nth (N.to_nat d) [48;49;50;51;52;53;54;55;56;57;97;98;99;100;101;102] 0.
Proof.
  intro H. assert (C : forallb (fun d => hex_digit d =? nth (N.to_nat d) [48;49;50;51;52;53;54;55;56;57;97;98;99;100;101;102] 0) (map N.of_nat (seq 0 16)) = true) by (vm_compute; reflexivity).
  rewrite forallb_forall in C. apply N.eqb_eq. apply C. apply in_map_iff. exists (N.to_nat d). split; [lia|]. apply in_seq. lia.
Qed.
Lemma hex_from_of fuel : forall n, n < 16 ^ N.of_nat fuel -> fuel <> 0%nat -> hex_of n (hex_from fuel n).
Proof.
  induction fuel as [|fuel IH]; intros n Hn Hf; [congruence|]. cbn [hex_from]. destruct (N.ltb_spec n 16).
  - rewrite hex_digit_nth by assumption. constructor. assumption.
  - rewrite hex_digit_nth by (apply N.mod_lt; discriminate).
    assert (E : n = 16 * (n / 16) + n mod 16) by (apply N.div_mod; discriminate). rewrite E at 1.
    assert (P : 16 ^ N.of_nat (S fuel) = 16 * 16 ^ N.of_nat fuel) by (rewrite Nat2N.inj_succ, N.pow_succ_r'; reflexivity).
    apply hex_more; [apply N.div_str_pos; lia|apply N.mod_lt; discriminate|]. apply IH.
    + apply N.div_lt_upper_bound; [discriminate|]. lia.
    + intros ->. change (16 ^ N.of_nat 1) with 16 in Hn. lia.
Qed.
Lemma hex_text_of n : n < two64 -> hex_of n (hex_text n).
Proof. intro H. apply hex_from_of; [exact H|discriminate]. Qed.

Lemma chunk_generated out len data : lenN (hex_text (lenN data)) + 2 < len -> len <= lenN out -> lenN out < two64 ->
  lenN (hex_text (lenN data) ++ crlf ++ data ++ crlf) < two64 ->
  http_msg_generate_chunk out len data =
    Ok (written len (hex_text (lenN data) ++ crlf ++ data ++ crlf) (skipn (N.to_nat len) out), lenN (hex_text (lenN data) ++ crlf ++ data ++ crlf)).
Proof.
  set (h := hex_text (lenN data)). intros Hh Hl Ho Ht. unfold http_msg_generate_chunk. fold h. clearbody h.
  destruct (N.ltb_spec (lenN out) len); [lia|]. set (rest := skipn (N.to_nat len) out).
  assert (Hr : len + lenN rest < two64) by (unfold rest, lenN in *; rewrite skipn_length; lia). clearbody rest.
  assert (Lh : lenN (h ++ [13; 10]) = lenN h + 2) by (rewrite lenN_app; reflexivity).
  assert (Lc : lenN crlf = 2) by reflexivity.
  rewrite !lenN_app in Ht. rewrite Lc in Ht.
  unfold snprintf at 1. destruct (N.eqb_spec len 0); [lia|].
  rewrite (firstn_all2 (h ++ [13; 10])) by (unfold lenN in *; lia).
  assert (L1 : lenN ((h ++ [13; 10]) ++ [0]) = lenN h + 3) by (rewrite lenN_app, Lh; change (lenN [0]) with 1; lia).
  rewrite L1. assert (L2 : lenN (repeat 0 (N.to_nat len) ++ rest) = len + lenN rest) by (rewrite lenN_app, lenN_repeat; lia).
  rewrite L2. destruct (N.ltb_spec (len + lenN rest) (lenN h + 3)); [lia|]. cbn [bind]. rewrite Lh.
  destruct (N.leb_spec (lenN h + 2) len); [|lia].
  assert (Es : skipn (length ((h ++ [13; 10]) ++ [0])) (repeat 0 (N.to_nat len) ++ rest) = repeat 0 (N.to_nat len - length h - 3) ++ rest).
  { rewrite app_length. cbn [length]. rewrite app_length. cbn [length].
    rewrite (repeat_split (N.to_nat len) (length h + 3)) by (unfold lenN in *; lia). rewrite <- app_assoc, skipn_app, repeat_length.
    rewrite skipn_all2 by (rewrite repeat_length; lia). replace (length h + 2 + 1 - (length h + 3))%nat with 0%nat by lia. cbn [skipn List.app].
    f_equal. f_equal. lia. }
  rewrite Es. rewrite <- app_assoc. change ([0] ++ repeat 0 ?n ++ rest) with (repeat 0 (S n) ++ rest).
  assert (F1 : firstn (N.to_nat (lenN h + 2)) ((h ++ [13; 10]) ++ repeat 0 (S (N.to_nat len - length h - 3)) ++ rest) = h ++ [13; 10]).
  { rewrite <- Lh, lenN_to_nat. rewrite firstn_app, firstn_all, Nat.sub_diag. cbn [firstn]. apply app_nil_r. }
  assert (F2 : skipn (N.to_nat (lenN h + 2)) ((h ++ [13; 10]) ++ repeat 0 (S (N.to_nat len - length h - 3)) ++ rest) = repeat 0 (S (N.to_nat len - length h - 3)) ++ rest).
  { rewrite <- Lh, lenN_to_nat. rewrite skipn_app, skipn_all, Nat.sub_diag. reflexivity. }
  rewrite F1, F2. clear Es F1 F2.
  set (z := S (N.to_nat len - length h - 3)). set (l2 := len - (lenN h + 2)).
  assert (Ez : N.of_nat z = l2) by (unfold z, l2, lenN in *; lia).
  rewrite sub64_ok by (unfold l2; lia).
  assert (Ll : lenN (repeat 0 z ++ rest) = l2 + lenN rest) by (rewrite lenN_app, lenN_repeat; lia). rewrite Ll.
  assert (Final : forall k, k <= lenN data -> k = N.min (lenN data) (l2 - 1) ->
    (let* (out0, target) := snprintf (skipn (N.to_nat k) (repeat 0 z ++ rest)) (l2 - k) [13; 10] in
     Ok (((h ++ [13; 10]) ++ firstn (N.to_nat k) data) ++ out0, add64 (add64 (lenN h + 2) (lenN data)) target)) =
    Ok (written len (h ++ crlf ++ data ++ crlf) rest, lenN (h ++ crlf ++ data ++ crlf))).
  { intros k Hk Ek. assert (Hk2 : k < l2) by (unfold l2 in *; lia).
    rewrite (repeat_split z (N.to_nat k)) by lia. rewrite <- app_assoc, skipn_app, skipn_all2 by (rewrite repeat_length; lia). rewrite repeat_length, Nat.sub_diag. cbn [skipn List.app].
    unfold snprintf. destruct (N.eqb_spec (l2 - k) 0); [lia|].
    set (q := firstn (N.to_nat (l2 - k - 1)) [13; 10]).
    assert (Lq : lenN (q ++ [0]) <= l2 - k) by (unfold q, lenN; rewrite app_length, firstn_length; cbn [length]; lia).
    rewrite lenN_app, lenN_repeat. destruct (N.ltb_spec (N.of_nat (z - N.to_nat k) + lenN rest) (lenN (q ++ [0]))); [lia|]. cbn [bind].
    change (lenN [13; 10]) with 2. rewrite (add64_ok (lenN h + 2)), add64_ok by lia.
    assert (El : lenN h + 2 + lenN data + 2 = lenN (h ++ crlf ++ data ++ crlf)) by (rewrite !lenN_app, Lc; lia). rewrite El.
    f_equal. f_equal.
    rewrite (repeat_split (z - N.to_nat k) (length (q ++ [0]))) by (unfold lenN in Lq; lia). rewrite <- (app_assoc (repeat 0 (length (q ++ [0])))), skipn_app, skipn_all2 by (rewrite repeat_length; lia).
    rewrite repeat_length, Nat.sub_diag. cbn [skipn List.app].
    unfold written. set (p := firstn (N.to_nat (len - 1)) (h ++ crlf ++ data ++ crlf)).
    assert (Ep : p = ((h ++ [13; 10]) ++ firstn (N.to_nat k) data) ++ q).
    { unfold p. rewrite (app_assoc h crlf). change (h ++ [13; 10]) with (h ++ crlf). change [13; 10] with crlf in q. unfold q. clear p q Lq H2.
      rewrite firstn_app. rewrite (firstn_all2 (h ++ crlf)) by (rewrite app_length; change (length crlf) with 2%nat; unfold lenN in *; lia). rewrite <- !app_assoc. do 2 f_equal.
      rewrite firstn_app. rewrite app_length. change (length crlf) with 2%nat.
      replace (N.to_nat (len - 1) - (length h + 2))%nat with (N.to_nat (l2 - 1)) by (unfold l2, lenN; lia).
      replace (N.to_nat (l2 - k - 1)) with (N.to_nat (l2 - 1) - N.to_nat k)%nat by lia.
      destruct (N.lt_ge_cases (lenN data) l2).
      - replace k with (lenN data) by lia. rewrite lenN_to_nat, firstn_all. rewrite (firstn_all2 data) by (unfold lenN in *; lia). reflexivity.
      - replace k with (l2 - 1) by lia. rewrite Nat.sub_diag. replace (N.to_nat (l2 - 1) - length data)%nat with 0%nat by (unfold lenN in *; lia). reflexivity. }
    rewrite Ep, <- !app_assoc. do 4 f_equal.
    change ([0] ++ repeat 0 ?n ++ rest) with (repeat 0 (S n) ++ rest). f_equal. f_equal. rewrite !app_length. cbn [length].
    rewrite firstn_length. unfold lenN in *. rewrite app_length in *. cbn [length] in *. unfold l2, z, lenN in *. lia. }
  destruct (N.leb_spec (lenN data) (l2 - 1)).
  - destruct (N.ltb_spec (l2 + lenN rest) (lenN data)); [lia|]. rewrite (sub64_ok l2) by (unfold l2; lia). apply Final; lia.
  - destruct (N.ltb_spec (l2 + lenN rest) (l2 - 1)); [lia|]. rewrite (sub64_ok l2) by (unfold l2 in *; lia). apply Final; lia.
Qed.
