(** Chunks read as they were written, and messages that are read wrongly. *)
From Verif Require Import Base BaseLemmas BufModel BufLemmas UriModel UriSpec UriLemmas HttpModel HttpSpec HttpLemmas HttpSafeLemmas.

Lemma hex_char d : d < 16 -> uri_hex_to_int (nth (N.to_nat d) [48;49;50;51;52;53;54;55;56;57;97;98;99;100;101;102] 0) = Some d.
Proof. intro H. destruct d as [|d]; [reflexivity|]. do 4 (destruct d as [d|d|]; try reflexivity; try lia). Qed.
Lemma digits_app h t : forallb hexadecimal h = true -> digits_of uri_hex_to_int (h ++ t) = digits_of uri_hex_to_int h ++ digits_of uri_hex_to_int t.
Proof.
  induction h as [|c h IH]; intro H; [reflexivity|]. cbn [forallb] in H. apply andb_prop in H. destruct H as [H1 H2]. cbn [List.app digits_of].
  pose proof (hex_int c) as Hc. destruct (uri_hex_to_int c); [rewrite (IH H2); reflexivity|congruence].
Qed.
Lemma hex_of_digits n h : hex_of n h -> forallb hexadecimal h = true /\ h <> [] /\ value_of 16 (digits_of uri_hex_to_int h) = Z.of_N n.
Proof.
  intro H. induction H as [d Hd|n s d Hn Hd H (I1 & I2 & I3)].
  - pose proof (hex_char d Hd) as E. set (c := nth _ _ _) in *. clearbody c. cbn [digits_of forallb]. pose proof (hex_int c) as Hc. rewrite E in *. destruct Hc as [-> _].
    split; [reflexivity|]. split; [discriminate|]. cbn. lia.
  - pose proof (hex_char d Hd) as E. set (c := nth _ _ _) in *. clearbody c. pose proof (hex_int c) as Hc. rewrite E in Hc.
    rewrite forallb_app, I1. cbn [forallb andb]. destruct Hc as [-> _]. split; [reflexivity|]. split; [destruct s; discriminate|].
    rewrite digits_app by exact I1. cbn [digits_of]. rewrite E. unfold value_of in *. rewrite fold_left_app, I3. cbn [fold_left]. lia.
Qed.
Lemma hexadecimal_not c : hexadecimal c = true -> c <> 0 /\ c <> 13 /\ c <> 59 /\ c <> 45 /\ c <> 43 /\ c <> 120 /\ c <> 88 /\ is_space c = false.
Proof.
  unfold hexadecimal, is_space. intro H. repeat (apply orb_prop in H; destruct H as [H|H]); apply andb_prop in H; destruct H as [H1 H2]; apply N.leb_le in H1, H2;
  (repeat split; try lia); destruct (N.leb_spec 9 c), (N.leb_spec c 13), (N.eqb_spec c 32); cbn [andb orb]; try reflexivity; lia.
Qed.
Lemma scan_hex_of n h t : hex_of n h -> n < 2147483648 -> scan_hex (h ++ 13 :: t) = Some (Z.of_N n).
Proof.
  intros H Hn. destruct (hex_of_digits n h H) as (H1 & H2 & H3). rewrite scan_def. destruct h as [|c h]; [congruence|]. cbn [forallb] in H1. apply andb_prop in H1. destruct H1 as [Hc Hh].
  destruct (hexadecimal_not c Hc) as (_ & _ & _ & C1 & C2 & _ & _ & C3). cbn [List.app drop_ws]. rewrite C3. cbn [sign_of].
  destruct (N.eqb_spec c 45); [contradiction|]. destruct (N.eqb_spec c 43); [contradiction|].
  assert (Eh : hexes (c :: h ++ 13 :: t) = digits_of uri_hex_to_int (c :: h)).
  { destruct (hexes_cases (c :: h ++ 13 :: t)) as [(d & u & E & Hd & _)|E].
    - exfalso. injection E as _ E. destruct h as [|e h]; [injection E as <- _; destruct Hd; discriminate|].
      injection E as -> _. cbn [forallb] in Hh. apply andb_prop in Hh. destruct Hh as [Hh _]. apply hexadecimal_not in Hh. destruct Hd as [-> | ->]; intuition.
    - rewrite E. change (c :: h ++ 13 :: t) with ((c :: h) ++ 13 :: t). rewrite digits_app by (cbn [forallb]; rewrite Hc; exact Hh). cbn [digits_of]. change (uri_hex_to_int 13) with (@None N). cbv iota. rewrite app_nil_r. reflexivity. }
  rewrite Eh. unfold scanned. rewrite H3. cbn [digits_of] in *. pose proof (hex_int c) as Hi. destruct (uri_hex_to_int c); [|congruence]. cbv zeta.
  destruct (Z.ltb_spec 18446744073709551615 (Z.of_N n)); [lia|]. f_equal. unfold to_int. cbv zeta. rewrite Z.mod_small by lia. destruct (Z.ltb_spec (Z.of_N n) 2147483648); lia.
Qed.
Lemma hex_plain n h : hex_of n h -> ~ In 0 h /\ ~ In 13 h /\ sized h = h.
Proof.
  intro H. destruct (hex_of_digits n h H) as (H1 & _). rewrite forallb_forall in H1.
  assert (X : forall c, In c h -> c <> 0 /\ c <> 13 /\ c <> 59) by (intros c Hc; apply H1, hexadecimal_not in Hc; tauto).
  split; [intro Y; apply X in Y; tauto|]. split; [intro Y; apply X in Y; tauto|]. unfold sized. rewrite cut_none; [reflexivity|]. intro Y; apply X in Y; tauto.
Qed.

Definition total_of (ds : list (list N)) : Z := lenZ (concat ds).
Lemma total_cons d ds : total_of (d :: ds) = (lenZ d + total_of ds)%Z.
Proof. unfold total_of, lenZ. cbn [concat]. rewrite app_length. lia. Qed.

Lemma chunks_read ds t : chunks_text ds t -> forall fuel second lim pre rest total dest, (length ds < fuel)%nat ->
  (lenZ pre + lenZ t <= lim)%Z -> (0 <= total)%Z ->
  (if second : bool then lenZ dest + total_of ds <= total else total + total_of ds < 2147483647)%Z ->
  (total_of ds < 2147483647)%Z ->
  http_chunks fuel second lim (pre ++ t ++ rest) (lenZ pre) total dest =
    Ok (pre ++ t ++ rest, (lenZ pre + lenZ t)%Z, if second then total else (total + total_of ds)%Z, if second then dest ++ concat ds else dest).
Proof.
  intro H. induction H as [|d ds h t Hd Hh Ht IH]; intros fuel second lim pre rest total dest Hf Hl H0 HT HD; (destruct fuel as [|fuel]; [cbn in Hf; lia|]); cbn [http_chunks]; rewrite from_app; cbn [bind].
  - change (find_crlf (([48] ++ crlf) ++ rest)) with (@Ok (option (list N * list N)) (Some ([48], rest))). cbn [bind].
    fold (sized [48]). change (sized [48]) with [48].
    change (scan_hex ([48] ++ [13; 10] ++ rest)) with (Some 0%Z). cbn [Z.eqb].
    f_equal. replace (firstn (Z.to_nat (lenZ pre)) (pre ++ ([48] ++ crlf) ++ rest)) with pre.
    2:{ unfold lenZ. rewrite Nat2Z.id, firstn_app, firstn_all, Nat.sub_diag. cbn. rewrite app_nil_r. reflexivity. }
    cbn [concat]. rewrite app_nil_r. change (total_of []) with 0%Z. rewrite Z.add_0_r. change (lenZ [48]) with 1%Z. change (lenZ ([48] ++ crlf)) with 3%Z.
    rewrite <- Z.add_assoc. destruct second; reflexivity.
  - destruct (hex_plain _ _ Hh) as (P1 & P2 & P3). rewrite total_cons in *.
    assert (D0 : (0 < lenZ d)%Z) by (destruct d; [congruence|unfold lenZ; cbn [length]; lia]).
    assert (T0 : (0 <= total_of ds)%Z) by (unfold total_of, lenZ; lia).
    replace ((h ++ crlf ++ d ++ crlf ++ t) ++ rest) with (h ++ 13 :: 10 :: d ++ crlf ++ t ++ rest) by (rewrite <- !app_assoc; reflexivity).
    rewrite find_at by assumption. cbn [bind]. fold (sized h). rewrite P3.
    assert (Em : firstn (Z.to_nat (lenZ pre)) (pre ++ h ++ 13 :: 10 :: d ++ crlf ++ t ++ rest) ++ h ++ [13; 10] ++ d ++ crlf ++ t ++ rest = pre ++ h ++ 13 :: 10 :: d ++ crlf ++ t ++ rest).
    { replace (firstn (Z.to_nat (lenZ pre)) (pre ++ h ++ 13 :: 10 :: d ++ crlf ++ t ++ rest)) with pre; [reflexivity|].
      unfold lenZ. rewrite Nat2Z.id, firstn_app, firstn_all, Nat.sub_diag. cbn. rewrite app_nil_r. reflexivity. }
    rewrite Em. clear Em. change ([13; 10] ++ d ++ crlf ++ t ++ rest) with (13 :: 10 :: d ++ crlf ++ t ++ rest). rewrite (scan_hex_of (lenN d) h) by (try assumption; unfold lenZ, lenN in *; lia).
    assert (Ez : Z.of_N (lenN d) = lenZ d) by (unfold lenN, lenZ; lia). rewrite Ez.
    destruct (Z.eqb_spec (lenZ d) 0); [lia|].
    set (m := pre ++ h ++ 13 :: 10 :: d ++ crlf ++ t ++ rest).
    assert (Lm : (lenZ m = lenZ pre + lenZ h + 2 + lenZ d + 2 + lenZ t + lenZ rest)%Z).
    { unfold m, lenZ, crlf. repeat (rewrite app_length; cbn [length]). lia. }
    assert (Lt : (lenZ (h ++ crlf ++ d ++ crlf ++ t) = lenZ h + 2 + lenZ d + 2 + lenZ t)%Z).
    { unfold lenZ, crlf. repeat (rewrite app_length; cbn [length]). lia. }
    rewrite Lt in *.
    assert (E1 : from m (lenZ pre + lenZ h + 2 + lenZ d) = Ok (crlf ++ t ++ rest)).
    { replace (lenZ pre + lenZ h + 2 + lenZ d)%Z with (lenZ (pre ++ h ++ 13 :: 10 :: d)) by (unfold lenZ; repeat (rewrite app_length; cbn [length]); lia).
      rewrite <- (from_app (pre ++ h ++ 13 :: 10 :: d)). f_equal. unfold m. rewrite <- !app_assoc. reflexivity. }
    assert (E2 : from m (lenZ pre + lenZ h + 2 + lenZ d + 1) = Ok (10 :: t ++ rest)).
    { replace (lenZ pre + lenZ h + 2 + lenZ d + 1)%Z with (lenZ (pre ++ h ++ 13 :: 10 :: d ++ [13])) by (unfold lenZ; repeat (rewrite app_length; cbn [length]); lia).
      rewrite <- (from_app (pre ++ h ++ 13 :: 10 :: d ++ [13])). f_equal. unfold m. rewrite <- !app_assoc. cbn [List.app]. rewrite <- !app_assoc. reflexivity. }
    assert (E3 : from m (lenZ pre + lenZ h + 2) = Ok (d ++ crlf ++ t ++ rest)).
    { replace (lenZ pre + lenZ h + 2)%Z with (lenZ (pre ++ h ++ [13; 10])) by (unfold lenZ; repeat (rewrite app_length; cbn [length]); lia).
      rewrite <- (from_app (pre ++ h ++ [13; 10])). f_equal. unfold m. rewrite <- !app_assoc. reflexivity. }
    assert (T1 : (if second then Ok total else if ((total + lenZ d <? INT_MIN)%Z || (INT_MAX <? total + lenZ d)%Z) then UB BadArith else Ok (total + lenZ d)%Z)
                 = Ok (if second then total else (total + lenZ d)%Z)).
    { destruct second; [reflexivity|]. unfold INT_MIN, INT_MAX. destruct (Z.ltb_spec (total + lenZ d) (-2147483648)); [lia|]. destruct (Z.ltb_spec 2147483647 (total + lenZ d)); [lia|]. reflexivity. }
    rewrite T1. clear T1. cbn [bind].
    destruct (Z.ltb_spec lim (lenZ pre + lenZ h + 2 + lenZ d + 2)); [unfold lenZ in *; lia|].
    unfold byte_at. rewrite E1. cbn [bind List.app]. change (crlf ++ t ++ rest) with (13 :: 10 :: t ++ rest). cbn [bind]. change (13 =? 13) with true. cbn [negb]. rewrite E2. cbn [bind]. change (10 =? 10) with true. cbn [negb].
    assert (T2 : (if second then
                    if ((lenZ d <? 0)%Z || ((if second then total else (total + lenZ d)%Z) + 1 <? lenZ dest + lenZ d)%Z) then UB OobWrite else
                    let* data := from m (lenZ pre + lenZ h + 2) in Ok (dest ++ firstn (Z.to_nat (lenZ d)) data)
                  else Ok dest) = Ok (if second then dest ++ d else dest)).
    { destruct second; [|reflexivity]. destruct (Z.ltb_spec (lenZ d) 0); [lia|]. destruct (Z.ltb_spec (total + 1) (lenZ dest + lenZ d)); [lia|]. cbn [orb]. rewrite E3. cbn [bind].
      unfold lenZ at 1. rewrite Nat2Z.id, firstn_app, firstn_all, Nat.sub_diag. cbn [firstn]. rewrite app_nil_r. reflexivity. }
    rewrite T2. clear T2. cbn [bind].
    replace (lenZ pre + lenZ h + 2 + lenZ d + 2)%Z with (lenZ (pre ++ h ++ crlf ++ d ++ crlf)) by (unfold lenZ, crlf; repeat (rewrite app_length; cbn [length]); lia).
    assert (Em : m = (pre ++ h ++ crlf ++ d ++ crlf) ++ t ++ rest) by (unfold m; rewrite <- !app_assoc; reflexivity). rewrite Em.
    assert (Lp : (lenZ (pre ++ h ++ crlf ++ d ++ crlf) = lenZ pre + lenZ h + 2 + lenZ d + 2)%Z) by (unfold lenZ, crlf; repeat (rewrite app_length; cbn [length]); lia).
    cbn [length] in Hf. rewrite IH; [|lia|lia|destruct second; lia| |lia].
    + f_equal. rewrite Lp. cbn [concat]. destruct second; [rewrite <- (app_assoc dest)|]; (replace (lenZ pre + (lenZ h + 2 + lenZ d + 2 + lenZ t))%Z with (lenZ pre + lenZ h + 2 + lenZ d + 2 + lenZ t)%Z by lia); [|rewrite Z.add_assoc]; reflexivity.
    + destruct second; [|lia]. unfold lenZ in *. rewrite app_length. lia.
Qed.

Lemma chunks_plain ds t : chunks_text ds t -> ~ In 0 (concat ds) -> ~ In 0 t.
Proof.
  intro H. induction H as [|d ds h t Hd Hh Ht IH]; intro Hn; [cbn; intuition discriminate|]. cbn [concat] in Hn.
  destruct (hex_plain _ _ Hh) as (P1 & _). intro X. repeat (apply in_app_or in X; destruct X as [X|X]).
  - contradiction.
  - cbn in X. intuition discriminate.
  - apply Hn. apply in_or_app. auto.
  - cbn in X. intuition discriminate.
  - apply IH; [|exact X]. intro. apply Hn. apply in_or_app. auto.
Qed.
Lemma headers_plain hs : Forall header_ok hs -> ~ In 0 (headers_text hs).
Proof.
  intro H. induction H as [|h hs (H1 & _ & H3) Hs IH]; [auto|]. change (headers_text (h :: hs)) with (header_text h ++ headers_text hs). unfold header_text.
  intro X. repeat (apply in_app_or in X; destruct X as [X|X]); try contradiction.
  - apply (words_no13 _ H1) in X. contradiction.
  - cbn in X. intuition discriminate.
  - apply (words_no13 _ H3) in X. contradiction.
  - cbn in X. intuition discriminate.
Qed.

Lemma chunked_parse m fuel ds t trailers rest : start_ok m -> Forall header_ok (hm_headers m) -> is_chunked (hm_headers m) -> Forall header_ok trailers ->
  chunks_text ds t -> ~ In 0 (concat ds) -> lenN (concat ds) < 2147483647 -> (length ds < fuel)%nat ->
  http_msg_parse fuel (head_text m ++ t ++ headers_text trailers ++ crlf ++ rest) =
    Ok (mkhmsg (hm_start m) (hm_headers m ++ trailers) (Some (concat ds)), lenZ (head_text m ++ t ++ headers_text trailers ++ crlf)).
Proof.
  intros Hs Hh Hc Htr Ht Hn Hl Hf. destruct (head_parse m fuel (t ++ headers_text trailers ++ crlf ++ rest) Hs Hh) as (mem1 & mem2 & L & E). rewrite E. clear E.
  unfold http_parse_body. rewrite <- L. rewrite (app_assoc mem1 mem2), from_app. cbn [bind].
  destruct (cstr_prefix (t ++ headers_text trailers ++ crlf) rest) as [u Eu].
  { intro X. repeat (apply in_app_or in X; destruct X as [X|X]); [apply (chunks_plain _ _ Ht Hn X)|apply (headers_plain _ Htr X)|cbn in X; intuition discriminate]. }
  replace ((t ++ headers_text trailers ++ crlf ++ rest) ++ [0]) with ((t ++ headers_text trailers ++ crlf) ++ rest ++ [0]) by (rewrite <- !app_assoc; reflexivity).
  rewrite Eu. cbn [bind]. pose proof (framing_yes _ Hc) as Fc. destruct (http_framing (hm_headers m)) as [c cl]. cbn [fst] in Fc. subst c.
  set (lim := (lenZ (mem1 ++ mem2) + lenZ ((t ++ headers_text trailers ++ crlf) ++ u))%Z).
  assert (Hlim : (lenZ (mem1 ++ mem2) + lenZ t <= lim)%Z) by (unfold lim, lenZ; rewrite !app_length; lia). clearbody lim.
  assert (HT : (0 <= total_of ds < 2147483647)%Z) by (unfold total_of, lenZ; unfold lenN in Hl; lia).
  replace ((t ++ headers_text trailers ++ crlf) ++ rest ++ [0]) with (t ++ headers_text trailers ++ crlf ++ rest ++ [0]) by (rewrite <- !app_assoc; reflexivity).
  rewrite (chunks_read ds t Ht); [|assumption|assumption|lia|lia|lia]. cbn [bind]. rewrite Z.add_0_l. unfold INT_MAX.
  destruct (Z.eqb_spec (total_of ds) 2147483647); [lia|]. destruct (Z.ltb_spec (total_of ds + 1) 0); [lia|]. destruct (Z.ltb_spec (total_of ds) 0); [lia|].
  rewrite (chunks_read ds t Ht); [|assumption|assumption|lia|change (lenZ (@nil N)) with 0%Z; lia|lia]. cbn [bind List.app]. fold (total_of ds). rewrite Z.eqb_refl. cbn [negb].
  replace (lenZ (mem1 ++ mem2) + lenZ t)%Z with (lenZ ((mem1 ++ mem2) ++ t)) by (unfold lenZ; rewrite !app_length; lia).
  rewrite (app_assoc (mem1 ++ mem2) t), from_app. cbn [bind].
  destruct (headers_parse trailers (rest ++ [0]) Htr (S (length (headers_text trailers ++ crlf ++ rest ++ [0])))) as (mem3 & E3 & L3).
  { rewrite app_length. enough (length trailers <= length (headers_text trailers))%nat by lia. clear. induction trailers as [|h hs IH]; [cbn; lia|].
    change (headers_text (h :: hs)) with (header_text h ++ headers_text hs). unfold header_text. rewrite !app_length. cbn [length]. lia. }
  rewrite E3. cbn [bind]. f_equal. f_equal. unfold lenZ in *. rewrite !app_length in *. lia.
Qed.

Lemma hex_of_unique n h : hex_of n h -> forall h', hex_of n h' -> h = h'.
Proof.
  intro H. induction H as [d Hd|n s d Hn Hd H IH]; intros h' H'.
  - inversion H' as [d' Hd' E1 E2|n' s' d' Hn' Hd' Hs' E1 E2]; subst; [reflexivity|lia].
  - inversion H' as [d' Hd' E1 E2|n' s' d' Hn' Hd' Hs' E1 E2]; subst; [lia|].
    assert (n' = n) by lia. assert (d' = d) by lia. subst. rewrite (IH s' Hs'). reflexivity.
Qed.
Lemma chunk_written out len data h : hex_of (lenN data) h -> lenN h + 2 < len -> len <= lenN out -> lenN out < two64 ->
  lenN (h ++ crlf ++ data ++ crlf) < two64 ->
  http_msg_generate_chunk out len data = Ok (written len (h ++ crlf ++ data ++ crlf) (skipn (N.to_nat len) out), lenN (h ++ crlf ++ data ++ crlf)).
Proof.
  intros H. assert (Hd : lenN (h ++ crlf ++ data ++ crlf) < two64 -> lenN data < two64) by (unfold lenN; rewrite !app_length; lia).
  intros H1 H2 H3 H4. pose proof (hex_of_unique _ _ H _ (hex_text_of _ (Hd H4))) as E. rewrite E in H1, H4 |- *. apply chunk_generated; assumption.
Qed.

(** ** A chunk of size -6 is 6 bytes long *)
Definition te_header : list N := transfer_encoding ++ [58; 32] ++ chunked ++ crlf.
Definition loop_msg : list N := [97; 32; 98; 32; 99] ++ crlf ++ te_header ++ crlf ++ [45; 54] ++ crlf.
Definition loop_mem : list N :=
  Eval vm_compute in [97; 0; 98; 0; 99; 0; 0] ++ s_transfer_encoding ++ [0; 0] ++ s_chunked ++ [0; 0] ++ crlf ++ [45; 54] ++ crlf ++ [0].
Lemma loop_step fuel total : http_chunks (S fuel) false 41 loop_mem 37 total [] =
  if ((total + -6 <? INT_MIN)%Z || (INT_MAX <? total + -6)%Z) then UB BadArith else http_chunks fuel false 41 loop_mem 37 (total + -6) [].
Proof.
  cbn [http_chunks]. assert (E : from loop_mem 37 = Ok ([45; 54] ++ crlf ++ [0])) by (vm_compute; reflexivity).
  rewrite E. cbn [bind].
  change (find_crlf ([45; 54] ++ crlf ++ [0])) with (@Ok (option (list N * list N)) (Some ([45; 54], [0]))). cbn [bind].
  change (str_cut 59 [45; 54]) with (@None (list N * list N)). cbv iota.
  change (scan_hex ([45; 54] ++ [13; 10] ++ [0])) with (Some (-6)%Z). cbv iota.
  change ((-6 =? 0)%Z) with false. cbv iota.
  destruct (_ || _); [reflexivity|]. cbn [bind].
  change (firstn (Z.to_nat 37) loop_mem ++ [45; 54] ++ [13; 10] ++ [0]) with loop_mem.
  reflexivity.
Qed.
Lemma loop_parse fuel : http_msg_parse fuel loop_msg =
  bind (bind (http_chunks fuel false 41 loop_mem 37 0 []) (fun r => let '(m, next, total, dest) := r in
    if (total =? INT_MAX)%Z then UB BadArith else
    if (total + 1 <? 0)%Z then Err ENOMEM else
    if (total <? 0)%Z then UB OobWrite else
    let* (m, next, total, dest) := http_chunks fuel true 41 m 37 total [] in
    if negb (lenZ dest =? total)%Z then UB Uninit else
    let* t := from m next in
    let* (trailers, mem, rest) := http_parse_headers (S (length t)) t in
    Ok (trailers, Some dest, (next + lenZ mem - 37)%Z))) (fun r => let '(ts, body, num) := r in
    Ok (mkhmsg ([97], [98], [99]) ([(transfer_encoding, chunked)] ++ ts) body, (37 + num)%Z)).
Proof.
  unfold http_msg_parse.
  change (http_parse_start (loop_msg ++ [0])) with (@Ok (list N * list N * list N * list N * list N) ([97], [98], [99], [97; 0; 98; 0; 99; 0; 0], te_header ++ crlf ++ [45; 54] ++ crlf ++ [0])).
  cbn [bind].
  assert (E : http_parse_headers (S (length (te_header ++ crlf ++ [45; 54] ++ crlf ++ [0]))) (te_header ++ crlf ++ [45; 54] ++ crlf ++ [0]) =
    Ok ([(transfer_encoding, chunked)], s_transfer_encoding ++ [0; 0] ++ s_chunked ++ [0; 0] ++ crlf, [45; 54] ++ crlf ++ [0])) by (vm_compute; reflexivity).
  rewrite E. cbn [bind].
  change ([97; 0; 98; 0; 99; 0; 0] ++ (s_transfer_encoding ++ [0; 0] ++ s_chunked ++ [0; 0] ++ crlf) ++ [45; 54] ++ crlf ++ [0]) with loop_mem.
  change (lenZ ([97; 0; 98; 0; 99; 0; 0] ++ s_transfer_encoding ++ [0; 0] ++ s_chunked ++ [0; 0] ++ crlf)) with 37%Z.
  unfold http_parse_body. assert (E2 : from loop_mem 37 = Ok ([45; 54] ++ crlf ++ [0])) by (vm_compute; reflexivity). rewrite E2. cbn [bind].
  change (cstr ([45; 54] ++ crlf ++ [0])) with (@Ok (list N) [45; 54; 13; 10]). cbn [bind].
  assert (E3 : http_framing [(transfer_encoding, chunked)] = (true, 0)) by (vm_compute; reflexivity). rewrite E3.
  change (37 + lenZ [45; 54; 13; 10])%Z with 41%Z. reflexivity.
Qed.
Lemma loop_rounds k : forall total, (-2147483648 <= total - 6 * Z.of_nat k)%Z -> (total <= 0)%Z -> forall fuel,
  http_chunks (k + fuel) false 41 loop_mem 37 total [] = http_chunks fuel false 41 loop_mem 37 (total - 6 * Z.of_nat k) [].
Proof.
  induction k as [|k IH]; intros total H1 H2 fuel; [cbn [Nat.add]; f_equal; lia|]. cbn [Nat.add]. rewrite loop_step. unfold INT_MIN, INT_MAX.
  destruct (Z.ltb_spec (total + -6) (-2147483648)); [lia|]. destruct (Z.ltb_spec 2147483647 (total + -6)); [lia|]. cbn [orb].
  rewrite IH by lia. f_equal. lia.
Qed.
Lemma loop_never fuel : (N.of_nat fuel <= 357913941 -> http_msg_parse fuel loop_msg = OutOfFuel) /\ (357913941 < N.of_nat fuel -> http_msg_parse fuel loop_msg = UB BadArith).
Proof.
  rewrite loop_parse. split; intro H.
  - replace fuel with (fuel + 0)%nat at 1 by lia. rewrite loop_rounds by lia. reflexivity.
  - set (k := N.to_nat 357913941). replace fuel with (k + S (fuel - k - 1))%nat at 1 by (unfold k; lia).
    rewrite loop_rounds by (unfold k; lia). rewrite loop_step. unfold INT_MIN, INT_MAX.
    destruct (Z.ltb_spec (0 - 6 * Z.of_nat k + -6) (-2147483648)) as [|X]; [reflexivity|]. exfalso. unfold k in X. lia.
Qed.

(** ** Checks for the examples *)
Fixpoint eight_free (s : list N) : bool :=
  match s with [] => true | _ :: t => negb ((8 <=? length s)%nat && forallb hexadecimal (firstn 8 s)) && eight_free t end.
Lemma eight_free_ok s a ds t : eight_free s = true -> s = a ++ ds ++ t -> length ds = 8%nat -> forallb hexadecimal ds = true -> False.
Proof.
  revert s. induction a as [|c a IH]; intros s H E Hl Hh; subst s; cbn [List.app] in H.
  - destruct ds as [|d ds]; [discriminate|]. cbn [List.app] in H. unfold eight_free in H; fold eight_free in H. apply andb_prop in H. destruct H as [H _].
    change (d :: ds ++ t) with ((d :: ds) ++ t) in H. rewrite firstn_app in H. rewrite Hl in H. rewrite (firstn_all2 (d :: ds)) in H by lia. cbn [firstn Nat.sub] in H. rewrite app_nil_r, Hh in H.
    replace (8 <=? length ((d :: ds) ++ t))%nat with true in H by (symmetry; apply Nat.leb_le; rewrite app_length; lia). discriminate.
  - cbn [eight_free] in H. apply andb_prop in H. destruct H as [_ H]. exact (IH _ H eq_refl Hl Hh).
Qed.
Definition calmb (s : list N) : bool := negb (existsb (N.eqb 45) s) && eight_free s.
Lemma calmb_ok s : calmb s = true -> calm s.
Proof.
  intros H x y E _ W. unfold calmb in H. apply andb_prop in H. destruct H as [H1 H2]. apply negb_true_iff in H1. apply existsb_neq in H1.
  destruct W as [w t Hw|w sign prefix ds t Hw Hs Hp Hd Hx].
  - apply H1. rewrite E. apply in_or_app. right. apply in_or_app. right. left. reflexivity.
  - apply (eight_free_ok s (x ++ w ++ sign ++ prefix) ds t H2); [rewrite E, <- !app_assoc; reflexivity|exact Hd|exact Hx].
Qed.
Definition calm_bodyb (s : list N) : bool :=
  forallb (fun i => negb (if list_eq_dec N.eq_dec (firstn 4 (skipn i s)) [13; 10; 13; 10] then true else false) || calmb (skipn (i + 4) s)) (seq 0 (length s)).
Lemma calm_bodyb_ok s : calm_bodyb s = true -> calm_body s.
Proof.
  intros H h b E. unfold calm_bodyb in H. rewrite forallb_forall in H.
  assert (Hi : In (length h) (seq 0 (length s))) by (apply in_seq; rewrite E, app_length; cbn [length List.app crlf]; lia).
  specialize (H _ Hi). assert (E1 : skipn (length h) s = [13; 10; 13; 10] ++ b) by (rewrite E, skipn_app, skipn_all, Nat.sub_diag; reflexivity).
  replace (length h + 4)%nat with (4 + length h)%nat in H by lia. rewrite <- skipn_skipn, E1 in H. cbn [firstn List.app skipn] in H. destruct (list_eq_dec _ _ _) in H; [|congruence]. apply calmb_ok. exact H.
Qed.
Definition never_chunkedb (s : list N) : bool := forallb (fun i => negb (same_word (firstn 7 (skipn i s)) chunked)) (seq 0 (S (length s))).
Lemma never_chunkedb_ok s : never_chunkedb s = true -> never_chunked s.
Proof.
  intros H a b c E Hb. unfold never_chunkedb in H. rewrite forallb_forall in H.
  assert (Hi : In (length a) (seq 0 (S (length s)))) by (apply in_seq; rewrite E, app_length; lia). specialize (H _ Hi).
  assert (Hl : length b = 7%nat) by (unfold same_name in Hb; apply (f_equal (@length N)) in Hb; rewrite !map_length in Hb; exact Hb).
  rewrite E, skipn_app, skipn_all, Nat.sub_diag in H. cbn [skipn List.app] in H. rewrite firstn_app, Hl, firstn_all2 in H by lia. cbn [Nat.sub firstn] in H. rewrite app_nil_r in H.
  apply same_word_spec in Hb. rewrite Hb in H. discriminate.
Qed.
