(** Lemmas on URIs. *)
From Verif Require Import Base BaseLemmas BufModel BufSpec BufLemmas UriModel UriSpec.

(** ** Characters *)

Definition all_bytes : list N := map N.of_nat (seq 0 256).
Lemma byte_in c : c < 256 -> In c all_bytes.
Proof. intro H. unfold all_bytes. apply in_map_iff. exists (N.to_nat c). split; [lia|]. apply in_seq. lia. Qed.
Lemma by_bytes (P : N -> bool) : forallb P all_bytes = true -> forall c, c < 256 -> P c = true.
Proof. intros H c Hc. rewrite forallb_forall in H. apply H. apply byte_in. exact Hc. Qed.

Lemma allowed_plain c : c < 256 -> uri_is_allowed c = existsb (N.eqb c) plain_chars.
Proof.
  intro H. apply eqb_prop.
  apply (by_bytes (fun c => Bool.eqb (uri_is_allowed c) (existsb (N.eqb c) plain_chars))); [vm_compute; reflexivity|exact H].
Qed.
Lemma octet_pct c : c < 256 ->
  uri_encode_octet c = [37; nth (N.to_nat (c / 16)) hex_digits 0; nth (N.to_nat (c mod 16)) hex_digits 0].
Proof.
  intro H.
  assert (E : forall c, c < 256 -> (fun c => if list_eq_dec N.eq_dec (uri_encode_octet c)
     [37; nth (N.to_nat (c / 16)) hex_digits 0; nth (N.to_nat (c mod 16)) hex_digits 0] then true else false) c = true).
  { apply by_bytes. vm_compute. reflexivity. }
  specialize (E c H). cbv beta in E. destruct (list_eq_dec _ _ _); [assumption|discriminate].
Qed.
Lemma keeps_exc c exc : c < 256 -> uri_is_allowed c || in_str c exc = existsb (N.eqb c) (plain_chars ++ exc).
Proof. intro H. rewrite allowed_plain by exact H. unfold in_str. rewrite existsb_app. reflexivity. Qed.

Lemma existsb_eq c l : existsb (N.eqb c) l = true <-> In c l.
Proof.
  rewrite existsb_exists. split.
  - intros (x & H1 & H2). apply N.eqb_eq in H2. subst. assumption.
  - intro H. exists c. split; [assumption|apply N.eqb_refl].
Qed.
Lemma existsb_neq c l : existsb (N.eqb c) l = false <-> ~ In c l.
Proof. rewrite <- existsb_eq. destruct (existsb (N.eqb c) l); split; intro; congruence. Qed.

(** The characters of an encoded string. *)
Lemma hex_plain v : v < 16 -> In (nth (N.to_nat v) hex_digits 0) plain_chars.
Proof.
  intro H. assert (F : forallb (fun c => existsb (N.eqb c) plain_chars) hex_digits = true) by (vm_compute; reflexivity).
  rewrite forallb_forall in F. apply existsb_eq. apply F. apply nth_In. cbn [length hex_digits]. lia.
Qed.
Lemma pct_chars exc s c : bytes_ok s -> In c (pct exc s) -> c = 37 \/ In c plain_chars \/ (In c s /\ In c exc).
Proof.
  intros Hs H. unfold pct in H. apply in_flat_map in H. destruct H as (x & Hx & H). unfold pct1 in H.
  assert (Hxb : x < 256) by (unfold bytes_ok in Hs; rewrite Forall_forall in Hs; apply Hs; exact Hx).
  destruct (existsb (N.eqb x) (plain_chars ++ exc)) eqn:E.
  - destruct H as [<-|[]]. apply existsb_eq in E. apply in_app_or in E. tauto.
  - destruct H as [<-|[<-|[<-|[]]]]; [left; reflexivity| |]; right; left; apply hex_plain; lia.
Qed.
Lemma pct_notin exc s c : bytes_ok s -> c <> 37 -> existsb (N.eqb c) plain_chars = false -> ~ (In c s /\ In c exc) -> ~ In c (pct exc s).
Proof.
  intros Hs H1 H2 H3 H. apply pct_chars in H; [|exact Hs]. destruct H as [H|[H|H]]; [contradiction| |contradiction].
  apply existsb_eq in H. congruence.
Qed.

(** ** Decoding *)

Lemma hex_ok c v : hex_value c v -> uri_hex_to_int c = Some v.
Proof.
  intros [Hv H].
  assert (F : forall c, c < 16 -> (fun v => match uri_hex_to_int (nth (N.to_nat v) hex_digits 0) with Some w => v =? w | None => false end &&
      (if 10 <=? v then match uri_hex_to_int (97 + (v - 10)) with Some w => v =? w | None => false end else true)) c = true).
  { intros w Hw. assert (G : forallb (fun v => match uri_hex_to_int (nth (N.to_nat v) hex_digits 0) with Some w => v =? w | None => false end &&
      (if 10 <=? v then match uri_hex_to_int (97 + (v - 10)) with Some w => v =? w | None => false end else true)) (map N.of_nat (seq 0 16)) = true) by (vm_compute; reflexivity).
    rewrite forallb_forall in G. apply G. apply in_map_iff. exists (N.to_nat w). split; [lia|]. apply in_seq. lia. }
  specialize (F v Hv). cbv beta in F. apply andb_true_iff in F. destruct F as [F1 F2].
  destruct H as [->|[H ->]].
  - destruct (uri_hex_to_int _); [|discriminate]. apply N.eqb_eq in F1. congruence.
  - destruct (N.leb_spec 10 v); [|lia]. destruct (uri_hex_to_int (97 + (v - 10))); [|discriminate]. apply N.eqb_eq in F2. congruence.
Qed.
Lemma lor_hex h l : h < 16 -> l < 16 -> N.lor (N.shiftl h 4) l = 16 * h + l.
Proof.
  intros Hh Hl.
  assert (F : forallb (fun c => N.lor (N.shiftl (c / 16) 4) (c mod 16) =? c) all_bytes = true) by (vm_compute; reflexivity).
  pose proof (by_bytes _ F (16 * h + l) ltac:(lia)) as E. cbv beta in E. apply N.eqb_eq in E.
  replace ((16 * h + l) / 16) with h in E by lia. replace ((16 * h + l) mod 16) with l in E by lia. exact E.
Qed.

Lemma store_mid a y b x : store (a ++ y :: b) (lenN a) x = Ok (a ++ x :: b).
Proof.
  rewrite store_ok by (rewrite lenN_app, lenN_cons; lia). rewrite lenN_to_nat. f_equal.
  rewrite firstn_app, Nat.sub_diag, firstn_all. cbn [firstn]. rewrite app_nil_r. f_equal. f_equal.
  rewrite skipn_app, skipn_all2 by lia. replace (S (length a) - length a)%nat with 1%nat by lia. reflexivity.
Qed.

Lemma decode_len raw s : decodes raw s -> lenN s <= lenN raw.
Proof. intro H. induction H; rewrite ?lenN_cons in *; lia. Qed.

Lemma decode_ok sg raw s : decodes raw s -> forall fuel pre m rest dlen,
  (length raw <= fuel)%nat -> lenN pre + N.of_nat m = dlen -> dlen < two64 -> lenN s < N.of_nat m ->
  uri_decode_from fuel sg (pre ++ repeat 0 m ++ rest) raw (lenN pre) dlen =
    Ok (pre ++ s ++ repeat 0 (m - length s) ++ rest, lenN pre + lenN s).
Proof.
  assert (St : forall pre m rest dlen c, lenN pre + N.of_nat (S m) = dlen -> dlen < two64 -> (0 < m)%nat ->
    (if add64 (lenN pre) 1 <? dlen then store (pre ++ repeat 0 (S m) ++ rest) (lenN pre) c else Ok (pre ++ repeat 0 (S m) ++ rest)) =
      Ok ((pre ++ [c]) ++ repeat 0 m ++ rest) /\ add64 (lenN pre) 1 = lenN (pre ++ [c])).
  { intros pre m rest dlen c H1 H2 H3. rewrite add64_ok by lia. rewrite lenN_app. change (lenN [c]) with 1. split; [|reflexivity].
    destruct (N.ltb_spec (lenN pre + 1) dlen); [|lia]. cbn [repeat List.app]. rewrite store_mid, <- app_assoc. reflexivity. }
  intro H. induction H as [|c raw s Hc Hb H IH|a b h l raw s Ha Hb H IH]; intros fuel pre m rest dlen Hf Hd1 Hd2 Hs.
  - destruct fuel; cbn [uri_decode_from List.app length]; rewrite Nat.sub_0_r, (@lenN_nil N), N.add_0_r; reflexivity.
  - destruct fuel as [|fuel]; [cbn in Hf; lia|]. cbn [uri_decode_from uri_decode_octet].
    destruct (N.eqb_spec c 37) as [|_]; [contradiction|].
    assert (Ec : match sg with SignedChar => if c =? 255 then None else Some c | UnsignedChar => Some c end = Some c).
    { destruct sg; [|reflexivity]. destruct (N.eqb_spec c 255); [lia|reflexivity]. }
    rewrite Ec. destruct m as [|m]; [lia|]. rewrite lenN_cons in Hs.
    destruct (St pre m rest dlen c Hd1 Hd2 ltac:(lia)) as [E1 E2]. rewrite E1. cbn [bind]. rewrite E2.
    rewrite IH; [| cbn in Hf; lia| rewrite lenN_app; change (lenN [c]) with 1; lia|assumption|lia].
    cbn [length]. rewrite Nat.sub_succ, !lenN_app. change (lenN [c]) with 1. rewrite lenN_cons. rewrite <- !app_assoc. cbn [List.app].
    rewrite <- N.add_assoc, (N.add_comm 1). reflexivity.
  - destruct fuel as [|fuel]; [cbn in Hf; lia|]. cbn [uri_decode_from uri_decode_octet].
    change (37 =? 37) with true. cbv iota. cbn [firstn skipn List.app nth]. unfold uri_2_hex_to_int.
    rewrite (hex_ok a h Ha), (hex_ok b l Hb). rewrite lor_hex by (destruct Ha, Hb; assumption).
    destruct m as [|m]; [lia|]. rewrite lenN_cons in Hs. set (c := 16 * h + l) in *.
    destruct (St pre m rest dlen c Hd1 Hd2 ltac:(lia)) as [E1 E2]. rewrite E1. cbn [bind]. rewrite E2.
    rewrite IH; [| cbn in Hf; lia| rewrite lenN_app; change (lenN [c]) with 1; lia|assumption|lia].
    cbn [length]. rewrite Nat.sub_succ, !lenN_app. change (lenN [c]) with 1. rewrite lenN_cons. rewrite <- !app_assoc. cbn [List.app].
    rewrite <- N.add_assoc, (N.add_comm 1). reflexivity.
Qed.

Lemma cstr_ok s rest : ~ In 0 s -> cstr (s ++ 0 :: rest) = Ok s.
Proof.
  induction s as [|c s IH]; intro H; cbn; [reflexivity|].
  destruct (N.eqb_spec c 0) as [->|]; [exfalso; apply H; left; reflexivity|].
  rewrite IH by (intro; apply H; right; assumption). reflexivity.
Qed.

Lemma component_ok sg raw s : decodes raw s -> ~ In 0 s -> lenN raw + 1 < two64 -> uri_component sg true raw = Ok s.
Proof.
  intros H H0 Hl. unfold uri_component. cbn [negb]. rewrite add64_ok by lia. unfold uri_decode_str.
  pose proof (decode_len _ _ H) as Hs.
  pose proof (decode_ok sg raw s H (length raw) [] (N.to_nat (lenN raw + 1)) [] (lenN raw + 1)) as D.
  cbn [List.app] in D. rewrite !app_nil_r, (@lenN_nil N) in D. rewrite D by lia. cbn [bind].
  destruct (N.leb_spec (lenN raw + 1) (0 + lenN s)); [lia|].
  destruct (N.to_nat (lenN raw + 1) - length s)%nat as [|m] eqn:Em; [unfold lenN in *; lia|]. cbn [repeat]. apply cstr_ok. exact H0.
Qed.
Lemma component_path_ok sg raw s : decodes raw s -> ~ In 0 s -> lenN raw + 1 < two64 -> uri_component_path sg true raw = Ok (47 :: s).
Proof.
  intros H H0 Hl. unfold uri_component_path. cbn [negb]. rewrite add64_ok by lia. unfold uri_decode_str.
  pose proof (decode_len _ _ H) as Hs.
  pose proof (decode_ok sg raw s H (length raw) [] (N.to_nat (lenN raw + 1)) [] (lenN raw + 1)) as D.
  cbn [List.app] in D. rewrite !app_nil_r, (@lenN_nil N) in D. rewrite D by lia. cbn [bind].
  destruct (N.leb_spec (lenN raw + 1) (0 + lenN s)); [lia|].
  destruct (N.to_nat (lenN raw + 1) - length s)%nat as [|m] eqn:Em; [unfold lenN in *; lia|]. cbn [repeat].
  change (47 :: s ++ 0 :: repeat 0 m) with ((47 :: s) ++ 0 :: repeat 0 m). apply cstr_ok. intros [E|E]; [discriminate|contradiction].
Qed.

(** An encoded string decodes to the string. *)
Lemma decodes_app a s b t : decodes a s -> decodes b t -> decodes (a ++ b) (s ++ t).
Proof. intros H1 H2. induction H1; cbn [List.app]; [exact H2| |]; constructor; auto. Qed.
Lemma pct_decodes exc s : bytes_ok s -> In exc exceptions -> decodes (pct exc s) s.
Proof.
  intros Hs He. induction Hs as [|c s Hc Hs IH]; [constructor|].
  change (pct exc (c :: s)) with (pct1 exc c ++ pct exc s). change (c :: s) with ([c] ++ s). apply decodes_app; [|exact IH].
  unfold pct1. destruct (existsb (N.eqb c) (plain_chars ++ exc)) eqn:E.
  - assert (F : forallb (fun exc => forallb (fun c => negb (existsb (N.eqb c) (plain_chars ++ exc)) || (negb (c =? 37) && (c <? 255))) all_bytes) exceptions = true)
      by (vm_compute; reflexivity).
    rewrite forallb_forall in F. specialize (F exc He). pose proof (by_bytes _ F c Hc) as G. cbv beta in G. rewrite E in G. cbn [negb orb] in G.
    apply andb_true_iff in G. destruct G as [G1 G2]. apply negb_true_iff, N.eqb_neq in G1. apply N.ltb_lt in G2.
    constructor; [assumption|assumption|constructor].
  - assert (Ec : c = 16 * (c / 16) + c mod 16) by lia. rewrite Ec at 3.
    constructor; [| |constructor]; split; [unfold byte_ok in *; lia|left; reflexivity|lia|left; reflexivity].
Qed.

(** ** Generating *)

(** After writing the text [t]: as much of it as fits, leaving at least one NUL. *)
Definition wrote (len : N) (rest t : list N) (b : list N * N) : Prop :=
  snd b = lenN t /\ exists k, (k <= length t)%nat /\ (N.of_nat k < len \/ len = 0 /\ k = 0%nat) /\ (lenN t < len -> k = length t) /\
    fst b = firstn k t ++ repeat 0 (N.to_nat len - k) ++ rest.

Lemma repeat_split n m : (m <= n)%nat -> repeat 0 n = repeat 0 m ++ repeat 0 (n - m).
Proof. intro H. rewrite <- repeat_app. f_equal. lia. Qed.

Lemma wrote_one len rest t b c : wrote len rest t b -> lenN t + 1 < two64 -> len < two64 ->
  exists d, (if add64 (snd b) 1 <? len then store (fst b) (snd b) c else Ok (fst b)) = Ok d /\ wrote len rest (t ++ [c]) (d, add64 (snd b) 1).
Proof.
  destruct b as [d n]. intros (Hn & k & Hk1 & Hk2 & Hk3 & Hd) Ht Hlen. cbn [fst snd] in *. subst n. rewrite add64_ok by lia.
  destruct (N.ltb_spec (lenN t + 1) len) as [Hlt|Hge].
  - rewrite (Hk3 ltac:(lia)) in Hd. rewrite firstn_all in Hd.
    destruct (N.to_nat len - length t)%nat as [|m] eqn:Em; [unfold lenN in *; lia|]. cbn [repeat List.app] in Hd. subst d.
    rewrite store_mid. eexists. split; [reflexivity|]. split; [cbn [snd]; rewrite lenN_app; reflexivity|].
    exists (length (t ++ [c])). cbn [fst]. rewrite firstn_all, app_length. cbn [length].
    split; [lia|]. split; [unfold lenN in *; lia|]. split; [reflexivity|]. rewrite <- app_assoc. cbn [List.app].
    replace (N.to_nat len - (length t + 1))%nat with m by lia. reflexivity.
  - eexists. split; [reflexivity|]. split; [cbn [snd]; rewrite lenN_app; reflexivity|].
    exists k. cbn [fst]. rewrite app_length. split; [lia|]. split; [assumption|]. rewrite lenN_app. change (lenN [c]) with 1. split; [lia|].
    rewrite firstn_app. replace (k - length t)%nat with 0%nat by lia. cbn [firstn]. rewrite app_nil_r. exact Hd.
Qed.

Lemma wrote_three len rest t b x y z : wrote len rest t b -> lenN t + 3 < two64 -> len < two64 ->
  exists d, (if add64 (snd b) 3 <? len then
      let* d := store (fst b) (snd b) x in let* d := store d (snd b + 1) y in store d (snd b + 2) z else Ok (fst b)) = Ok d /\
    wrote len rest (t ++ [x; y; z]) (d, add64 (snd b) 3).
Proof.
  destruct b as [d n]. intros (Hn & k & Hk1 & Hk2 & Hk3 & Hd) Ht Hlen. cbn [fst snd] in *. subst n. rewrite add64_ok by lia.
  destruct (N.ltb_spec (lenN t + 3) len) as [Hlt|Hge].
  - rewrite (Hk3 ltac:(lia)) in Hd. rewrite firstn_all in Hd.
    destruct (N.to_nat len - length t)%nat as [|[|[|m]]] eqn:Em; try (unfold lenN in *; lia). cbn [repeat List.app] in Hd. subst d.
    rewrite store_mid. cbn [bind].
    change (t ++ x :: 0 :: 0 :: repeat 0 m ++ rest) with (t ++ [x] ++ 0 :: 0 :: repeat 0 m ++ rest). rewrite app_assoc.
    replace (lenN t + 1) with (lenN (t ++ [x])) by (rewrite lenN_app; reflexivity). rewrite store_mid. cbn [bind].
    change ((t ++ [x]) ++ y :: 0 :: repeat 0 m ++ rest) with ((t ++ [x]) ++ [y] ++ 0 :: repeat 0 m ++ rest). rewrite (app_assoc _ [y]).
    replace (lenN t + 2) with (lenN ((t ++ [x]) ++ [y])) by (rewrite !lenN_app; change (lenN [x]) with 1; change (lenN [y]) with 1; lia).
    rewrite store_mid. eexists. split; [reflexivity|]. split; [cbn [snd]; rewrite lenN_app; reflexivity|].
    exists (length (t ++ [x; y; z])). cbn [fst]. rewrite firstn_all, app_length. cbn [length].
    split; [lia|]. split; [unfold lenN in *; lia|]. split; [reflexivity|]. rewrite <- !app_assoc. cbn [List.app].
    replace (N.to_nat len - (length t + 3))%nat with m by lia. reflexivity.
  - eexists. split; [reflexivity|]. split; [cbn [snd]; rewrite lenN_app; reflexivity|].
    exists k. cbn [fst]. rewrite app_length. split; [lia|]. split; [assumption|]. rewrite lenN_app. change (lenN [x; y; z]) with 3. split; [lia|].
    rewrite firstn_app. replace (k - length t)%nat with 0%nat by lia. cbn [firstn]. rewrite app_nil_r. exact Hd.
Qed.

Lemma copy_str_ok len rest s : len < two64 -> forall t b, wrote len rest t b -> lenN t + lenN s < two64 ->
  exists b', uri_copy_str (fst b) s (snd b) len = Ok b' /\ wrote len rest (t ++ s) b'.
Proof.
  intro Hlen. induction s as [|c s IH]; intros t b Hb Ht.
  - exists b. rewrite app_nil_r. destruct b. auto.
  - rewrite lenN_cons in Ht. destruct (wrote_one len rest t b c Hb) as (d & E & Hd); [lia|assumption|].
    cbn [uri_copy_str]. rewrite E. cbn [bind].
    destruct (IH (t ++ [c]) (d, add64 (snd b) 1) Hd) as (b' & E' & Hb'); [rewrite lenN_app; change (lenN [c]) with 1; lia|].
    exists b'. rewrite <- app_assoc in Hb'. split; [exact E'|exact Hb'].
Qed.
Lemma encode_str_ok len rest exc s : len < two64 -> bytes_ok s -> forall t b, wrote len rest t b -> lenN t + lenN (pct exc s) < two64 ->
  exists b', uri_encode_str (fst b) s (snd b) len exc = Ok b' /\ wrote len rest (t ++ pct exc s) b'.
Proof.
  intros Hlen Hs. induction Hs as [|c s Hc Hs IH]; intros t b Hb Ht.
  - exists b. cbn [pct flat_map]. rewrite app_nil_r. destruct b. auto.
  - change (pct exc (c :: s)) with (pct1 exc c ++ pct exc s) in *. rewrite lenN_app in Ht.
    cbn [uri_encode_str]. rewrite keeps_exc by exact Hc. unfold pct1 in *. destruct (existsb (N.eqb c) (plain_chars ++ exc)) eqn:E.
    + change (lenN [c]) with 1 in Ht. destruct (wrote_one len rest t b c Hb) as (d & E1 & Hd); [lia|assumption|].
      rewrite E1. cbn [bind].
      destruct (IH (t ++ [c]) (d, add64 (snd b) 1) Hd) as (b' & E' & Hb'); [rewrite lenN_app; change (lenN [c]) with 1; lia|].
      exists b'. rewrite <- app_assoc in Hb'. split; [exact E'|exact Hb'].
    + rewrite octet_pct by exact Hc. cbn [nth].
      set (x := nth (N.to_nat (c / 16)) hex_digits 0) in *. set (y := nth (N.to_nat (c mod 16)) hex_digits 0) in *.
      change (lenN [37; x; y]) with 3 in Ht.
      destruct (wrote_three len rest t b 37 x y Hb) as (d & E1 & Hd); [lia|assumption|].
      rewrite E1. cbn [bind].
      destruct (IH (t ++ [37; x; y]) (d, add64 (snd b) 3) Hd) as (b' & E' & Hb'); [rewrite lenN_app; change (lenN [37; x; y]) with 3; lia|].
      exists b'. rewrite <- app_assoc in Hb'. split; [exact E'|exact Hb'].
Qed.

Lemma generate_ok u buf len : strings_ok u -> len <= lenN buf -> len < two64 -> lenN (uri_text u) < two64 ->
  exists b, uri_generate u buf len = Ok b /\ wrote len (skipn (N.to_nat len) buf) (uri_text u) b.
Proof.
  intros (S1 & S2 & S3 & S4 & S5 & S6 & S7) Hb Hl Ht. unfold uri_generate, uri_text in *.
  destruct (N.ltb_spec (lenN buf) len); [lia|]. set (rest := skipn (N.to_nat len) buf).
  assert (W0 : wrote len rest [] (repeat 0 (N.to_nat len) ++ rest, 0)).
  { split; [reflexivity|]. exists 0%nat. cbn [fst length firstn List.app]. rewrite Nat.sub_0_r. repeat split; lia. }
  generalize dependent (repeat 0 (N.to_nat len) ++ rest, 0). intros b0 W0.
  assert (Step : forall A (o : option A) (f : A -> list N * N -> res (list N * N)) x post t b,
    wrote len rest t b -> lenN (t ++ x ++ post) < two64 ->
    (forall s, o = Some s -> lenN (t ++ x) < two64 -> exists b', f s b = Ok b' /\ wrote len rest (t ++ x) b') -> (o = None -> x = []) ->
    exists b', (match o with Some s => f s b | None => Ok b end) = Ok b' /\ wrote len rest (t ++ x) b').
  { intros A o f x post t b Hw Hlx Hf Ho. destruct o as [s|]; [apply (Hf s eq_refl); rewrite !lenN_app in *; lia|].
    rewrite Ho, app_nil_r by reflexivity. eauto. }
  remember (part [] (u_scheme u) [] [58]) as x1 eqn:X1.
  remember (if has_authority u then [47; 47] else []) as x2 eqn:X2.
  remember (part [] (u_userinfo u) [58] [64]) as x3 eqn:X3.
  remember (host_text (u_host u)) as x4 eqn:X4.
  remember (part [58] (u_port u) [] []) as x5 eqn:X5.
  remember (part [] (u_path u) [47; 58; 64] []) as x6 eqn:X6.
  remember (part [63] (u_query u) [63; 47; 58; 64] []) as x7 eqn:X7.
  remember (part [35] (u_fragment u) [63; 47; 58; 64] []) as x8 eqn:X8.
  destruct (Step _ (u_scheme u) (fun s b => let* b := uri_encode_str (fst b) s (snd b) len [] in uri_copy_str (fst b) [58] (snd b) len)
              x1 (x2 ++ x3 ++ x4 ++ x5 ++ x6 ++ x7 ++ x8) [] b0 W0) as (b1 & E1 & W1).
  { exact Ht. }
  { intros s Es Hlx. rewrite Es in *. destruct S1 as [S1 _]. cbn [part List.app] in X1. rewrite X1 in *. cbn [List.app] in Hlx. rewrite lenN_app in Hlx.
    destruct (encode_str_ok len rest [] s Hl S1 [] b0 W0) as (b' & E & W); [rewrite (@lenN_nil N); lia|]. rewrite E. cbn [bind].
    destruct (copy_str_ok len rest [58] Hl _ b' W) as (b2 & E2 & W2); [cbn [List.app]; exact Hlx|]. exists b2. split; [exact E2|exact W2]. }
  { intro Es. rewrite Es in X1. exact X1. }
  cbn [List.app] in W1. unfold opt_str at 1. rewrite E1. cbn [bind]. clear E1 W0.
  assert (A2 : exists b2, (if negb (is_null (u_userinfo u)) || negb (is_null (u_host u)) || negb (is_null (u_port u))
            then uri_copy_str (fst b1) [47; 47] (snd b1) len else Ok b1) = Ok b2 /\ wrote len rest (x1 ++ x2) b2).
  { replace (negb (is_null (u_userinfo u)) || negb (is_null (u_host u)) || negb (is_null (u_port u))) with (has_authority u)
      by (unfold has_authority; destruct (u_userinfo u), (u_host u), (u_port u); reflexivity).
    destruct (has_authority u); rewrite X2.
    - apply copy_str_ok; [assumption|assumption|]. rewrite X2, !lenN_app in Ht. lia.
    - rewrite app_nil_r. eauto. }
  destruct A2 as (b2 & E2 & W2). rewrite E2. cbn [bind]. clear E2 W1.
  destruct (Step _ (u_userinfo u) (fun s b => let* b := uri_encode_str (fst b) s (snd b) len [58] in uri_copy_str (fst b) [64] (snd b) len)
              x3 (x4 ++ x5 ++ x6 ++ x7 ++ x8) (x1 ++ x2) b2 W2) as (b3 & E3 & W3).
  { rewrite <- !app_assoc. exact Ht. }
  { intros s Es Hlx. rewrite Es in *. destruct S2 as [S2 _]. cbn [part List.app] in X3. rewrite X3 in *. rewrite (lenN_app _ (_ ++ _)), (lenN_app (pct _ _)) in Hlx.
    destruct (encode_str_ok len rest [58] s Hl S2 _ b2 W2) as (b' & E & W); [lia|]. rewrite E. cbn [bind].
    destruct (copy_str_ok len rest [64] Hl _ b' W) as (b4 & E4 & W4); [rewrite lenN_app; lia|]. exists b4. rewrite app_assoc. auto. }
  { intro Es. rewrite Es in X3. exact X3. }
  unfold opt_str at 1. rewrite E3. cbn [bind]. clear E3 W2.
  destruct (Step _ (u_host u) (fun s b => if in_str 58 s then let* b := uri_copy_str (fst b) [91] (snd b) len in
              let* b := uri_encode_str (fst b) s (snd b) len [58] in uri_copy_str (fst b) [93] (snd b) len
              else uri_encode_str (fst b) s (snd b) len [])
              x4 (x5 ++ x6 ++ x7 ++ x8) ((x1 ++ x2) ++ x3) b3 W3) as (b4 & E4 & W4).
  { rewrite <- !app_assoc. exact Ht. }
  { intros s Es Hlx. rewrite Es in *. destruct S3 as [S3 _]. cbn [host_text] in X4. unfold in_str.
    destruct (existsb (N.eqb 58) s); rewrite X4 in *.
    - rewrite (lenN_app _ ([91] ++ _)), (lenN_app [91]), (lenN_app (pct _ _)) in Hlx.
      destruct (copy_str_ok len rest [91] Hl _ b3 W3) as (b' & E & W); [lia|]. rewrite E. cbn [bind].
      destruct (encode_str_ok len rest [58] s Hl S3 _ b' W) as (b5 & E5 & W5); [rewrite lenN_app; lia|]. rewrite E5. cbn [bind].
      destruct (copy_str_ok len rest [93] Hl _ b5 W5) as (b6 & E6 & W6); [rewrite !lenN_app in *; lia|]. exists b6.
      split; [exact E6|]. rewrite <- !app_assoc in *. exact W6.
    - rewrite lenN_app in Hlx. apply encode_str_ok; [assumption|assumption|assumption|lia]. }
  { intro Es. rewrite Es in X4. exact X4. }
  unfold opt_str at 1. rewrite E4. cbn [bind]. clear E4 W3.
  destruct (Step _ (u_port u) (fun s b => let* b := uri_copy_str (fst b) [58] (snd b) len in uri_encode_str (fst b) s (snd b) len [])
              x5 (x6 ++ x7 ++ x8) (((x1 ++ x2) ++ x3) ++ x4) b4 W4) as (b5 & E5 & W5).
  { rewrite <- !app_assoc. exact Ht. }
  { intros s Es Hlx. rewrite Es in *. destruct S4 as [S4 _]. cbn [part] in X5. rewrite app_nil_r in X5. rewrite X5 in *. rewrite (lenN_app _ ([58] ++ _)), (lenN_app [58]) in Hlx.
    destruct (copy_str_ok len rest [58] Hl _ b4 W4) as (b' & E & W); [lia|]. rewrite E. cbn [bind].
    destruct (encode_str_ok len rest [] s Hl S4 _ b' W) as (b6 & E6 & W6); [rewrite lenN_app; lia|]. exists b6. rewrite app_assoc. auto. }
  { intro Es. rewrite Es in X5. exact X5. }
  unfold opt_str at 1. rewrite E5. cbn [bind]. clear E5 W4.
  destruct (Step _ (u_path u) (fun s b => uri_encode_str (fst b) s (snd b) len [47; 58; 64])
              x6 (x7 ++ x8) ((((x1 ++ x2) ++ x3) ++ x4) ++ x5) b5 W5) as (b6 & E6 & W6).
  { rewrite <- !app_assoc. exact Ht. }
  { intros s Es Hlx. rewrite Es in *. destruct S5 as [S5 _]. cbn [part List.app] in X6. rewrite app_nil_r in X6. rewrite X6 in *. rewrite (lenN_app _ (pct _ _)) in Hlx.
    apply encode_str_ok; [assumption|assumption|assumption|lia]. }
  { intro Es. rewrite Es in X6. exact X6. }
  unfold opt_str at 1. rewrite E6. cbn [bind]. clear E6 W5.
  destruct (Step _ (u_query u) (fun s b => let* b := uri_copy_str (fst b) [63] (snd b) len in uri_encode_str (fst b) s (snd b) len [63; 47; 58; 64])
              x7 x8 (((((x1 ++ x2) ++ x3) ++ x4) ++ x5) ++ x6) b6 W6) as (b7 & E7 & W7).
  { rewrite <- !app_assoc. exact Ht. }
  { intros s Es Hlx. rewrite Es in *. destruct S6 as [S6 _]. cbn [part] in X7. rewrite app_nil_r in X7. rewrite X7 in *. rewrite (lenN_app _ ([63] ++ _)), (lenN_app [63]) in Hlx.
    destruct (copy_str_ok len rest [63] Hl _ b6 W6) as (b' & E & W); [lia|]. rewrite E. cbn [bind].
    destruct (encode_str_ok len rest [63; 47; 58; 64] s Hl S6 _ b' W) as (b8 & E8 & W8); [rewrite lenN_app; lia|]. exists b8. rewrite app_assoc. auto. }
  { intro Es. rewrite Es in X7. exact X7. }
  unfold opt_str at 1. rewrite E7. cbn [bind]. clear E7 W6.
  destruct (Step _ (u_fragment u) (fun s b => let* b := uri_copy_str (fst b) [35] (snd b) len in uri_encode_str (fst b) s (snd b) len [63; 47; 58; 64])
              x8 [] ((((((x1 ++ x2) ++ x3) ++ x4) ++ x5) ++ x6) ++ x7) b7 W7) as (b8 & E8 & W8).
  { rewrite app_nil_r, <- !app_assoc. exact Ht. }
  { intros s Es Hlx. rewrite Es in *. destruct S7 as [S7 _]. cbn [part] in X8. rewrite app_nil_r in X8. rewrite X8 in *. rewrite (lenN_app _ ([35] ++ _)), (lenN_app [35]) in Hlx.
    destruct (copy_str_ok len rest [35] Hl _ b7 W7) as (b' & E & W); [lia|]. rewrite E. cbn [bind].
    destruct (encode_str_ok len rest [63; 47; 58; 64] s Hl S7 _ b' W) as (b9 & E9 & W9); [rewrite lenN_app; lia|]. exists b9. rewrite app_assoc. auto. }
  { intro Es. rewrite Es in X8. exact X8. }
  exists b8. split; [exact E8|]. rewrite <- !app_assoc in W8. exact W8.
Qed.

(** ** Parsing *)

Lemma cut_at c a b : ~ In c a -> str_cut c (a ++ c :: b) = Some (a, b).
Proof.
  induction a as [|x a IH]; intro H; cbn [List.app str_cut]; [rewrite N.eqb_refl; reflexivity|].
  destruct (N.eqb_spec x c) as [->|]; [exfalso; apply H; left; reflexivity|].
  rewrite IH by (intro; apply H; right; assumption). reflexivity.
Qed.
Lemma cut_none c s : ~ In c s -> str_cut c s = None.
Proof.
  induction s as [|x s IH]; intro H; cbn [str_cut]; [reflexivity|].
  destruct (N.eqb_spec x c) as [->|]; [exfalso; apply H; left; reflexivity|].
  rewrite IH by (intro; apply H; right; assumption). reflexivity.
Qed.
Lemma sep_at d a c b : (forall x, In x a -> ~ In x d) -> In c d -> str_sep d (a ++ c :: b) = (a, Some (c, b)).
Proof.
  intros H Hc. induction a as [|x a IH]; cbn [List.app str_sep]; unfold in_str in *.
  - apply existsb_eq in Hc. rewrite Hc. reflexivity.
  - assert (E : existsb (N.eqb x) d = false) by (apply existsb_neq; apply H; left; reflexivity). rewrite E.
    rewrite IH by (intros; apply H; right; assumption). reflexivity.
Qed.
Lemma sep_none d a : (forall x, In x a -> ~ In x d) -> str_sep d a = (a, None).
Proof.
  intros H. induction a as [|x a IH]; cbn [str_sep]; unfold in_str in *; [reflexivity|].
  assert (E : existsb (N.eqb x) d = false) by (apply existsb_neq; apply H; left; reflexivity). rewrite E.
  rewrite IH by (intros; apply H; right; assumption). reflexivity.
Qed.

Definition after (h : list N) (r : option (list N * list N)) : option (list N * list N) :=
  match r with Some (a, b) => Some (h ++ a, b) | None => None end.
Lemma after_nil r : after [] r = r.
Proof. destruct r as [[a b]|]; reflexivity. Qed.
Lemma fp_plain h r : ~ In 58 h -> ~ In 91 h -> uri_find_port false (h ++ r) = after h (uri_find_port false r).
Proof.
  induction h as [|x h IH]; intros H1 H2; [rewrite after_nil; reflexivity|].
  cbn [List.app uri_find_port negb]. destruct (N.eqb_spec x 91) as [->|]; [exfalso; apply H2; left; reflexivity|]. cbn [negb andb].
  destruct (N.eqb_spec x 58) as [->|]; [exfalso; apply H1; left; reflexivity|].
  rewrite IH; [|intro; apply H1; right; assumption|intro; apply H2; right; assumption]. destruct (uri_find_port false r) as [[a b]|]; reflexivity.
Qed.
Lemma fp_inside h r : ~ In 93 h -> uri_find_port true (h ++ [93] ++ r) = after (h ++ [93]) (uri_find_port false r).
Proof.
  induction h as [|x h IH]; intro H.
  - cbn [List.app uri_find_port negb]. change (93 =? 93) with true. change (93 =? 58) with false. cbn [negb andb].
    destruct (uri_find_port false r) as [[a b]|]; reflexivity.
  - cbn [List.app uri_find_port negb]. destruct (N.eqb_spec x 93) as [->|]; [exfalso; apply H; left; reflexivity|]. cbn [negb andb].
    change (h ++ 93 :: r) with (h ++ [93] ++ r). rewrite IH by (intro; apply H; right; assumption).
    destruct (uri_find_port false r) as [[a b]|]; reflexivity.
Qed.
Lemma fp_host t h r : host_is t h -> uri_find_port false (t ++ r) = after t (uri_find_port false r).
Proof.
  intro H. destruct H as [h H1 H2|h H1 H2]; [apply fp_plain; assumption|].
  change (([91] ++ h ++ [93]) ++ r) with (91 :: ((h ++ [93]) ++ r)). rewrite <- app_assoc. cbn [uri_find_port negb].
  change (91 =? 91) with true. cbn [negb andb]. rewrite fp_inside by assumption.
  destruct (uri_find_port false r) as [[a b]|]; reflexivity.
Qed.
Lemma fp_none s i : ~ In 58 s -> uri_find_port i s = None.
Proof.
  revert i. induction s as [|x s IH]; intros i H; [reflexivity|]. cbn [uri_find_port].
  destruct (N.eqb_spec x 58) as [->|]; [exfalso; apply H; left; reflexivity|]. rewrite andb_false_r.
  rewrite IH by (intro; apply H; right; assumption). reflexivity.
Qed.

Lemma in_app_not {A} (x : A) a b : ~ In x (a ++ b) <-> ~ In x a /\ ~ In x b.
Proof. rewrite in_app_iff. tauto. Qed.

(** The host, as it is written, and its characters between the brackets. *)
Definition strip (t : list N) : list N * N :=
  let len := add64 (lenN t) 1 in
  if (2 <? len) && (nth 0 t 0 =? 91) && (nth (N.to_nat (len - 2)) t 0 =? 93) then (removelast (tl t), len - 2) else (t, len).
Lemma strip_ok t h : host_is t h -> lenN t + 1 < two64 -> strip t = (h, lenN h + 1).
Proof.
  intros H Hl. unfold strip. rewrite add64_ok by lia. destruct H as [h H1 H2|h H1 H2].
  - destruct h as [|x h]; [reflexivity|]. cbn [nth]. destruct (N.eqb_spec x 91) as [->|]; [exfalso; apply H2; left; reflexivity|].
    rewrite andb_false_r. reflexivity.
  - assert (El : lenN ([91] ++ h ++ [93]) = lenN h + 2) by (rewrite !lenN_app; change (lenN [91]) with 1; change (lenN [93]) with 1; lia).
    rewrite El. destruct (N.ltb_spec 2 (lenN h + 2 + 1)); [|lia].
    change (nth 0 ([91] ++ h ++ [93]) 0) with 91. change (91 =? 91) with true. cbn [andb].
    replace (N.to_nat (lenN h + 2 + 1 - 2)) with (S (length h)) by (unfold lenN; lia).
    assert (En : nth (S (length h)) ([91] ++ h ++ [93]) 0 = 93).
    { cbn [List.app nth]. rewrite app_nth2, Nat.sub_diag by lia. reflexivity. }
    rewrite En. change (93 =? 93) with true. cbv iota. cbn [tl List.app]. rewrite removelast_last. f_equal. lia.
Qed.

Definition opt_host (h : list N) : option (list N) := match h with [] => None | _ => Some h end.

Lemma decodes_nil_inv s : decodes [] s -> s = [].
Proof. intro H. inversion H. reflexivity. Qed.
Lemma decodes_nonnil raw s : raw <> [] -> decodes raw s -> s <> [].
Proof. intros Hr H. destruct H; congruence. Qed.

Lemma component_opt sg raw s : decodes_opt raw s -> (forall r, raw = Some r -> lenN r + 1 < two64) ->
  match raw with Some r => let* c := uri_component sg true r in Ok (Some c) | None => Ok None end = Ok s.
Proof.
  intros H Hl. destruct raw as [r|], s as [s|]; cbn in H; try contradiction; [|reflexivity].
  destruct H as [H1 H2]. rewrite (component_ok sg r s H1 H2 (Hl r eq_refl)). reflexivity.
Qed.

Lemma hier_authority sg ui t h port path u hd p pd :
  host_is t h -> decodes h hd -> ~ In 0 hd -> decodes_opt ui u -> decodes_opt port p -> decodes_opt path pd ->
  ~ In 47 t -> (forall x, ui = Some x -> ~ In 64 x) -> (forall x, port = Some x -> ~ In 47 x) ->
  (ui = None -> ~ In 64 t /\ (forall x, port = Some x -> ~ In 64 x) /\ (forall x, path = Some x -> ~ In 64 x)) ->
  (port = None -> forall x, path = Some x -> ~ In 58 x) ->
  lenN (auth_text ui t port ++ path_text path) + 1 < two64 ->
  uri_parse_hier_part sg mem_all ([47; 47] ++ auth_text ui t port ++ path_text path) =
    Ok (u, opt_host hd, p, match pd with Some pd => Some (47 :: pd) | None => None end).
Proof.
  intros Ht Hh Hh0 Hu Hp Hpd T47 Hui Hport Hno64 Hno58 Hlen. unfold uri_parse_hier_part, mem_all.
  rewrite (lenN_app [47; 47]). change (lenN [47; 47]) with 2. destruct (N.leb_spec 2 (2 + lenN (auth_text ui t port ++ path_text path))); [|lia].
  change (nth 0 ([47; 47] ++ auth_text ui t port ++ path_text path) 0 =? 47) with true.
  change (nth 1 ([47; 47] ++ auth_text ui t port ++ path_text path) 0 =? 47) with true. cbn [andb].
  change (skipn 2 ([47; 47] ++ auth_text ui t port ++ path_text path)) with (auth_text ui t port ++ path_text path).
  set (body := t ++ match port with Some p => 58 :: p | None => [] end ++ path_text path).
  assert (Eb : auth_text ui t port ++ path_text path = match ui with Some x => x ++ [64] | None => [] end ++ body).
  { unfold auth_text, body. rewrite <- !app_assoc. reflexivity. }
  rewrite Eb in *.
  assert (E1 : (match str_cut 64 (match ui with Some x => x ++ [64] | None => [] end ++ body) with
      | Some (x, p0) => let* x0 := uri_component sg true x in Ok (Some x0, p0)
      | None => Ok (None, match ui with Some x => x ++ [64] | None => [] end ++ body)
      end) = Ok (u, body)).
  { destruct ui as [x|].
    - rewrite <- app_assoc. cbn [List.app]. rewrite cut_at by (apply Hui; reflexivity).
      destruct u as [u|]; [|contradiction]. destruct Hu as [Hu1 Hu2]. rewrite (component_ok sg x u Hu1 Hu2); [reflexivity|].
      rewrite !lenN_app in Hlen. lia.
    - destruct u; [contradiction|]. cbn [List.app]. rewrite cut_none; [reflexivity|].
      destruct (Hno64 eq_refl) as (A & B & C). unfold body. rewrite !in_app_not. split; [exact A|]. split.
      + destruct port as [x|]; [|auto]. intros [E|E]; [discriminate|]. exact (B x eq_refl E).
      + destruct path as [x|]; [|auto]. intros [E|E]; [discriminate|]. exact (C x eq_refl E). }
  rewrite E1. cbn [bind]. clear E1 Eb.
  assert (E2 : match uri_find_port false body with
      | Some (p0, port0) => match str_cut 47 port0 with Some (port1, path0) => (p0, Some port1, Some path0) | None => (p0, Some port0, None) end
      | None => match str_cut 47 body with Some (p0, path0) => (p0, None, Some path0) | None => (body, None, None) end
      end = (t, port, path)).
  { unfold body. rewrite (fp_host t h) by exact Ht. destruct port as [x|].
    - cbn [List.app uri_find_port negb]. change (58 =? 91) with false. cbn [negb andb]. change (58 =? 58) with true. cbv iota.
      cbn [after]. rewrite app_nil_r. destruct path as [y|]; cbn [path_text].
      + rewrite cut_at by (apply Hport; reflexivity). reflexivity.
      + rewrite app_nil_r. rewrite cut_none by (apply Hport; reflexivity). reflexivity.
    - cbn [List.app]. destruct path as [y|]; cbn [path_text].
      + rewrite fp_none; [|intros [E|E]; [discriminate|exact (Hno58 eq_refl y eq_refl E)]]. cbn [after].
        rewrite cut_at by assumption. reflexivity.
      + cbn. rewrite app_nil_r, cut_none by assumption. reflexivity. }
  rewrite E2. clear E2. fold (strip t).
  assert (Hlt : lenN t + 1 < two64) by (unfold body in Hlen; rewrite !lenN_app in Hlen; lia).
  rewrite (strip_ok t h Ht Hlt).
  assert (Hlh : lenN h <= lenN t) by (destruct Ht; [lia|rewrite !lenN_app; lia]).
  assert (E3 : (if 1 <? lenN h + 1 then let* h0 := uri_component sg true h in Ok (Some h0) else Ok None) = Ok (opt_host hd)).
  { destruct h as [|x h0].
    - apply decodes_nil_inv in Hh. subst hd. reflexivity.
    - rewrite lenN_cons. destruct (N.ltb_spec 1 (lenN h0 + 1 + 1)); [|lia].
      rewrite (component_ok sg _ hd Hh Hh0) by lia. cbn [bind].
      assert (Hd : hd <> []) by (apply (decodes_nonnil (x :: h0) hd); [discriminate|exact Hh]). destruct hd; [congruence|reflexivity]. }
  rewrite E3. cbn [bind]. rewrite (component_opt sg port p Hp).
  2:{ intros r ->. unfold body in Hlen. rewrite !lenN_app, lenN_cons in Hlen. lia. }
  cbn [bind]. destruct path as [y|], pd as [pd|]; cbn in Hpd; try contradiction; [|reflexivity].
  destruct Hpd as [D1 D2]. rewrite (component_path_ok sg y pd D1 D2); [reflexivity|].
  unfold body in Hlen. cbn [path_text] in Hlen. rewrite !lenN_app, lenN_cons in Hlen. lia.
Qed.

Lemma hier_path sg p s : decodes p s -> ~ In 0 s -> (forall t, p <> 47 :: 47 :: t) -> lenN p + 1 < two64 ->
  uri_parse_hier_part sg mem_all p = Ok (None, None, None, opt_host s).
Proof.
  intros H H0 Hp Hl. unfold uri_parse_hier_part, mem_all.
  assert (E : (2 <=? lenN p) && (nth 0 p 0 =? 47) && (nth 1 p 0 =? 47) = false).
  { destruct p as [|a [|b p]]; [reflexivity|reflexivity|]. cbn [nth].
    destruct (N.eqb_spec a 47) as [->|]; [|rewrite andb_false_r; reflexivity].
    destruct (N.eqb_spec b 47) as [->|]; [exfalso; apply (Hp p); reflexivity|]. rewrite andb_false_r. reflexivity. }
  rewrite E. destruct p as [|x p].
  - apply decodes_nil_inv in H. subst s. reflexivity.
  - rewrite lenN_cons in *. destruct (N.ltb_spec 0 (lenN p + 1)); [|lia].
    rewrite (component_ok sg _ s H H0) by (rewrite lenN_cons; lia). cbn [bind].
    assert (Hd : s <> []) by (apply (decodes_nonnil (x :: p) s); [discriminate|exact H]). destruct s; [congruence|reflexivity].
Qed.


Lemma parse_ok sg sch s body ui host port path q qd f fd :
  decodes_opt sch s -> decodes_opt q qd -> decodes_opt f fd ->
  (forall x, sch = Some x -> x <> [] /\ ~ In 58 x /\ nth 0 x 0 <> 47) ->
  (sch = None -> nth 0 (body ++ tail_text q f) 0 = 47 \/ ~ In 58 (body ++ tail_text q f)) ->
  ~ In 63 body -> ~ In 35 body -> (forall x, q = Some x -> ~ In 35 x) ->
  uri_parse_hier_part sg mem_all body = Ok (ui, host, port, path) ->
  lenN (match sch with Some x => x ++ [58] | None => [] end ++ body ++ tail_text q f) + 1 < two64 ->
  uri_parse sg mem_all (match sch with Some x => x ++ [58] | None => [] end ++ body ++ tail_text q f) =
    Ok (mkuri s ui host port path qd fd).
Proof.
  intros Hs Hq Hf Hsch Hnone B63 B35 Hq35 Hh Hlen. unfold uri_parse. change (mem_all 0) with true. cbn [negb].
  assert (E1 : (if negb (nth 0 (match sch with Some x => x ++ [58] | None => [] end ++ body ++ tail_text q f) 0 =? 47)
     then uri_parse_scheme sg mem_all (match sch with Some x => x ++ [58] | None => [] end ++ body ++ tail_text q f)
     else Ok (None, match sch with Some x => x ++ [58] | None => [] end ++ body ++ tail_text q f)) = Ok (s, body ++ tail_text q f)).
  { destruct sch as [x|], s as [s|]; cbn in Hs; try contradiction.
    - destruct (Hsch x eq_refl) as (N1 & N2 & N3). destruct Hs as [D1 D2].
      assert (En : nth 0 ((x ++ [58]) ++ body ++ tail_text q f) 0 = nth 0 x 0) by (destruct x; [contradiction|reflexivity]).
      rewrite En. destruct (N.eqb_spec (nth 0 x 0) 47); [contradiction|]. cbn [negb]. unfold uri_parse_scheme, mem_all.
      rewrite <- app_assoc. cbn [List.app]. rewrite cut_at by assumption.
      assert (Hx : lenN x + 1 < two64) by (rewrite !lenN_app in Hlen; lia). rewrite add64_ok by lia.
      destruct (N.ltb_spec 1 (lenN x + 1)); [|destruct x; [contradiction|rewrite lenN_cons in *; lia]].
      rewrite (component_ok sg x s D1 D2 Hx). reflexivity.
    - cbn [List.app]. destruct (N.eqb_spec (nth 0 (body ++ tail_text q f) 0) 47); [reflexivity|]. cbn [negb].
      destruct (Hnone eq_refl) as [|H58]; [contradiction|]. unfold uri_parse_scheme. rewrite cut_none by assumption. reflexivity. }
  rewrite E1. cbn [bind]. clear E1.
  assert (Bd : forall x, In x body -> ~ In x [63; 35]) by (intros x Hx [E|[E|[]]]; subst x; contradiction).
  assert (Hlq : forall x, q = Some x -> lenN x + 1 < two64).
  { intros x ->. unfold tail_text in Hlen. rewrite !lenN_app, lenN_cons in Hlen. lia. }
  assert (Hlf : forall x, f = Some x -> lenN x + 1 < two64).
  { intros x ->. unfold tail_text in Hlen. rewrite !lenN_app, lenN_cons in Hlen. lia. }
  destruct q as [q|], qd as [qd|]; cbn in Hq; try contradiction.
  - unfold tail_text. cbn [List.app]. rewrite sep_at by (assumption || (left; reflexivity)). rewrite Hh. cbn [bind].
    change (63 =? 63) with true. cbv iota.
    assert (Qd : forall x, In x q -> ~ In x [35]) by (intros x Hx [E|[]]; subst x; exact (Hq35 q eq_refl Hx)).
    destruct Hq as [Q1 Q2]. destruct f as [f|], fd as [fd|]; cbn in Hf; try contradiction.
    + rewrite sep_at by (assumption || (left; reflexivity)). unfold mem_all. rewrite (component_ok sg q qd Q1 Q2) by (apply Hlq; reflexivity). cbn [bind].
      change (35 =? 35) with true. cbv iota. destruct Hf as [F1 F2]. rewrite sep_none by auto.
      rewrite (component_ok sg f fd F1 F2) by (apply Hlf; reflexivity). reflexivity.
    + rewrite app_nil_r, sep_none by assumption. unfold mem_all. rewrite (component_ok sg q qd Q1 Q2) by (apply Hlq; reflexivity). reflexivity.
  - unfold tail_text. cbn [List.app]. destruct f as [f|], fd as [fd|]; cbn in Hf; try contradiction.
    + rewrite sep_at by (assumption || (right; left; reflexivity)). rewrite Hh. cbn [bind].
      change (35 =? 63) with false. change (35 =? 35) with true. cbn [bind]. destruct Hf as [F1 F2]. rewrite sep_none by auto.
      unfold mem_all. rewrite (component_ok sg f fd F1 F2) by (apply Hlf; reflexivity). reflexivity.
    + rewrite app_nil_r, sep_none by assumption. rewrite Hh. reflexivity.
Qed.

(** ** Parsing what was generated *)

Ltac not_plain := first [assumption | discriminate | (vm_compute; reflexivity) | (intros [? HH]; cbn [In] in HH; repeat (destruct HH as [HH|HH]; [discriminate|]); contradiction)].
Definition opt_pct (exc : list N) (s : option (list N)) : option (list N) := match s with Some s => Some (pct exc s) | None => None end.
Lemma opt_pct_decodes exc s : str_ok s -> In exc exceptions -> decodes_opt (opt_pct exc s) s.
Proof. destruct s as [s|]; cbn; [|auto]. intros [H1 H2] He. split; [apply pct_decodes; assumption|assumption]. Qed.

Lemma pct_nil exc s : pct exc s = [] -> s = [].
Proof. destruct s as [|c s]; [auto|]. change (pct exc (c :: s)) with (pct1 exc c ++ pct exc s). unfold pct1. destruct (existsb _ _); discriminate. Qed.

Lemma parse_generated sg u : uri_valid u -> no_confusion u -> lenN (uri_text u) + 1 < two64 ->
  uri_parse sg mem_all (uri_text u) = Ok u.
Proof.
  intros ((S1 & S2 & S3 & S4 & S5 & S6 & S7) & V1 & V2 & V3) Hc Hlen.
  set (body := (if has_authority u then [47; 47] else []) ++ part [] (u_userinfo u) [58] [64] ++ host_text (u_host u) ++ part [58] (u_port u) [] [] ++ part [] (u_path u) [47; 58; 64] []).
  assert (Et : uri_text u = match opt_pct [] (u_scheme u) with Some x => x ++ [58] | None => [] end ++ body ++
       tail_text (opt_pct [63; 47; 58; 64] (u_query u)) (opt_pct [63; 47; 58; 64] (u_fragment u))).
  { unfold uri_text, body, tail_text. rewrite <- !app_assoc. f_equal; [destruct (u_scheme u); reflexivity|]. do 5 f_equal.
    f_equal; [destruct (u_query u) as [q|]; cbn [opt_pct part]; rewrite ?app_nil_r; reflexivity|].
    destruct (u_fragment u) as [q|]; cbn [opt_pct part]; rewrite ?app_nil_r; reflexivity. }
  rewrite Et in *.
  assert (Hdel : forall x, x = 63 \/ x = 35 -> ~ In x body).
  { assert (D : forall x exc s, (x = 63 \/ x = 35) -> bytes_ok s -> ~ In x exc -> ~ In x (pct exc s)).
    { intros x exc s Hx Hs He. apply pct_notin; [assumption|destruct Hx; subst; discriminate|destruct Hx; subst; reflexivity|tauto]. }
    intros x Hx. unfold body. rewrite !in_app_not. split; [|split; [|split; [|split]]].
    - destruct (has_authority u); [|auto]. cbn. intros [E|[E|[]]]; destruct Hx; subst; discriminate.
    - destruct (u_userinfo u) as [s|]; [|auto]. destruct S2 as [S2 _]. cbn [part]. rewrite !in_app_not.
      split; [auto|]. split; [apply D; [assumption|assumption|]|]; cbn; intros [E|[]]; destruct Hx; subst; discriminate.
    - destruct (u_host u) as [s|]; [|auto]. destruct S3 as [S3 _]. cbn [host_text]. destruct (existsb (N.eqb 58) s).
      + rewrite !in_app_not. split; [|split; [apply D; [assumption|assumption|]|]]; cbn; intros [E|[]]; destruct Hx; subst; discriminate.
      + apply D; [assumption|assumption|auto].
    - destruct (u_port u) as [s|]; [|auto]. destruct S4 as [S4 _]. cbn [part]. rewrite !in_app_not.
      split; [|split; [apply D; [assumption|assumption|auto]|auto]]. cbn; intros [E|[]]; destruct Hx; subst; discriminate.
    - destruct (u_path u) as [s|]; [|auto]. destruct S5 as [S5 _]. cbn [part]. rewrite !in_app_not.
      split; [auto|]. split; [apply D; [assumption|assumption|]|auto]. cbn; intros [E|[E|[E|[]]]]; destruct Hx; subst; discriminate. }
  assert (Hhier : uri_parse_hier_part sg mem_all body = Ok (u_userinfo u, u_host u, u_port u, u_path u)).
  { assert (Hlb : lenN body + 1 < two64) by (rewrite !lenN_app in Hlen; lia).
    unfold body, no_confusion in *. destruct (has_authority u) eqn:Ea.
    - destruct Hc as [C1 C2].
      set (ui := opt_pct [58] (u_userinfo u)). set (port := opt_pct [] (u_port u)).
      set (path := match u_path u with Some (_ :: t) => Some (pct [47; 58; 64] t) | _ => None end).
      set (pd := match u_path u with Some (_ :: t) => Some t | _ => None end).
      set (h := match u_host u with Some h => if existsb (N.eqb 58) h then pct [58] h else pct [] h | None => [] end).
      set (hd := match u_host u with Some h => h | None => [] end).
      assert (Hpath : part [] (u_path u) [47; 58; 64] [] = path_text path).
      { unfold path. destruct V3 as [->|(t & ->)]; [reflexivity|]. cbn [part List.app path_text]. rewrite app_nil_r. reflexivity. }
      assert (Hpath2 : u_path u = match pd with Some pd => Some (47 :: pd) | None => None end).
      { unfold pd. destruct V3 as [->|(t & ->)]; reflexivity. }
      assert (Ebody : [47; 47] ++ part [] (u_userinfo u) [58] [64] ++ host_text (u_host u) ++ part [58] (u_port u) [] [] ++ part [] (u_path u) [47; 58; 64] [] =
        [47; 47] ++ auth_text ui (host_text (u_host u)) port ++ path_text path).
      { rewrite Hpath. unfold auth_text, ui, port. rewrite <- !app_assoc. f_equal.
        f_equal; [destruct (u_userinfo u); reflexivity|]. f_equal. f_equal.
        destruct (u_port u); cbn [opt_pct part]; rewrite ?app_nil_r; reflexivity. }
      rewrite Ebody. rewrite Ebody, lenN_app in Hlb.
      assert (Hhost : u_host u = opt_host hd).
      { unfold hd. destruct (u_host u) as [[|x s]|]; [congruence|reflexivity|reflexivity]. }
      rewrite Hhost at 2. rewrite Hpath2.
      apply hier_authority with h.
      + unfold host_text, h. destruct (u_host u) as [s|] eqn:Eh; [|apply host_plain; auto]. destruct S3 as [S3 _].
        destruct (existsb (N.eqb 58) s) eqn:E58.
        * apply host_brackets; [intro E; apply pct_nil in E; congruence|]. apply pct_notin; not_plain.
        * apply host_plain; apply pct_notin; not_plain.
      + unfold h, hd. destruct (u_host u) as [s|]; [|constructor]. destruct S3 as [S3 _].
        destruct (existsb (N.eqb 58) s); apply pct_decodes; try assumption; cbn; auto.
      + unfold hd. destruct (u_host u) as [s|]; [|auto]. apply S3.
      + apply opt_pct_decodes; [assumption|cbn; auto].
      + apply opt_pct_decodes; [assumption|cbn; auto].
      + unfold path, pd. destruct V3 as [->|(t & E)]; [exact I|]. rewrite E in *. destruct S5 as [S5 S50]. inversion_clear S5. split.
        * apply pct_decodes; [assumption|cbn; auto].
        * intro. apply S50. right. assumption.
      + unfold host_text. destruct (u_host u) as [s|]; [|auto]. destruct S3 as [S3 _]. destruct (existsb (N.eqb 58) s).
        * rewrite !in_app_not. split; [cbn; intros [E|[]]; discriminate|]. split; [apply pct_notin; not_plain|cbn; intros [E|[]]; discriminate].
        * apply pct_notin; not_plain.
      + unfold ui. intros x Ex. destruct (u_userinfo u) as [s|]; [|discriminate]. injection Ex as <-. destruct S2 as [S2 _]. apply pct_notin; not_plain.
      + unfold port. intros x Ex. destruct (u_port u) as [s|]; [|discriminate]. injection Ex as <-. destruct S4 as [S4 _]. apply pct_notin; not_plain.
      + unfold ui. intro E. destruct (u_userinfo u) as [s|]; [discriminate|]. specialize (C1 eq_refl). split; [|split].
        * unfold host_text. destruct (u_host u) as [s|]; [|auto]. destruct S3 as [S3 _]. destruct (existsb (N.eqb 58) s).
          -- rewrite !in_app_not. split; [cbn; intros [E2|[]]; discriminate|]. split; [apply pct_notin; not_plain|cbn; intros [E2|[]]; discriminate].
          -- apply pct_notin; not_plain.
        * unfold port. intros x Ex. destruct (u_port u) as [s|]; [|discriminate]. injection Ex as <-. destruct S4 as [S4 _]. apply pct_notin; not_plain.
        * unfold path. intros x Ex. destruct (u_path u) as [[|y s]|]; try discriminate. injection Ex as <-. destruct S5 as [S5 _]. inversion_clear S5.
          apply pct_notin; [assumption|discriminate|vm_compute; reflexivity|]. intros [Hin _]. apply C1. cbn. right. exact Hin.
      + unfold port. intros E x Ex. destruct (u_port u) as [s|]; [discriminate|]. specialize (C2 eq_refl). unfold path in Ex.
        destruct (u_path u) as [[|y s]|]; try discriminate. injection Ex as <-. destruct S5 as [S5 _]. inversion_clear S5.
        apply pct_notin; [assumption|discriminate|vm_compute; reflexivity|]. intros [Hin _]. apply C2. cbn. right. exact Hin.
      + lia.
    - assert (En : u_userinfo u = None /\ u_host u = None /\ u_port u = None).
      { unfold has_authority in Ea. destruct (u_userinfo u), (u_host u), (u_port u); try discriminate; auto. }
      destruct En as (-> & -> & ->). cbn [part host_text List.app].
      destruct V3 as (P1 & P2 & _). destruct (u_path u) as [s|] eqn:Ep.
      + cbn [part List.app]. rewrite app_nil_r. destruct S5 as [S5 S50].
        rewrite (hier_path sg _ s); [destruct s; [congruence|reflexivity]|apply pct_decodes; [assumption|cbn; auto]|assumption| |].
        * intros t E. destruct s as [|a [|b s]]; [discriminate| |].
          -- change (pct [47; 58; 64] [a]) with (pct1 [47; 58; 64] a ++ []) in E. rewrite app_nil_r in E. unfold pct1 in E. destruct (existsb _ _); discriminate.
          -- change (pct [47; 58; 64] (a :: b :: s)) with (pct1 [47; 58; 64] a ++ pct1 [47; 58; 64] b ++ pct [47; 58; 64] s) in E. unfold pct1 in E.
             destruct (existsb (N.eqb a) _); [|discriminate]. destruct (existsb (N.eqb b) _); [|discriminate].
             cbn [List.app] in E. injection E as -> -> _. apply (P2 s). reflexivity.
        * cbn [part List.app host_text] in Hlb. rewrite app_nil_r, !lenN_app in Hlb. lia.
      + reflexivity. }
  rewrite (parse_ok sg (opt_pct [] (u_scheme u)) (u_scheme u) body (u_userinfo u) (u_host u) (u_port u) (u_path u)
            (opt_pct [63; 47; 58; 64] (u_query u)) (u_query u) (opt_pct [63; 47; 58; 64] (u_fragment u)) (u_fragment u)).
  - destruct u. reflexivity.
  - apply opt_pct_decodes; [assumption|cbn; auto].
  - apply opt_pct_decodes; [assumption|cbn; auto].
  - apply opt_pct_decodes; [assumption|cbn; auto].
  - intros x Ex. destruct (u_scheme u) as [s|]; [|discriminate]. injection Ex as <-. destruct S1 as [S1 _].
    split; [intro E; apply pct_nil in E; congruence|]. split; [apply pct_notin; not_plain|].
    intro E. assert (Hin : In 47 (pct [] s)) by (rewrite <- E; apply nth_In; destruct (pct [] s) eqn:E2; [apply pct_nil in E2; congruence|cbn; lia]).
    revert Hin. apply pct_notin; not_plain.
  - intro Es. assert (Esn : u_scheme u = None) by (destruct (u_scheme u); [discriminate|reflexivity]). unfold no_confusion in Hc.
    unfold body. destruct (has_authority u) eqn:Ea; [left; reflexivity|].
    assert (En : u_userinfo u = None /\ u_host u = None /\ u_port u = None).
    { unfold has_authority in Ea. destruct (u_userinfo u), (u_host u), (u_port u); try discriminate; auto. }
    destruct En as (-> & -> & ->). cbn [part host_text List.app].
    destruct (Hc Esn) as [(t & ->)|(N1 & N2 & N3)]; [left; reflexivity|right].
    assert (D : forall exc s, str_ok s -> ~ has 58 s -> forall c, In c exc \/ True -> match s with Some s => ~ In 58 (pct exc s) | None => True end).
    { intros exc s Hs Hn c _. destruct s as [s|]; [|exact I]. destruct Hs as [Hs _]. apply pct_notin; [assumption|discriminate|vm_compute; reflexivity|].
      intros [Hin _]. exact (Hn Hin). }
    unfold tail_text. rewrite !in_app_not. split; [|split].
    + pose proof (D [47; 58; 64] _ S5 N1 0 (or_intror I)) as D1. destruct (u_path u); [|auto]. cbn [part List.app]. rewrite app_nil_r. exact D1.
    + pose proof (D [63; 47; 58; 64] _ S6 N2 0 (or_intror I)) as D1. destruct (u_query u); [|auto]. cbn [opt_pct]. intros [E|E]; [discriminate|contradiction].
    + pose proof (D [63; 47; 58; 64] _ S7 N3 0 (or_intror I)) as D1. destruct (u_fragment u); [|auto]. cbn [opt_pct]. intros [E|E]; [discriminate|contradiction].
  - apply Hdel. auto.
  - apply Hdel. auto.
  - intros x Ex. destruct (u_query u) as [s|]; [|discriminate]. injection Ex as <-. destruct S6 as [S6 _]. apply pct_notin; not_plain.
  - exact Hhier.
  - exact Hlen.
Qed.

(** ** The properties *)

Lemma encode_round_trip sg exc s len : In exc exceptions -> bytes_ok s -> ~ In 0 s -> 3 * lenN s < len -> len < two64 ->
  exists d e, uri_encode_str (repeat 0 (N.to_nat len)) s 0 len exc = Ok (d, lenN e) /\ cstr d = Ok e /\ e = pct exc s /\
    uri_component sg true e = Ok s.
Proof.
  intros He Hs H0 Hl Hlen.
  assert (Hp : lenN (pct exc s) <= 3 * lenN s).
  { clear. induction s as [|c s IH]; [cbn; lia|]. change (pct exc (c :: s)) with (pct1 exc c ++ pct exc s).
    rewrite lenN_app, lenN_cons. assert (lenN (pct1 exc c) <= 3) by (unfold pct1; destruct (existsb _ _); vm_compute; discriminate). lia. }
  destruct (encode_str_ok len [] exc s Hlen Hs [] (repeat 0 (N.to_nat len), 0)) as (b & E & Wn & k & K1 & K2 & K3 & Wb).
  { split; [reflexivity|]. exists 0%nat. repeat split; try (cbn; lia). rewrite app_nil_r, Nat.sub_0_r. reflexivity. }
  { rewrite (@lenN_nil N). lia. }
  cbn [List.app] in *. cbn [fst snd] in E. destruct b as [d n]. cbn [fst snd] in *. subst n.
  rewrite K3 in Wb by lia. rewrite firstn_all in Wb. exists d, (pct exc s). split; [exact E|]. split; [|split; [reflexivity|]].
  - subst d. replace (N.to_nat len - length (pct exc s))%nat with (S (N.to_nat len - length (pct exc s) - 1)) by (unfold lenN in *; lia).
    cbn [repeat List.app]. apply cstr_ok. apply pct_notin; [assumption|discriminate|vm_compute; reflexivity|tauto].
  - apply component_ok; [apply pct_decodes; assumption|assumption|lia].
Qed.

Lemma wrote_text u buf len : strings_ok u -> len <= lenN buf -> len < two64 -> lenN (uri_text u) < two64 ->
  exists b k, uri_generate u buf len = Ok (b, lenN (uri_text u)) /\
    b = firstn k (uri_text u) ++ repeat 0 (N.to_nat len - k) ++ skipn (N.to_nat len) buf /\
    (0 < len -> N.of_nat k < len) /\ (len = 0 -> k = 0%nat) /\ (lenN (uri_text u) < len -> k = length (uri_text u)).
Proof.
  intros H1 H2 H3 H4. destruct (generate_ok u buf len H1 H2 H3 H4) as ([b n] & E & Wn & k & K1 & K2 & K3 & Wb).
  cbn [fst snd] in *. subst n. exists b, k. split; [exact E|]. split; [exact Wb|]. split; [lia|]. split; [lia|exact K3].
Qed.

Lemma text_no_nul u : strings_ok u -> ~ In 0 (uri_text u).
Proof.
  intros (S1 & S2 & S3 & S4 & S5 & S6 & S7).
  assert (Q : forall exc s, bytes_ok s -> ~ In 0 s -> ~ In 0 (pct exc s)).
  { intros exc s Hs H0. apply pct_notin; [assumption|discriminate|vm_compute; reflexivity|tauto]. }
  assert (P : forall pre s exc post, str_ok s -> ~ In 0 pre -> ~ In 0 post -> ~ In 0 (part pre s exc post)).
  { intros pre s exc post Hs Hpre Hpost. destruct s as [s|]; [|auto]. destruct Hs. cbn [part]. rewrite !in_app_not. auto. }
  unfold uri_text. rewrite !in_app_not.
  assert (L : forall c, c <> 0 -> ~ In 0 [c]) by (intros c Hc [E|[]]; congruence).
  split; [apply P; auto; apply L; discriminate|].
  split; [destruct (has_authority u); cbn; [intros [E|[E|[]]]; discriminate|auto]|].
  split; [apply P; auto; apply L; discriminate|].
  split; [|split; [|split; [|split]]]; try (apply P; auto; apply L; discriminate).
  destruct (u_host u) as [s|]; [|auto]. destruct S3. cbn [host_text]. destruct (existsb (N.eqb 58) s); [|auto].
  rewrite !in_app_not. split; [apply L; discriminate|]. split; [auto|apply L; discriminate].
Qed.

Lemma generated_parsed sg u buf len b n : uri_valid u -> no_confusion u -> lenN (uri_text u) + 1 < two64 ->
  len <= lenN buf -> len < two64 -> uri_generate u buf len = Ok (b, n) -> n < len ->
  exists t, cstr b = Ok t /\ uri_parse sg mem_all t = Ok u.
Proof.
  intros Hv Hc Hl H1 H2 Hg Hn.
  destruct (wrote_text u buf len) as (b' & k & E & Eb & K1 & K2 & K3); [apply Hv|assumption|assumption|lia|].
  rewrite Hg in E. injection E as -> ->. exists (uri_text u). split; [|apply parse_generated; assumption].
  rewrite K3, firstn_all in Eb by assumption. subst b'.
  replace (N.to_nat len - length (uri_text u))%nat with (S (N.to_nat len - length (uri_text u) - 1)) by (unfold lenN in *; lia).
  cbn [repeat List.app]. apply cstr_ok. apply text_no_nul. apply Hv.
Qed.

Lemma authority_parsed sg sch s ui u t h hd port p path pd q qd f fd :
  sch <> [] -> ~ In 58 sch -> nth 0 sch 0 <> 47 -> decodes sch s -> ~ In 0 s ->
  authority_ok ui t h port -> decodes h hd -> ~ In 0 hd -> decodes_opt ui u -> decodes_opt port p -> decodes_opt path pd ->
  (forall x, path = Some x -> ~ In 63 x /\ ~ In 35 x) -> decodes_opt q qd -> (forall x, q = Some x -> ~ In 35 x) -> decodes_opt f fd ->
  (ui = None -> forall x, path = Some x -> ~ In 64 x) -> (port = None -> forall x, path = Some x -> ~ In 58 x) ->
  lenN (sch ++ [58; 47; 47] ++ auth_text ui t port ++ path_text path ++ tail_text q f) + 1 < two64 ->
  uri_parse sg mem_all (sch ++ [58; 47; 47] ++ auth_text ui t port ++ path_text path ++ tail_text q f) =
    Ok (mkuri (Some s) u (if is_empty hd then None else Some hd) p (match pd with Some x => Some (47 :: x) | None => None end) qd fd).
Proof.
  intros A1 A2 A3 A4 A5 (Hh & Tno & Uno & Pno) B1 B2 B3 B4 B5 B6 C1 C2 C3 D1 D2 Hlen.
  assert (E : sch ++ [58; 47; 47] ++ auth_text ui t port ++ path_text path ++ tail_text q f =
    (match Some sch with Some x => x ++ [58] | None => [] end) ++ ([47; 47] ++ auth_text ui t port ++ path_text path) ++ tail_text q f).
  { rewrite <- !app_assoc. reflexivity. }
  rewrite E in *.
  assert (Hb : forall c, c = 63 \/ c = 35 -> ~ In c ([47; 47] ++ auth_text ui t port ++ path_text path)).
  { intros c Hc. assert (Hs : In c [47; 63; 35; 64]) by (cbn; destruct Hc; auto).
    unfold auth_text. rewrite !in_app_not. split; [|split; [split; [|split]|]].
    - cbn. intros [X|[X|[]]]; destruct Hc; subst; discriminate.
    - destruct ui as [x|]; [|auto]. rewrite in_app_not. split; [apply (Uno x eq_refl); assumption|].
      intros [X|[]]. destruct Hc; subst; discriminate.
    - apply Tno. assumption.
    - destruct port as [x|]; [|auto]. intros [X|X]; [destruct Hc; subst; discriminate|]. exact (Pno x eq_refl c Hs X).
    - destruct path as [x|]; [|auto]. destruct (B6 x eq_refl) as [Y1 Y2]. intros [X|X]; [destruct Hc; subst; discriminate|].
      destruct Hc; subst; contradiction. }
  rewrite (parse_ok sg (Some sch) (Some s) ([47; 47] ++ auth_text ui t port ++ path_text path) u (if is_empty hd then None else Some hd) p
            (match pd with Some x => Some (47 :: x) | None => None end) q qd f fd).
  - reflexivity.
  - split; assumption.
  - assumption.
  - assumption.
  - intros x X. injection X as <-. auto.
  - discriminate.
  - apply Hb. auto.
  - apply Hb. auto.
  - assumption.
  - rewrite (hier_authority sg ui t h port path u hd p pd); try assumption.
    + destruct hd; reflexivity.
    + apply Tno. cbn. auto.
    + intros x X. apply (Uno x X). cbn. auto.
    + intros x X. apply (Pno x X). cbn. auto.
    + intro X. split; [apply Tno; cbn; auto 6|]. split; [intros x Y; apply (Pno x Y); cbn; auto 6|auto].
    + rewrite !lenN_app in Hlen. rewrite !lenN_app. lia.
  - exact Hlen.
Qed.

Lemma copy_ok mem u : (u_scheme u <> None \/ u_host u = None /\ u_port u = None) -> mem 3 = true -> mem 4 = true ->
  uri_copy mem u = if forallb mem (allocs u) then Ok u else Err ENOMEM.
Proof.
  intros H H3 H4. destruct u as [a b c d e f g]. unfold uri_copy, str_dup, allocs. cbn [u_scheme u_userinfo u_host u_port u_path u_query u_fragment] in *.
  rewrite H3, H4. destruct H as [H|[-> ->]].
  - destruct a as [a|]; [|congruence]. cbn [some is_null negb andb List.app forallb].
    destruct (mem 1) eqn:E1; [|reflexivity]. cbn [is_null negb andb].
    destruct b as [b|]; cbn [some is_null negb andb List.app forallb]; [destruct (mem 2) eqn:E2; [|reflexivity]|];
    destruct c as [c|], d as [d|]; cbn [some is_null negb andb List.app forallb]; rewrite ?H3, ?H4; cbn [some is_null negb andb List.app forallb];
    destruct e as [e|]; cbn [some is_null negb andb List.app forallb]; try (destruct (mem 5) eqn:E5; [|reflexivity]);
    destruct f as [f|]; cbn [some is_null negb andb List.app forallb]; try (destruct (mem 6) eqn:E6; [|reflexivity]);
    destruct g as [g|]; cbn [some is_null negb andb List.app forallb]; try (destruct (mem 7) eqn:E7; [|reflexivity]); cbn [is_null negb andb];
    repeat match goal with |- context [if mem ?k then None else None] => destruct (mem k) end; reflexivity.
  - destruct a as [a|], b as [b|], e as [e|], f as [f|], g as [g|]; cbn [some is_null negb andb List.app forallb];
    repeat match goal with |- context [mem ?k] => destruct (mem k) eqn:?; cbn [some is_null negb andb List.app forallb] end; reflexivity.
Qed.

(** ** Safety *)

(** No undefined behaviour, and a result that satisfies [P]. *)
Definition safe {A} (P : A -> Prop) (r : res A) : Prop := match r with Ok a => P a | Err _ => True | UB _ | OutOfFuel => False end.
Lemma safe_bind {A B} (P : A -> Prop) (Q : B -> Prop) (r : res A) (f : A -> res B) :
  safe P r -> (forall a, P a -> safe Q (f a)) -> safe Q (bind r f).
Proof. destruct r; cbn; auto; contradiction. Qed.

Lemma bytes_firstn n l : bytes_ok l -> bytes_ok (firstn n l).
Proof. unfold bytes_ok. rewrite !Forall_forall. intros H x Hx. apply H. rewrite <- (firstn_skipn n l). apply in_or_app. auto. Qed.
Lemma bytes_skipn n l : bytes_ok l -> bytes_ok (skipn n l).
Proof. unfold bytes_ok. rewrite !Forall_forall. intros H x Hx. apply H. rewrite <- (firstn_skipn n l). apply in_or_app. auto. Qed.

Lemma nth_skipn_at {A} (l : list A) n k d : nth k (skipn n l) d = nth (n + k) l d.
Proof. revert l. induction n as [|n IH]; intro l; [reflexivity|]. destruct l; [destruct k; reflexivity|]. cbn. apply IH. Qed.
Lemma decode_octet_safe sg c s v rest : uri_decode_octet sg (c :: s) = (Some v, rest) -> bytes_ok (c :: s) ->
  v < 256 /\ bytes_ok rest /\ (length rest <= length s)%nat.
Proof.
  unfold uri_decode_octet. intros H Hb. inversion_clear Hb as [|? ? Hc Hs]. unfold byte_ok in Hc.
  destruct (c =? 37).
  - remember (skipn 2 s) as rs eqn:Ers. remember (firstn 2 s) as fs. injection H as H <-. subst rs fs. split; [|split; [apply bytes_skipn; exact Hs|rewrite skipn_length; lia]].
    unfold uri_2_hex_to_int in H.
    assert (X : forall a v, uri_hex_to_int a = Some v -> v < 16).
    { intros a w. unfold uri_hex_to_int. generalize (to_upper a). intro x.
      destruct (N.leb_spec 65 x), (N.leb_spec x 70); cbn [andb]; try (intro E; injection E as <-; lia);
      destruct (N.leb_spec 48 x), (N.leb_spec x 57); cbn [andb]; try discriminate; intro E; injection E as <-; lia. }
    destruct (uri_hex_to_int (nth 0 _ 0)) as [i|] eqn:E1; [|discriminate].
    destruct (uri_hex_to_int (nth 1 _ 0)) as [j|] eqn:E2; [|discriminate]. injection H as <-.
    rewrite lor_hex by (eapply X; eassumption). pose proof (X _ _ E1). pose proof (X _ _ E2). lia.
  - destruct sg; [destruct (c =? 255); [discriminate|]|]; injection H as <- <-; auto.
Qed.

Definition dest_ok (len : N) (d : list N) : Prop := lenN d = len /\ bytes_ok d /\ nth (N.to_nat (len - 1)) d 1 = 0.

Lemma decode_safe sg fuel : forall dest src n len, (length src <= fuel)%nat -> bytes_ok src -> dest_ok len dest -> 0 < len -> n + lenN src < two64 ->
  safe (fun r => dest_ok len (fst r)) (uri_decode_from fuel sg dest src n len).
Proof.
  induction fuel as [|fuel IH]; intros dest src n len Hf Hs Hd Hl Hn; (destruct src as [|c src]; [exact Hd|]); [cbn in Hf; lia|].
  cbn [uri_decode_from]. destruct (uri_decode_octet sg (c :: src)) as [[v|] rest] eqn:E; [|exact I].
  apply decode_octet_safe in E; [|exact Hs]. destruct E as (Hv & Hr & Hlen). cbn [length] in Hf. rewrite lenN_cons in Hn.
  rewrite add64_ok by lia.
  apply safe_bind with (dest_ok len).
  - destruct (N.ltb_spec (n + 1) len) as [Hn2|]; [|exact Hd]. destruct Hd as (D1 & D2 & D3).
    rewrite store_ok by lia. cbn [safe]. split; [|split].
    + unfold lenN in *. rewrite app_length, firstn_length. cbn [length]. rewrite skipn_length. lia.
    + apply Forall_app. split; [apply bytes_firstn; exact D2|]. constructor; [exact Hv|apply bytes_skipn; exact D2].
    + rewrite app_nth2; rewrite firstn_length; unfold lenN in *; [|lia].
      replace (N.to_nat (len - 1) - Nat.min (N.to_nat n) (length dest))%nat with (S (N.to_nat (len - 1) - N.to_nat n - 1)) by lia.
      cbn [nth]. rewrite nth_skipn_at. rewrite <- D3. f_equal. lia.
  - intros d Hd'. apply IH; [lia|assumption|exact Hd'|assumption|]. unfold lenN in *. lia.
Qed.

Lemma cstr_safe d : bytes_ok d -> In 0 d -> safe (fun s => bytes_ok s /\ ~ In 0 s) (cstr d).
Proof.
  induction d as [|c d IH]; intros Hb Hin; [contradiction|]. cbn [cstr]. inversion_clear Hb as [|? ? Hc Hd].
  destruct (N.eqb_spec c 0) as [->|]; [split; [constructor|auto]|].
  destruct Hin as [|Hin]; [congruence|]. eapply safe_bind; [apply IH; assumption|]. intros s [H1 H2].
  split; [constructor; assumption|]. intros [|]; [congruence|contradiction].
Qed.
Lemma dest_cstr len d pre : dest_ok len d -> bytes_ok pre -> 0 < len -> safe (fun s => str_ok (Some s)) (cstr (pre ++ d)).
Proof.
  intros (D1 & D2 & D3) Hp Hl. apply cstr_safe; [apply Forall_app; auto|]. apply in_or_app. right.
  rewrite <- D3. apply nth_In. unfold lenN in *. lia.
Qed.
Lemma zeros_ok len : 0 < len -> dest_ok len (repeat 0 (N.to_nat len)).
Proof.
  intro H. split; [rewrite lenN_repeat; lia|]. split; [apply Forall_forall; intros x Hx; apply repeat_spec in Hx; subst x; reflexivity|].
  rewrite nth_indep with (d' := 0) by (rewrite repeat_length; lia). apply nth_repeat.
Qed.

Lemma component_safe sg mem p : bytes_ok p -> lenN p + 1 < two64 -> safe (fun s => str_ok (Some s)) (uri_component sg mem p).
Proof.
  intros Hp Hl. unfold uri_component. destruct mem; [|exact I]. cbn [negb]. rewrite add64_ok by lia. unfold uri_decode_str.
  eapply safe_bind; [apply decode_safe; try assumption; try lia; apply zeros_ok; lia|]. intros [d n] Hd. cbn [fst] in Hd.
  destruct (_ <=? n); [exact I|]. apply (dest_cstr _ d [] Hd); [constructor|lia].
Qed.
Lemma component_path_safe sg mem p : bytes_ok p -> lenN p + 1 < two64 -> safe (fun s => str_ok (Some s)) (uri_component_path sg mem p).
Proof.
  intros Hp Hl. unfold uri_component_path. destruct mem; [|exact I]. cbn [negb]. rewrite add64_ok by lia. unfold uri_decode_str.
  eapply safe_bind; [apply decode_safe; try assumption; try lia; apply zeros_ok; lia|]. intros [d n] Hd. cbn [fst] in Hd.
  destruct (_ <=? n); [exact I|]. apply (dest_cstr _ d [47] Hd); [repeat constructor|lia].
Qed.
Lemma set_path_safe sg mem p : bytes_ok p -> lenN p + 2 < two64 -> safe (fun s => str_ok (Some s)) (uri_set_path sg mem p).
Proof.
  intros Hp Hl. unfold uri_set_path. destruct mem; [|exact I]. cbn [negb].
  destruct (nth 0 p 0 =? 47); cbn [negb]; rewrite (add64_ok (lenN p) 1), add64_ok by lia.
  - cbn [bind]. eapply safe_bind; [apply decode_safe; try assumption; try lia; apply zeros_ok; lia|]. intros [d n] Hd. cbn [fst] in Hd.
    destruct (_ <=? n); [exact I|]. apply (dest_cstr _ d [] Hd); [constructor|lia].
  - apply safe_bind with (fun r => dest_ok (lenN p + 1 + 1) (fst r) /\ snd r = 1).
    + pose proof (zeros_ok (lenN p + 1 + 1) ltac:(lia)) as Z.
      pose proof (decode_safe sg 1 _ [47] 0 _ ltac:(cbn; lia) ltac:(repeat constructor) Z ltac:(lia) ltac:(change (lenN [47]) with 1; lia)) as S.
      unfold uri_decode_str. change (length [47]) with 1%nat. cbn [uri_decode_from] in *.
      assert (Eo : uri_decode_octet sg [47] = (Some 47, [])) by (destruct sg; reflexivity). rewrite Eo in *.
      match goal with |- context [bind ?x _] => destruct x as [d| | |] end; cbn in S |- *; try contradiction; auto.
    + intros [d n] [Hd Hn]. cbn [fst snd] in *. subst n.
      eapply safe_bind; [apply decode_safe; try eassumption; try lia|]. intros [d' n] Hd'. cbn [fst] in Hd'.
      destruct (_ <=? n); [exact I|]. apply (dest_cstr _ d' [] Hd'); [constructor|lia].
Qed.

(** Lengths of the parts of a string. *)
Lemma cut_sub c s a b : str_cut c s = Some (a, b) -> s = a ++ c :: b.
Proof.
  revert a b. induction s as [|x s IH]; intros a b H; [discriminate|]. cbn [str_cut] in H.
  destruct (N.eqb_spec x c) as [->|]; [injection H as <- <-; reflexivity|].
  destruct (str_cut c s) as [[a' b']|]; [|discriminate]. injection H as <- <-. cbn. rewrite <- (IH a' b') by reflexivity. reflexivity.
Qed.
Lemma port_sub i s a b : uri_find_port i s = Some (a, b) -> s = a ++ 58 :: b.
Proof.
  revert i a b. induction s as [|x s IH]; intros i a b H; [discriminate|]. cbn [uri_find_port] in H.
  set (j := if negb i then _ else _) in H. destruct (negb j && (x =? 58)) eqn:E.
  - apply andb_prop in E. destruct E as [_ E]. apply N.eqb_eq in E. injection H as <- <-. subst x. reflexivity.
  - destruct (uri_find_port j s) as [[a' b']|] eqn:E2; [|discriminate]. injection H as <- <-. cbn. rewrite <- (IH j a' b') by exact E2. reflexivity.
Qed.
Lemma sep_sub d s a b : str_sep d s = (a, b) -> s = a ++ match b with Some (c, t) => c :: t | None => [] end.
Proof.
  revert a b. induction s as [|x s IH]; intros a b H; [injection H as <- <-; reflexivity|]. cbn [str_sep] in H.
  destruct (in_str x d); [injection H as <- <-; reflexivity|].
  destruct (str_sep d s) as [a' b'] eqn:E. injection H as <- <-. cbn. rewrite <- (IH a' b') by reflexivity. reflexivity.
Qed.
Lemma bytes_app_inv a b : bytes_ok (a ++ b) -> bytes_ok a /\ bytes_ok b.
Proof. apply Forall_app. Qed.
Lemma bytes_cons_inv c b : bytes_ok (c :: b) -> bytes_ok b.
Proof. intro H. inversion H. assumption. Qed.

(** Strings that are no longer than [L], or [L + 1] with a slash. *)
Section Sized.
Context (L : N) (HL : L + 1 < two64).
Definition sized (s : option (list N)) : Prop := match s with Some s => str_ok (Some s) /\ lenN s <= L + 1 | None => True end.
Definition fits (p : list N) : Prop := bytes_ok p /\ lenN p <= L.
Lemma cstr_len d : safe (fun s => lenN s < lenN d) (cstr d) \/ cstr d = UB OobRead.
Proof.
  induction d as [|c d IH]; [right; reflexivity|]. cbn [cstr]. destruct (c =? 0); [left; unfold safe; rewrite lenN_cons; unfold lenN; cbn [length]; lia|].
  destruct IH as [IH|IH]; [|rewrite IH; right; reflexivity]. left. eapply safe_bind; [exact IH|]. intros s Hs. unfold safe. unfold lenN in *. cbn [length]. lia.
Qed.
Lemma sized_of d r : lenN d <= L + 2 -> safe (fun s => str_ok (Some s)) r -> r = cstr d -> safe (fun s => sized (Some s)) r.
Proof.
  intros Hd H E. destruct (cstr_len d) as [S|S]; rewrite <- E in S; [|rewrite S in H; contradiction].
  destruct r; cbn in *; auto. split; [exact H|]. lia.
Qed.
Lemma component_sized sg mem p : fits p -> safe (fun s => sized (Some s)) (uri_component sg mem p).
Proof.
  intros [Hp Hl]. unfold uri_component. destruct mem; [|exact I]. cbn [negb]. rewrite add64_ok by lia. unfold uri_decode_str.
  eapply safe_bind; [apply decode_safe; try assumption; try lia; apply zeros_ok; lia|]. intros [d n] Hd. cbn [fst] in Hd.
  destruct (_ <=? n); [exact I|]. apply (sized_of d); [destruct Hd; lia| |reflexivity]. apply (dest_cstr _ d [] Hd); [constructor|lia].
Qed.
Lemma component_path_sized sg mem p : fits p -> safe (fun s => sized (Some s)) (uri_component_path sg mem p).
Proof.
  intros [Hp Hl]. unfold uri_component_path. destruct mem; [|exact I]. cbn [negb]. rewrite add64_ok by lia. unfold uri_decode_str.
  eapply safe_bind; [apply decode_safe; try assumption; try lia; apply zeros_ok; lia|]. intros [d n] Hd. cbn [fst] in Hd.
  destruct (_ <=? n); [exact I|]. apply (sized_of (47 :: d)); [destruct Hd; rewrite lenN_cons; lia| |reflexivity].
  apply (dest_cstr _ d [47] Hd); [repeat constructor|lia].
Qed.
Lemma fits_app a b : fits (a ++ b) -> fits a /\ fits b.
Proof. intros [H1 H2]. apply bytes_app_inv in H1. rewrite lenN_app in H2. destruct H1. split; (split; [assumption|lia]). Qed.
Lemma fits_cons c b : fits (c :: b) -> fits b.
Proof. intros [H1 H2]. apply bytes_cons_inv in H1. rewrite lenN_cons in H2. split; [assumption|lia]. Qed.
Lemma fits_cut c s a b : str_cut c s = Some (a, b) -> fits s -> fits a /\ fits b.
Proof. intros H F. rewrite (cut_sub _ _ _ _ H) in F. apply fits_app in F. destruct F as [F1 F2]. apply fits_cons in F2. auto. Qed.
Lemma fits_port i s a b : uri_find_port i s = Some (a, b) -> fits s -> fits a /\ fits b.
Proof. intros H F. rewrite (port_sub _ _ _ _ H) in F. apply fits_app in F. destruct F as [F1 F2]. apply fits_cons in F2. auto. Qed.
Lemma fits_sep d s a b : str_sep d s = (a, b) -> fits s -> fits a /\ match b with Some (_, t) => fits t | None => True end.
Proof.
  intros H F. rewrite (sep_sub _ _ _ _ H) in F. apply fits_app in F. destruct F as [F1 F2]. split; [exact F1|].
  destruct b as [[c t]|]; [|exact I]. apply fits_cons in F2. exact F2.
Qed.
Lemma fits_strip p : fits p -> fits (removelast (tl p)).
Proof.
  intro F. assert (F2 : fits (tl p)) by (destruct p; [exact F|apply fits_cons in F; exact F]).
  destruct (tl p) as [|x t] eqn:E; [exact F2|]. rewrite (app_removelast_last x (l := x :: t)) in F2 by discriminate.
  apply fits_app in F2. tauto.
Qed.

Lemma opt_safe (r : res (list N)) : safe (fun s => sized (Some s)) r -> safe sized (let* c := r in Ok (Some c)).
Proof. intro H. eapply safe_bind; [exact H|]. intros s Hs. exact Hs. Qed.

Lemma hier_safe sg mem p : fits p ->
  safe (fun r => let '(a, b, c, d) := r in sized a /\ sized b /\ sized c /\ sized d) (uri_parse_hier_part sg mem p).
Proof.
  intro F. unfold uri_parse_hier_part. destruct (_ && _ && _).
  2:{ destruct (_ <? _); [|cbn; auto]. eapply safe_bind; [apply component_sized; apply F|]. intros s Hs. cbn. auto. }
  assert (F2 : fits (skipn 2 p)) by (rewrite <- (firstn_skipn 2 p) in F; apply fits_app in F; tauto).
  set (q := skipn 2 p) in *. clearbody q. clear F p.
  apply safe_bind with (fun r => sized (fst r) /\ fits (snd r)).
  { destruct (str_cut 64 q) as [[a b]|] eqn:E; [|cbn; auto]. apply fits_cut in E; [|exact F2].
    eapply safe_bind; [apply component_sized; apply E|]. intros s Hs. split; [exact Hs|apply E]. }
  intros [u q'] [Hu Fq]. cbn [fst snd] in *. clear F2 q.
  set (trip := match uri_find_port false q' with
      | Some (p0, port0) => match str_cut 47 port0 with Some (port1, path0) => (p0, Some port1, Some path0) | None => (p0, Some port0, None) end
      | None => match str_cut 47 q' with Some (p0, path0) => (p0, None, Some path0) | None => (q', None, None) end
      end).
  assert (Ft : let '(h, port, path) := trip in fits h /\ (forall x, port = Some x -> fits x) /\ (forall x, path = Some x -> fits x)).
  { unfold trip. destruct (uri_find_port false q') as [[a b]|] eqn:E.
    - apply fits_port in E; [|exact Fq]. destruct E as [Ea Eb]. destruct (str_cut 47 b) as [[c d]|] eqn:E2.
      + apply fits_cut in E2; [|exact Eb]. destruct E2. split; [assumption|]. split; intros x X; injection X as <-; assumption.
      + split; [assumption|]. split; intros x X; [injection X as <-; assumption|discriminate].
    - destruct (str_cut 47 q') as [[c d]|] eqn:E2.
      + apply fits_cut in E2; [|exact Fq]. destruct E2. split; [assumption|]. split; intros x X; [discriminate|injection X as <-; assumption].
      + split; [assumption|]. split; discriminate. }
  clearbody trip. destruct trip as [[h port] path]. destruct Ft as (F1 & F2 & F3). fold (strip h).
  assert (Fs : fits (fst (strip h))) by (unfold strip; destruct (_ && _ && _); [apply fits_strip; exact F1|exact F1]).
  destruct (strip h) as [h' len]. cbn [fst] in Fs.
  apply safe_bind with sized.
  { destruct (_ <? _); [|exact I]. apply opt_safe. apply component_sized; apply Fs. }
  intros host Hh. apply safe_bind with sized.
  { destruct port as [x|]; [|exact I]. apply opt_safe. apply component_sized; apply (F2 x eq_refl). }
  intros pt Hp. apply safe_bind with sized.
  { destruct path as [x|]; [|exact I]. apply opt_safe. apply component_path_sized; apply (F3 x eq_refl). }
  intros pa Hpa. cbn. auto.
Qed.

Lemma parse_sized sg mem s : fits s -> safe (fun u => sized (u_scheme u) /\ sized (u_userinfo u) /\ sized (u_host u) /\ sized (u_port u) /\ sized (u_path u) /\ sized (u_query u) /\ sized (u_fragment u)) (uri_parse sg mem s).
Proof.
  intro F. unfold uri_parse. destruct (mem 0); [|exact I]. cbn [negb].
  apply safe_bind with (fun r => sized (fst r) /\ fits (snd r)).
  { destruct (negb _); [|cbn; auto]. unfold uri_parse_scheme. destruct (str_cut 58 s) as [[a b]|] eqn:E; [|cbn; auto].
    apply fits_cut in E; [|exact F]. destruct E as [Ea Eb]. apply safe_bind with sized.
    - destruct (_ <? _); [|exact I]. apply opt_safe. apply component_sized; apply Ea.
    - intros o Ho. cbn. auto. }
  intros [sch q] [Hs Fq]. cbn [fst snd] in *. destruct (str_sep [63; 35] q) as [p r] eqn:E. apply fits_sep in E; [|exact Fq]. destruct E as [Fp Fr].
  eapply safe_bind; [apply hier_safe; exact Fp|]. intros [[[ui h] pt] pa] (H1 & H2 & H3 & H4).
  apply safe_bind with (fun x => sized (fst x) /\ match snd x with Some (_, t) => fits t | None => True end).
  { destruct r as [[c t]|]; [|cbn; auto]. destruct (c =? 63); [|cbn; auto]. destruct (str_sep [35] t) as [a b] eqn:E. apply fits_sep in E; [|exact Fr].
    eapply safe_bind; [apply component_sized; apply E|]. intros s' Hs'. split; [exact Hs'|apply E]. }
  intros [qu r2] [Hq Fr2]. cbn [fst snd] in *.
  apply safe_bind with (fun x => sized (fst x)).
  { destruct r2 as [[c t]|]; [|cbn; auto]. destruct (c =? 35); [|cbn; auto]. destruct (str_sep [] t) as [a b] eqn:E. apply fits_sep in E; [|exact Fr2].
    eapply safe_bind; [apply component_sized; apply E|]. intros s' Hs'. exact Hs'. }
  intros [fr r3] Hf. cbn [fst] in Hf. destruct r3; [exact I|]. cbn. tauto.
Qed.

End Sized.
Lemma parse_safe sg mem s : bytes_ok s -> lenN s + 1 < two64 -> safe strings_ok (uri_parse sg mem s).
Proof.
  intros H1 H2. pose proof (parse_sized (lenN s) H2 sg mem s (conj H1 (N.le_refl _))) as P.
  destruct (uri_parse sg mem s) as [u| | |]; cbn in *; auto.
  assert (X : forall o, sized (lenN s) o -> str_ok o) by (intros [o|]; cbn; tauto).
  destruct P as (P1 & P2 & P3 & P4 & P5 & P6 & P7). unfold strings_ok. repeat split; apply X; assumption.
Qed.
