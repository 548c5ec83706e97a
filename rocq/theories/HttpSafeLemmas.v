(** Safety of reading HTTP messages, and reading of chunks. *)
From Verif Require Import Base BaseLemmas BufModel BufLemmas UriModel UriSpec UriLemmas HttpModel HttpSpec HttpLemmas.

(** ** Heads *)

Lemma cut_sound c s a b : str_cut c s = Some (a, b) -> s = a ++ c :: b.
Proof. exact (cut_sub c s a b). Qed.

Lemma start_safe m : In 0 m ->
  safe (fun r => let '(a, b, c, mem, rest) := r in exists p, m = (p ++ crlf) ++ rest /\ lenZ mem = lenZ (p ++ crlf) /\ In 0 rest) (http_parse_start m).
Proof.
  intro H. unfold http_parse_start. destruct (find_safe m H) as [r E]. rewrite E. cbn [bind]. destruct r as [[line rest]|]; [|exact I].
  pose proof (find_rest _ _ _ E H) as Hr. apply find_sound in E. destruct E as [-> _].
  destruct (str_cut 32 line) as [[a l]|] eqn:E1; [|exact I]. apply cut_sound in E1.
  destruct (lenN a =? 0); [exact I|]. destruct (str_cut 32 l) as [[b c]|] eqn:E2; [|exact I]. apply cut_sound in E2.
  destruct (lenN b =? 0); [exact I|]. destruct (lenN c =? 0); [exact I|]. cbn [safe].
  exists line. split; [rewrite <- app_assoc; reflexivity|]. split; [|exact Hr].
  subst. unfold lenZ, crlf. repeat (rewrite app_length; cbn [length]). lia.
Qed.

Lemma line_safe fuel : forall pre m, (length m < fuel)%nat -> In 0 m ->
  safe (fun r => In 0 (snd r) /\ (length (snd r) < length m)%nat /\
    match fst r with Some line => pre ++ m = line ++ crlf ++ snd r | None => pre = [] /\ m = crlf ++ snd r end) (http_header_line fuel pre m).
Proof.
  induction fuel as [|fuel IH]; intros pre m Hf H; [lia|]. cbn [http_header_line].
  destruct (find_safe m H) as [r E]. rewrite E. cbn [bind]. destruct r as [[a rest]|]; [|exact I].
  pose proof (find_rest _ _ _ E H) as Hr. apply find_sound in E. destruct E as [-> Ha]. rewrite app_length in *. cbn [length] in *.
  destruct (N.eqb_spec (lenN (pre ++ a)) 0) as [X|X].
  - rewrite lenN_app in X. assert (pre = []) by (destruct pre; [reflexivity|rewrite lenN_cons in X; lia]).
    assert (a = []) by (destruct a; [reflexivity|rewrite lenN_cons in X; lia]). subst. cbn. repeat split; try assumption; lia.
  - destruct rest as [|c rest]; [contradiction|]. destruct ((c =? 32) || (c =? 9)) eqn:Ec.
    + assert (Hc : c <> 0) by (intros ->; discriminate).
      destruct Hr as [|Hr]; [congruence|]. cbn [length] in *. specialize (IH (pre ++ a ++ [13; 10; c]) rest ltac:(lia) Hr).
      destruct (http_header_line fuel (pre ++ a ++ [13; 10; c]) rest) as [[l r]| | |]; cbn in IH |- *; try contradiction; auto.
      destruct IH as (I1 & I2 & I3). split; [exact I1|]. split; [lia|]. destruct l as [l|].
      * rewrite <- I3. rewrite <- !app_assoc. reflexivity.
      * destruct I3 as [I3 _]. destruct pre; [|discriminate]. destruct a; discriminate.
    + cbn. split; [exact Hr|]. split; [lia|]. unfold crlf. rewrite <- app_assoc. reflexivity.
Qed.

Lemma headers_safe fuel : forall m, (length m < fuel)%nat -> In 0 m ->
  safe (fun r => let '(hs, mem, rest) := r in exists p, (p = [] \/ exists q, p = q ++ crlf) /\ m = (p ++ crlf) ++ rest /\ lenZ mem = lenZ (p ++ crlf) /\ In 0 rest /\
    forall h, In h hs -> exists a v b, m = a ++ v ++ b /\ snd h = trim_ws v) (http_parse_headers fuel m).
Proof.
  induction fuel as [|fuel IH]; intros m Hf H; [lia|]. cbn [http_parse_headers].
  eapply safe_bind; [apply line_safe; [|exact H]; lia|]. intros [l rest] (R1 & R2 & R3). cbn [fst snd] in *.
  destruct l as [line|].
  - cbn [List.app] in R3. destruct (str_cut 58 line) as [[name value]|] eqn:E; [|exact I]. apply cut_sound in E.
    eapply safe_bind; [apply IH; [lia|exact R1]|]. intros [[hs mem] rest'] (p & P0 & P1 & P2 & P3 & P4). cbn [safe].
    exists (line ++ crlf ++ p). split; [right; destruct P0 as [->|[q ->]]; [exists line; rewrite app_nil_r; reflexivity|exists (line ++ crlf ++ q); rewrite <- !app_assoc; reflexivity]|]. split; [rewrite R3, P1, <- !app_assoc; reflexivity|]. split; [|split; [exact P3|]].
    + subst line. unfold lenZ, crlf in *. rewrite app_length in P2. cbn [length] in P2. repeat (rewrite app_length; cbn [length]). rewrite !trim_mem_len. lia.
    + intros h [<-|Hin].
      * exists (name ++ [58]), value, (crlf ++ rest). split; [|reflexivity]. rewrite R3, E. rewrite <- !app_assoc. reflexivity.
      * destruct (P4 h Hin) as (a & v & b & Q1 & Q2). exists (line ++ crlf ++ a), v, b. split; [|exact Q2]. rewrite R3, Q1. rewrite <- !app_assoc. reflexivity.
  - destruct R3 as [_ ->]. cbn. exists []. split; [left; reflexivity|]. repeat split; [exact R1|]. intros h [].
Qed.

(** ** White space around a word *)

Lemma squash_true s : squash true s = [] \/ exists t, squash true s = 32 :: t.
Proof. induction s as [|c s IH]; cbn [squash]; [auto|]. destruct (is_space c); [exact IH|]. right. eexists. reflexivity. Qed.
Lemma squash_inside s : ~ In 32 (squash false s) -> exists b, s = squash false s ++ b.
Proof.
  induction s as [|c s IH]; intro H; [exists []; reflexivity|]. cbn [squash List.app] in *. destruct (is_space c) eqn:E.
  - destruct (squash_true s) as [->|[t Et]]; [exists (c :: s); reflexivity|]. rewrite Et in H. exfalso. apply H. left. reflexivity.
  - destruct IH as [b Eb]; [intro; apply H; right; assumption|]. exists b. rewrite Eb at 1. reflexivity.
Qed.
Lemma drop_suffix s : exists a, s = a ++ drop_ws s.
Proof. induction s as [|c s [a IH]]; [exists []; reflexivity|]. cbn [drop_ws]. destruct (is_space c); [exists (c :: a); cbn; congruence|exists []; reflexivity]. Qed.
Lemma trim_inside s : ~ In 32 (trim_ws s) -> exists a b, s = a ++ trim_ws s ++ b.
Proof.
  intro H. destruct (drop_suffix s) as [a Ea]. destruct (squash_inside (drop_ws s) H) as [b Eb]. exists a, b.
  unfold trim_ws. rewrite <- Eb. exact Ea.
Qed.
Lemma chunked_no_space s : same_name s chunked -> ~ In 32 s.
Proof.
  intros H Hin. unfold same_name in H. assert (X : In (upper 32) (map upper s)) by (apply in_map; exact Hin). rewrite H in X.
  vm_compute in X. intuition discriminate.
Qed.

Lemma not_chunked_head m hs : never_chunked m -> (forall h, In h hs -> exists a v b, m = a ++ v ++ b /\ snd h = trim_ws v) -> not_chunked hs.
Proof.
  intros Hn H h Hin [_ Hc]. destruct (H h Hin) as (a & v & b & E & Ev). pose proof (chunked_no_space _ Hc) as Hs. rewrite Ev in *.
  destruct (trim_inside v Hs) as (x & y & Exy). apply (Hn (a ++ x) (trim_ws v) (y ++ b)); [|exact Hc].
  rewrite E, Exy at 1. rewrite <- !app_assoc. reflexivity.
Qed.

(** ** Chunks *)

Definition soft1 (a b : N) : Prop := b = a \/ a = 59 /\ b = 32.
Definition soft : list N -> list N -> Prop := Forall2 soft1.
Lemma soft_refl s : soft s s.
Proof. induction s; constructor; [left; reflexivity|assumption]. Qed.
Lemma soft_trans a b c : soft a b -> soft b c -> soft a c.
Proof.
  intro H. revert c. induction H as [|x y a b Hx Ha IH]; intros c Hc; inversion Hc; subst; constructor; [|apply IH; assumption].
  unfold soft1 in *. intuition congruence.
Qed.
Lemma soft_len a b : soft a b -> length a = length b.
Proof. intro H. induction H; cbn; congruence. Qed.
Lemma soft_app a b c d : soft a b -> soft c d -> soft (a ++ c) (b ++ d).
Proof. intros H1 H2. induction H1; [exact H2|]. constructor; assumption. Qed.
Lemma soft_skipn n a b : soft a b -> soft (skipn n a) (skipn n b).
Proof. revert a b. induction n as [|n IH]; intros a b H; [exact H|]. destruct H; [constructor|]. cbn. apply IH. assumption. Qed.
Lemma soft_nth a b i : soft a b -> soft1 (nth i a 0) (nth i b 0).
Proof. intro H. revert i. induction H as [|x y a b Hx Ha IH]; intro i; [destruct i; left; reflexivity|]. destruct i; [exact Hx|apply IH]. Qed.
Lemma soft_cut s : soft s (match str_cut 59 s with Some (a, b) => a ++ 32 :: b | None => s end).
Proof.
  destruct (str_cut 59 s) as [[a b]|] eqn:E; [|apply soft_refl]. apply cut_sound in E. subst s.
  apply soft_app; [apply soft_refl|]. constructor; [right; auto|apply soft_refl].
Qed.
Lemma soft_in0 a b : soft a b -> In 0 a -> In 0 b.
Proof. intros H. induction H as [|x y a b Hx Ha IH]; intro Hin; [exact Hin|]. destruct Hin as [->|Hin]; [left|right; auto]. destruct Hx as [|[]]; congruence. Qed.

Lemma soft_find s s' a b : soft s s' -> find_crlf s = Ok (Some (a, b)) -> exists a' b', find_crlf s' = Ok (Some (a', b')) /\ soft a a' /\ soft b b'.
Proof.
  intro H. revert a b. induction H as [|x y s s' Hx Hs IH]; intros a b E; [discriminate|]. cbn [find_crlf] in *.
  destruct (N.eqb_spec x 0); [discriminate|]. destruct Hs as [|u v s s' Hu Hs]; [discriminate|].
  assert (Hy : (y =? 0) = false) by (destruct (N.eqb_spec y 0); [destruct Hx as [|[]]; congruence|reflexivity]). rewrite Hy.
  assert (Hb : (y =? 13) && (v =? 10) = (x =? 13) && (u =? 10)).
  { destruct Hx as [->|[-> ->]]; [|reflexivity]. destruct Hu as [->|[-> ->]]; reflexivity. }
  rewrite Hb. destruct ((x =? 13) && (u =? 10)).
  - injection E as <- <-. exists [], s'. split; [reflexivity|]. split; [constructor|assumption].
  - destruct (find_crlf (u :: s)) as [[[p q]|]| | |]; try discriminate. injection E as <- <-.
    destruct (IH p q eq_refl) as (p' & q' & E' & Sp & Sq). rewrite E'. exists (y :: p'), q'. split; [reflexivity|]. split; [constructor; assumption|assumption].
Qed.

(** Scanning. *)
Lemma hex_int c : match uri_hex_to_int c with Some d => hexadecimal c = true /\ d < 16 | None => hexadecimal c = false end.
Proof.
  unfold uri_hex_to_int, to_upper, hexadecimal.
  destruct (N.leb_spec 97 c), (N.leb_spec c 122); cbn [andb];
  repeat match goal with |- context [?a <=? ?b] => destruct (N.leb_spec a b); cbn [andb orb] end; try lia; try reflexivity; split; try reflexivity; lia.
Qed.
Lemma digits_soft s s' : soft s s' -> digits_of uri_hex_to_int s = digits_of uri_hex_to_int s'.
Proof.
  intro H. induction H as [|x y s s' Hx Hs IH]; [reflexivity|]. cbn [digits_of].
  destruct Hx as [->|[-> ->]]; [destruct (uri_hex_to_int x); congruence|reflexivity].
Qed.
Lemma drop_soft s s' : soft s s' -> (exists r, drop_ws s = 59 :: r) \/ soft (drop_ws s) (drop_ws s').
Proof.
  intro H. induction H as [|x y s s' Hx Hs IH]; [right; constructor|]. cbn [drop_ws].
  destruct Hx as [->|[-> ->]]; [|left; eexists; reflexivity].
  destruct (is_space x); [exact IH|]. right. constructor; [left; reflexivity|assumption].
Qed.
Definition hexes (u : list N) : list N :=
  match u with
  | 48 :: c :: t => if (c =? 120) || (c =? 88) then 0 :: digits_of uri_hex_to_int t else digits_of uri_hex_to_int u
  | _ => digits_of uri_hex_to_int u
  end.
Definition scanned (neg : bool) (ds : list N) : option Z :=
  match ds with
  | [] => None
  | _ => let v := value_of 16 ds in Some (to_int (if (18446744073709551615 <? v)%Z then 18446744073709551615 else if neg then - v else v)%Z)
  end.
Lemma scan_def s : scan_hex s = let (neg, u) := sign_of (drop_ws s) in scanned neg (hexes u).
Proof. reflexivity. Qed.
Lemma hexes_cases u : (exists c t, u = 48 :: c :: t /\ (c = 120 \/ c = 88) /\ hexes u = 0 :: digits_of uri_hex_to_int t) \/ hexes u = digits_of uri_hex_to_int u.
Proof.
  destruct u as [|p u]; [right; reflexivity|]. destruct (N.eq_dec p 48) as [->|Np].
  - destruct u as [|c t]; [right; reflexivity|]. cbn [hexes]. destruct (N.eqb_spec c 120); [left; exists c, t; auto|].
    destruct (N.eqb_spec c 88); [left; exists c, t; auto|]. right. reflexivity.
  - right. cbn [hexes]. destruct p as [|p]; [reflexivity|]. do 6 (destruct p as [p|p|]; try reflexivity). congruence.
Qed.
Lemma hexes_soft u u' : soft u u' -> hexes u = hexes u'.
Proof.
  intro H. pose proof (digits_soft u u' H) as D. destruct (hexes_cases u) as [(c & t & E & Hc & Ed)|Ed].
  - subst u. inversion H as [|? x ? r1 H1 H2 E1 E2]; subst. inversion H2 as [|? y ? r2 H3 H4 E1 E2]; subst.
    destruct H1 as [->|[? _]]; [|discriminate]. destruct H3 as [->|[-> _]]; [|destruct Hc; discriminate]. rewrite Ed.
    cbn [hexes]. destruct Hc as [-> | ->]; cbn; rewrite (digits_soft t r2 H4); reflexivity.
  - rewrite Ed. destruct (hexes_cases u') as [(c & t & E & Hc & Ed')|Ed']; [|congruence].
    subst u'. inversion H as [|x ? r1 ? H1 H2 E1 E2]; subst. inversion H2 as [|y ? r2 ? H3 H4 E1 E2]; subst.
    destruct H1 as [<-|[_ ?]]; [|discriminate]. destruct H3 as [<-|[_ ->]]; [|destruct Hc; discriminate]. rewrite Ed'.
    rewrite <- Ed. cbn [hexes]. destruct Hc as [-> | ->]; cbn; rewrite (digits_soft _ _ H4); reflexivity.
Qed.
Lemma scan_soft s s' v : soft s s' -> scan_hex s = Some v -> scan_hex s' = Some v.
Proof.
  intros H E. rewrite scan_def in *. destruct (drop_soft s s' H) as [[r Er]|Hd]; [rewrite Er in E; discriminate|].
  destruct Hd as [|x y t t' Hx Ht]; [discriminate|]. destruct Hx as [->|[-> ->]]; [|discriminate].
  cbn [sign_of] in *. assert (Hxt : soft (x :: t) (x :: t')) by (constructor; [left; reflexivity|exact Ht]).
  destruct (x =? 45); [rewrite <- (hexes_soft t t' Ht); exact E|]. destruct (x =? 43); [rewrite <- (hexes_soft t t' Ht); exact E|].
  rewrite <- (hexes_soft _ _ Hxt). exact E.
Qed.

(** Sizes in calm memory are small. *)
Lemma value_bound ds : forall v, (0 <= v)%Z -> Forall (fun d => d < 16) ds ->
  (0 <= fold_left (fun v d => (v * 16 + Z.of_N d)%Z) ds v <= v * 16 ^ lenZ ds + (16 ^ lenZ ds - 1))%Z.
Proof.
  unfold lenZ. induction ds as [|d ds IH]; intros v Hv Hd; [cbn; lia|]. inversion Hd; subst. cbn [fold_left length].
  rewrite Nat2Z.inj_succ, Z.pow_succ_r by lia. specialize (IH (v * 16 + Z.of_N d)%Z ltac:(lia) ltac:(assumption)).
  assert (0 < 16 ^ Z.of_nat (length ds))%Z by (apply Z.pow_pos_nonneg; lia). nia.
Qed.
Lemma digits_lt s : Forall (fun d => d < 16) (digits_of uri_hex_to_int s).
Proof. induction s as [|c s IH]; cbn [digits_of]; [constructor|]. pose proof (hex_int c) as H. destruct (uri_hex_to_int c); [constructor; [apply H|exact IH]|constructor]. Qed.
Lemma digits_prefix s : exists h t, s = h ++ t /\ forallb hexadecimal h = true /\ length h = length (digits_of uri_hex_to_int s).
Proof.
  induction s as [|c s (h & t & E & H1 & H2)]; [exists [], []; auto|]. cbn [digits_of]. pose proof (hex_int c) as H. destruct (uri_hex_to_int c) as [d|].
  - exists (c :: h), t. cbn. destruct H as [-> _]. rewrite H1, H2, E. auto.
  - exists [], (c :: s). auto.
Qed.
Lemma digits_eight s : (8 <= length (digits_of uri_hex_to_int s))%nat -> exists ds t, s = ds ++ t /\ length ds = 8%nat /\ forallb hexadecimal ds = true.
Proof.
  intro H. destruct (digits_prefix s) as (h & t & E & H1 & H2). exists (firstn 8 h), (skipn 8 h ++ t).
  split; [rewrite app_assoc, firstn_skipn; exact E|]. split; [rewrite firstn_length; lia|].
  rewrite <- (firstn_skipn 8 h), forallb_app in H1. apply andb_prop in H1. tauto.
Qed.
Lemma drop_blank s : exists w, s = w ++ drop_ws s /\ Forall skipped w.
Proof.
  induction s as [|c s (w & E & H)]; [exists []; auto|]. cbn [drop_ws]. destruct (is_space c) eqn:Ec.
  - exists (c :: w). split; [cbn; congruence|]. constructor; [|exact H]. left. apply space_blank. exact Ec.
  - exists []. auto.
Qed.
Lemma scan_calm s v : ~ wild s -> scan_hex s = Some v -> (0 <= v < 268435456)%Z.
Proof.
  intros Hw E. rewrite scan_def in E. destruct (drop_blank s) as (w & Es & Hb).
  destruct (sign_of (drop_ws s)) as [neg u] eqn:Eg.
  assert (X : neg = false /\ exists sign, (sign = [] \/ sign = [43]) /\ drop_ws s = sign ++ u).
  { unfold sign_of in Eg. destruct (drop_ws s) as [|c t] eqn:Ed; [injection Eg as <- <-; split; [reflexivity|exists []; auto]|].
    destruct (N.eqb_spec c 45) as [->|]; [exfalso; apply Hw; rewrite Es; apply wild_minus; exact Hb|].
    destruct (N.eqb_spec c 43) as [->|]; injection Eg as <- <-; (split; [reflexivity|]); [exists [43]|exists []]; auto. }
  destruct X as [-> (sign & Hs & Eu)]. rewrite Eu in Es.
  assert (Hds : exists ds, hexes u = ds /\ Forall (fun d => d < 16) ds /\ (0 <= value_of 16 ds < 268435456)%Z).
  { exists (hexes u). split; [reflexivity|]. 
    assert (L : forall prefix r, (prefix = [] \/ prefix = [48; 120] \/ prefix = [48; 88]) -> u = prefix ++ r -> (length (digits_of uri_hex_to_int r) < 8)%nat).
    { intros prefix r Hp Er. destruct (Nat.lt_ge_cases (length (digits_of uri_hex_to_int r)) 8) as [|G]; [assumption|]. exfalso.
      destruct (digits_eight r G) as (ds & t & E1 & E2 & E3). apply Hw. rewrite Es, Er, E1. apply wild_long; assumption. }
    assert (V : forall r, (length (digits_of uri_hex_to_int r) < 8)%nat -> (0 <= value_of 16 (digits_of uri_hex_to_int r) < 268435456)%Z).
    { intros r Hr. pose proof (value_bound (digits_of uri_hex_to_int r) 0 ltac:(lia) (digits_lt r)) as B. unfold value_of.
      assert (16 ^ lenZ (digits_of uri_hex_to_int r) <= 16 ^ 7)%Z by (apply Z.pow_le_mono_r; unfold lenZ; lia).
      change (16 ^ 7)%Z with 268435456%Z in *. lia. }
    destruct (hexes_cases u) as [(c & t & E1 & Hc & Ed)|Ed]; rewrite Ed.
    - split; [constructor; [lia|apply digits_lt]|]. change (value_of 16 (0 :: digits_of uri_hex_to_int t)) with (value_of 16 (digits_of uri_hex_to_int t)).
      apply V. apply (L [48; c] t); [|exact E1]. destruct Hc as [-> | ->]; auto.
    - split; [apply digits_lt|]. apply V. apply (L [] u); auto. }
  destruct Hds as (ds & Eh & Hd & Hv). rewrite Eh in E. unfold scanned in E. destruct ds as [|d ds]; [discriminate|]. cbv zeta in E.
  destruct (Z.ltb_spec 18446744073709551615 (value_of 16 (d :: ds))); [lia|]. injection E as <-.
  unfold to_int. cbv zeta. rewrite Z.mod_small by lia. destruct (Z.ltb_spec (value_of 16 (d :: ds)) 2147483648); lia.
Qed.

Lemma calm_after s p s' : calm s -> s = p ++ crlf ++ s' -> calm s'.
Proof.
  intros H E x y Exy Hx. apply (H (p ++ crlf ++ x) y); [rewrite E, Exy, <- !app_assoc; reflexivity|]. right.
  destruct Hx as [->|[x' ->]]; [exists p; rewrite app_nil_r; reflexivity|exists (p ++ crlf ++ x'); rewrite <- !app_assoc; reflexivity].
Qed.
Lemma calm_now s : calm s -> ~ wild s.
Proof. intro H. apply (H [] s); auto. Qed.
Lemma wild_nul s : wild (s ++ [0]) -> wild s.
Proof.
  intro H. remember (s ++ [0]) as r eqn:E. destruct H as [w t Hw|w sign prefix ds t Hw Hs Hp Hd Hx].
  - destruct (exists_last (l := 45 :: t)) as (t' & c & Et); [discriminate|]. rewrite Et, app_assoc in E. apply app_inj_tail in E. destruct E as [<- ->].
    destruct t' as [|d t']; [destruct t; discriminate|]. injection Et as <- _. apply wild_minus. exact Hw.
  - destruct t as [|b t].
    + rewrite app_nil_r in E. destruct (exists_last (l := ds)) as (t' & c & Et); [intros ->; discriminate|]. rewrite Et in *. rewrite forallb_app in Hx. apply andb_prop in Hx. destruct Hx as [_ Hx].
      rewrite !app_assoc in E. apply app_inj_tail in E. destruct E as [_ ->]. discriminate.
    + destruct (exists_last (l := b :: t)) as (t' & c & Et); [discriminate|]. rewrite Et, !app_assoc in E. apply app_inj_tail in E. destruct E as [<- _].
      rewrite <- !app_assoc. apply wild_long; assumption.
Qed.
Lemma calm_nul s : calm s -> calm (s ++ [0]).
Proof.
  intros H x y E Hx. destruct (list_eq_dec N.eq_dec y []) as [->|Hy].
  - intro W. inversion W as [w t Hw E1|w sign prefix ds t Hw Hs Hp Hd Hxx E1]; [destruct w; discriminate|].
    apply app_eq_nil in E1. destruct E1 as [_ E1]. apply app_eq_nil in E1. destruct E1 as [_ E1]. apply app_eq_nil in E1. destruct E1 as [_ E1]. apply app_eq_nil in E1. destruct E1 as [-> _]. discriminate.
  - destruct (exists_last (l := y)) as (t' & c & Et); [exact Hy|]. rewrite Et, app_assoc in E. apply app_inj_tail in E. destruct E as [E <-].
    rewrite Et. intro W. apply (H x t' E Hx). apply wild_nul. exact W.
Qed.

(** ** Passes over the chunks *)
Lemma from_ok m p : (0 <= p <= lenZ m)%Z -> from m p = Ok (skipn (Z.to_nat p) m).
Proof. intro H. unfold from. destruct (Z.leb_spec 0 p); [|lia]. destruct (Z.leb_spec p (lenZ m)); [reflexivity|lia]. Qed.
Lemma byte_ok_at m p : (0 <= p < lenZ m)%Z -> byte_at m p = Ok (nth (Z.to_nat p) m 0).
Proof.
  intro H. unfold byte_at. rewrite from_ok by lia. cbn [bind]. replace (nth (Z.to_nat p) m 0) with (nth 0 (skipn (Z.to_nat p) m) 0) by (rewrite nth_skipn_at; f_equal; lia).
  destruct (skipn (Z.to_nat p) m) eqn:E; [|reflexivity]. apply (f_equal (@length N)) in E. rewrite skipn_length in E. cbn in E. unfold lenZ in H. lia.
Qed.

Definition sized (line : list N) : list N := match str_cut 59 line with Some (a, b) => a ++ 32 :: b | None => line end.
Definition remade (m : list N) (next : Z) (line rest : list N) : list N := firstn (Z.to_nat next) m ++ sized line ++ [13; 10] ++ rest.

Lemma soft_sized line : soft line (sized line).
Proof. apply soft_cut. Qed.
Lemma remade_ok m next line rest : (0 <= next <= lenZ m)%Z -> skipn (Z.to_nat next) m = line ++ 13 :: 10 :: rest ->
  soft m (remade m next line rest) /\ skipn (Z.to_nat next) (remade m next line rest) = sized line ++ [13; 10] ++ rest /\
  skipn (Z.to_nat (next + lenZ line + 2)) (remade m next line rest) = rest.
Proof.
  intros H E. pose proof (soft_len _ _ (soft_sized line)) as L.
  assert (Lf : length (firstn (Z.to_nat next) m) = Z.to_nat next) by (rewrite firstn_length; unfold lenZ in H; lia).
  split; [|split].
  - rewrite <- (firstn_skipn (Z.to_nat next) m) at 1. apply soft_app; [apply soft_refl|]. rewrite E. apply soft_app; [apply soft_sized|]. apply soft_refl.
  - unfold remade. rewrite skipn_app, Lf, Nat.sub_diag, skipn_all2 by lia. reflexivity.
  - unfold remade. rewrite app_assoc, app_assoc, skipn_app, skipn_all2 by (rewrite !app_length, Lf, <- L; cbn [length]; unfold lenZ; lia).
    rewrite !app_length, Lf, <- L. cbn [length List.app]. unfold lenZ. replace (_ - _)%nat with 0%nat by lia. reflexivity.
Qed.

Record good (lim : Z) (m : list N) (next : Z) : Prop := mkgood {
  g_next : (0 <= next <= lim)%Z;
  g_lim : (lim < lenZ m)%Z;
  g_nul : nth (Z.to_nat lim) m 0 = 0;
  g_calm : calm (skipn (Z.to_nat next) m)
}.
Lemma good_in lim m next : good lim m next -> In 0 (skipn (Z.to_nat next) m).
Proof.
  intros [H1 H2 H3 _]. rewrite <- H3. replace (Z.to_nat lim) with (Z.to_nat next + (Z.to_nat lim - Z.to_nat next))%nat by lia.
  rewrite <- nth_skipn_at. apply nth_In. rewrite skipn_length. unfold lenZ in H2. lia.
Qed.
Lemma good_line lim m next line rest : good lim m next -> skipn (Z.to_nat next) m = line ++ 13 :: 10 :: rest -> ~ In 0 line -> (next + lenZ line + 2 <= lim)%Z.
Proof.
  intros [H1 H2 H3 _] E Hn. destruct (Z.le_gt_cases (next + lenZ line + 2) lim) as [|G]; [assumption|]. exfalso.
  replace (Z.to_nat lim) with (Z.to_nat next + (Z.to_nat lim - Z.to_nat next))%nat in H3 by lia. rewrite <- nth_skipn_at, E in H3.
  set (k := (Z.to_nat lim - Z.to_nat next)%nat) in *. assert (Hk : (k < length line + 2)%nat) by (unfold lenZ in G; lia). clearbody k.
  destruct (Nat.lt_ge_cases k (length line)) as [Hl|Hl].
  - rewrite app_nth1 in H3 by assumption. apply Hn. rewrite <- H3. apply nth_In. assumption.
  - rewrite app_nth2 in H3 by assumption. destruct (k - length line)%nat as [|[|]] eqn:Ek; [discriminate|discriminate|lia].
Qed.
Lemma skipn_skipn {A} (a b : nat) (l : list A) : skipn a (skipn b l) = skipn (a + b) l.
Proof.
  revert l. induction b as [|b IH]; intro l; [rewrite Nat.add_0_r; reflexivity|]. rewrite Nat.add_succ_r. destruct l; [destruct a; reflexivity|]. cbn [skipn]. apply IH.
Qed.

(** The memory after a chunk. *)
Lemma good_next lim m next line rest v : good lim m next -> skipn (Z.to_nat next) m = line ++ 13 :: 10 :: rest -> ~ In 0 line ->
  (0 <= v)%Z -> (next + lenZ line + 2 + v + 2 <= lim)%Z ->
  nth (Z.to_nat (next + lenZ line + 2 + v)) (remade m next line rest) 0 = 13 ->
  nth (Z.to_nat (next + lenZ line + 2 + v + 1)) (remade m next line rest) 0 = 10 ->
  good lim (remade m next line rest) (next + lenZ line + 2 + v + 2).
Proof.
  intros G E Hn Hv Hl C1 C2. destruct G as [H1 H2 H3 H4]. destruct (remade_ok m next line rest ltac:(lia) E) as (R1 & R2 & R3).
  pose proof (soft_len _ _ R1) as L. constructor; [unfold lenZ in *; lia|unfold lenZ in *; lia| |].
  - destruct (soft_nth _ _ (Z.to_nat lim) R1) as [->|[X _]]; [exact H3|congruence].
  - rewrite E in H4. set (m2 := remade m next line rest) in *. set (n2 := (next + lenZ line + 2)%Z) in *.
    assert (Hn2 : (0 <= n2)%Z) by (unfold n2, lenZ; lia). clearbody n2.
    assert (Er : rest = firstn (Z.to_nat v) rest ++ crlf ++ skipn (Z.to_nat (n2 + v + 2)) m2).
    { rewrite <- (firstn_skipn (Z.to_nat v) rest) at 1. f_equal. rewrite <- R3 at 1. rewrite skipn_skipn.
      replace (Z.to_nat v + Z.to_nat n2)%nat with (Z.to_nat (n2 + v)) by lia.
      assert (X : forall k, (k + 1 < length m2)%nat -> nth k m2 0 = 13 -> nth (k + 1) m2 0 = 10 -> skipn k m2 = crlf ++ skipn (k + 2) m2).
      { clear. intros k Hk A B. replace (k + 2)%nat with (2 + k)%nat by lia. rewrite <- (skipn_skipn 2 k). replace k with (k + 0)%nat in A by lia. rewrite <- nth_skipn_at in A, B.
        assert (length (skipn k m2) >= 2)%nat by (rewrite skipn_length; lia). destruct (skipn k m2) as [|p [|q t]]; cbn [length] in *; try lia. cbn in A, B. subst. reflexivity. }
      replace (Z.to_nat (n2 + v + 2)) with (Z.to_nat (n2 + v) + 2)%nat by lia. apply X; [unfold lenZ in *; lia|exact C1|].
      replace (Z.to_nat (n2 + v) + 1)%nat with (Z.to_nat (n2 + v + 1)) by lia. exact C2. }
    eapply calm_after; [exact H4|]. instantiate (1 := line ++ [13; 10] ++ firstn (Z.to_nat v) rest). rewrite Er at 1. rewrite <- !app_assoc. reflexivity.
Qed.

Lemma soft_split a b s : soft s (a ++ b) -> exists a' b', s = a' ++ b' /\ soft a' a /\ soft b' b.
Proof.
  revert s. induction a as [|c a IH]; intros s H; [exists [], s; repeat split; [constructor|exact H]|].
  inversion H as [|x ? t ? Hx Ht]; subst. destruct (IH _ Ht) as (a' & b' & -> & H1 & H2). exists (x :: a'), b'. repeat split; [constructor; assumption|exact H2].
Qed.
Lemma soft_same a b : soft a b -> ~ In 32 b -> a = b.
Proof.
  intro H. induction H as [|x y a b Hx Ha IH]; intro Hn; [reflexivity|]. destruct Hx as [->|[_ ->]]; [|exfalso; apply Hn; left; reflexivity].
  f_equal. apply IH. intro. apply Hn. right. assumption.
Qed.
Lemma soft_skipped a b : soft a b -> Forall skipped b -> Forall skipped a.
Proof.
  intro H. induction H as [|x y a b Hx Ha IH]; intro Hb; [constructor|]. inversion Hb; subst. constructor; [|auto].
  destruct Hx as [->|[-> _]]; [assumption|right; reflexivity].
Qed.
Lemma wild_soft s s' : soft s s' -> wild s' -> wild s.
Proof.
  intros H W. destruct W as [w t Hw|w sign prefix ds t Hw Hs Hp Hd Hx].
  - apply soft_split in H. destruct H as (w' & r & -> & H1 & H2). inversion H2 as [|x ? r' ? Hx Hr]; subst. destruct Hx as [<-|[_ ?]]; [|discriminate].
    apply wild_minus. apply (soft_skipped _ _ H1). exact Hw.
  - apply soft_split in H. destruct H as (w' & r & -> & H1 & H2). apply soft_split in H2. destruct H2 as (s1 & r2 & -> & S1 & H2).
    apply soft_split in H2. destruct H2 as (p1 & r3 & -> & S2 & H2). apply soft_split in H2. destruct H2 as (d1 & r4 & -> & S3 & H2).
    apply soft_same in S1; [|destruct Hs as [-> | ->]; cbn; intuition discriminate]. apply soft_same in S2; [|destruct Hp as [-> | [-> | ->]]; cbn; intuition discriminate].
    apply soft_same in S3; [|intro X; rewrite forallb_forall in Hx; specialize (Hx _ X); discriminate]. subst.
    apply wild_long; try assumption. apply (soft_skipped _ _ H1). exact Hw.
Qed.

Lemma pass_one fuel lim : (lim < 1073741824)%Z -> forall m next total, good lim m next -> (0 <= total <= next)%Z -> (lim - next < Z.of_nat fuel)%Z ->
  safe (fun r => let '(m1, n1, t1, d) := r in d = [] /\ soft m m1 /\ (total <= t1 <= lim)%Z /\ (0 <= n1 <= lim)%Z) (http_chunks fuel false lim m next total []).
Proof.
  intro Hlim. induction fuel as [|fuel IH]; intros m next total G Ht Hf; [destruct G; lia|]. cbn [http_chunks].
  pose proof (g_next _ _ _ G) as G1. pose proof (g_lim _ _ _ G) as G2. pose proof (good_in _ _ _ G) as Hin.
  rewrite from_ok by lia. cbn [bind]. destruct (find_safe _ Hin) as [r Er]. rewrite Er. cbn [bind]. destruct r as [[line rest]|]; [|exact I].
  apply find_sound in Er. destruct Er as [Es Hn]. pose proof (good_line _ _ _ _ _ G Es Hn) as Hl.
  destruct (remade_ok m next line rest ltac:(lia) Es) as (R1 & R2 & R3). fold (sized line). fold (remade m next line rest).
  destruct (scan_hex _) as [v|] eqn:Ev; [|exact I].
  assert (Hv : (0 <= v < 268435456)%Z).
  { apply (scan_calm _ _) with (2 := Ev). intro W. apply (calm_now _ (g_calm _ _ _ G)). rewrite <- R2 in W. eapply wild_soft; [|exact W]. apply soft_skipn. exact R1. }
  assert (L0 : (0 <= lenZ line)%Z) by (unfold lenZ; lia).
  destruct (Z.eqb_spec v 0) as [->|Nv]; [cbn [safe]; repeat split; try lia; assumption|].
  unfold INT_MIN, INT_MAX. destruct (Z.ltb_spec (total + v) (-2147483648)); [lia|]. destruct (Z.ltb_spec 2147483647 (total + v)); [lia|]. cbn [orb bind].
  destruct (Z.ltb_spec lim (next + lenZ line + 2 + v + 2)); [exact I|].
  pose proof (soft_len _ _ R1) as Lr. rewrite byte_ok_at by (unfold lenZ in *; lia). cbn [bind].
  destruct (N.eqb_spec (nth (Z.to_nat (next + lenZ line + 2 + v)) (remade m next line rest) 0) 13) as [C1|]; [|exact I]. cbn [negb].
  rewrite byte_ok_at by (unfold lenZ in *; lia). cbn [bind].
  destruct (N.eqb_spec (nth (Z.to_nat (next + lenZ line + 2 + v + 1)) (remade m next line rest) 0) 10) as [C2|]; [|exact I]. cbn [negb bind].
  pose proof (good_next lim m next line rest v G Es Hn ltac:(lia) ltac:(lia) C1 C2) as G'.
  specialize (IH _ _ (total + v)%Z G' ltac:(lia) ltac:(lia)).
  destruct (http_chunks fuel false lim (remade m next line rest) (next + lenZ line + 2 + v + 2) (total + v) []) as [[[[m1 n1] t1] d]| | |]; cbn [safe] in *; try contradiction; auto.
  destruct IH as (I1 & I2 & I3 & I4). repeat split; try lia; try assumption. eapply soft_trans; eassumption.
Qed.

(** The second pass sees the same chunks. *)
Lemma pass_two fuel lim : (lim < 1073741824)%Z -> forall m next total m1 n1 t1, good lim m next -> (0 <= total <= next)%Z -> (lim - next < Z.of_nat fuel)%Z ->
  http_chunks fuel false lim m next total [] = Ok (m1, n1, t1, []) ->
  forall m' T dest, soft m1 m' -> (lenZ dest + (t1 - total) <= T)%Z ->
  exists m2 dest', http_chunks fuel true lim m' next T dest = Ok (m2, n1, T, dest') /\ lenZ dest' = (lenZ dest + (t1 - total))%Z /\ soft m1 m2.
Proof.
  intro Hlim. induction fuel as [|fuel IH]; intros m next total m1 n1 t1 G Ht Hf E m' T dest Hs HT; [destruct G; lia|]. cbn [http_chunks] in *.
  pose proof (g_next _ _ _ G) as G1. pose proof (g_lim _ _ _ G) as G2. pose proof (good_in _ _ _ G) as Hin.
  rewrite from_ok in E by lia. cbn [bind] in E. destruct (find_safe _ Hin) as [r Er]. rewrite Er in E. cbn [bind] in E. destruct r as [[line rest]|]; [|discriminate].
  pose proof Er as Ef. apply find_sound in Er. destruct Er as [Es Hn]. pose proof (good_line _ _ _ _ _ G Es Hn) as Hl.
  destruct (remade_ok m next line rest ltac:(lia) Es) as (R1 & R2 & R3). fold (sized line) in E. fold (remade m next line rest) in E.
  destruct (scan_hex _) as [v|] eqn:Ev in E; [|discriminate].
  assert (Hv : (0 <= v < 268435456)%Z).
  { apply (scan_calm _ _) with (2 := Ev). intro W. apply (calm_now _ (g_calm _ _ _ G)). rewrite <- R2 in W. eapply wild_soft; [|exact W]. apply soft_skipn. exact R1. }
  assert (L0 : (0 <= lenZ line)%Z) by (unfold lenZ; lia). pose proof (soft_len _ _ R1) as Lr.
  (* the memory the passes left *)
  assert (S1 : soft (remade m next line rest) m1 /\ (total <= t1)%Z /\
    (v = 0%Z /\ n1 = (next + lenZ line + 2)%Z /\ t1 = total \/
     v <> 0%Z /\ (next + lenZ line + 2 + v + 2 <= lim)%Z /\ nth (Z.to_nat (next + lenZ line + 2 + v)) (remade m next line rest) 0 = 13 /\
     nth (Z.to_nat (next + lenZ line + 2 + v + 1)) (remade m next line rest) 0 = 10 /\
     good lim (remade m next line rest) (next + lenZ line + 2 + v + 2) /\ (total + v <= t1)%Z /\
     http_chunks fuel false lim (remade m next line rest) (next + lenZ line + 2 + v + 2) (total + v) [] = Ok (m1, n1, t1, []))).
  { destruct (Z.eqb_spec v 0) as [->|Nv]; [injection E as <- <- <-; split; [apply soft_refl|split; [lia|left; auto]]|].
    unfold INT_MIN, INT_MAX in E. destruct (Z.ltb_spec (total + v) (-2147483648)); [lia|]. destruct (Z.ltb_spec 2147483647 (total + v)); [lia|]. cbn [orb bind] in E.
    destruct (Z.ltb_spec lim (next + lenZ line + 2 + v + 2)); [discriminate|].
    rewrite byte_ok_at in E by (unfold lenZ in *; lia). cbn [bind] in E.
    destruct (N.eqb_spec (nth (Z.to_nat (next + lenZ line + 2 + v)) (remade m next line rest) 0) 13) as [C1|]; [|discriminate]. cbn [negb] in E.
    rewrite byte_ok_at in E by (unfold lenZ in *; lia). cbn [bind] in E.
    destruct (N.eqb_spec (nth (Z.to_nat (next + lenZ line + 2 + v + 1)) (remade m next line rest) 0) 10) as [C2|]; [|discriminate]. cbn [negb bind] in E.
    pose proof (good_next lim m next line rest v G Es Hn ltac:(lia) ltac:(lia) C1 C2) as G'.
    pose proof (pass_one fuel lim Hlim _ _ (total + v)%Z G' ltac:(lia) ltac:(lia)) as P. rewrite E in P. cbn [safe] in P. destruct P as (_ & P1 & P2 & P3).
    split; [exact P1|]. split; [lia|]. right. repeat split; try assumption; try lia; apply G'. }
  destruct S1 as (S1 & Ht1 & Cases). assert (S2 : soft (remade m next line rest) m') by (eapply soft_trans; eassumption).
  assert (S3 : soft m m') by (eapply soft_trans; eassumption). pose proof (soft_len _ _ S3) as L3.
  rewrite from_ok by (unfold lenZ in *; lia). cbn [bind].
  destruct (soft_find _ _ _ _ (soft_skipn (Z.to_nat next) _ _ S3) Ef) as (line' & rest' & Ef' & Sl & Sr). rewrite Ef'. cbn [bind].
  apply find_sound in Ef'. destruct Ef' as [Es' Hn']. assert (Ell : lenZ line' = lenZ line) by (unfold lenZ; rewrite (soft_len _ _ Sl); reflexivity).
  destruct (remade_ok m' next line' rest' ltac:(unfold lenZ in *; lia) Es') as (Q1 & Q2 & Q3). fold (sized line'). fold (remade m' next line' rest'). rewrite Ell.
  assert (S4 : soft (remade m next line rest) (remade m' next line' rest')) by (eapply soft_trans; eassumption). pose proof (soft_len _ _ S4) as L4.
  assert (Ev' : scan_hex (sized line' ++ [13; 10] ++ rest') = Some v).
  { eapply scan_soft; [|exact Ev]. rewrite <- Q2, <- R2. apply soft_skipn. exact S4. }
  rewrite Ev'. destruct Cases as [(-> & -> & ->)|(Nv & Hn2 & C1 & C2 & G' & Ht2 & E')].
  - cbn [Z.eqb]. exists (remade m' next line' rest'), dest. split; [reflexivity|]. split; [lia|]. eapply soft_trans; [exact Hs|exact Q1].
  - destruct (Z.eqb_spec v 0); [contradiction|]. cbn [bind]. destruct (Z.ltb_spec lim (next + lenZ line + 2 + v + 2)); [lia|].
    rewrite byte_ok_at by (unfold lenZ in *; lia). cbn [bind].
    assert (X : forall i c, c <> 59 -> nth i (remade m next line rest) 0 = c -> nth i (remade m' next line' rest') 0 = c).
    { intros i c Hc Ec. destruct (soft_nth _ _ i S4) as [->|[Y _]]; [exact Ec|congruence]. }
    rewrite (X _ 13 ltac:(discriminate) C1). cbn [negb N.eqb Pos.eqb]. rewrite byte_ok_at by (unfold lenZ in *; lia). cbn [bind].
    rewrite (X _ 10 ltac:(discriminate) C2). cbn [negb N.eqb Pos.eqb].
    destruct (Z.ltb_spec v 0); [lia|]. destruct (Z.ltb_spec (T + 1) (lenZ dest + v)); [lia|]. cbn [orb]. rewrite from_ok by (unfold lenZ in *; lia). cbn [bind].
    set (data := skipn (Z.to_nat (next + lenZ line + 2)) (remade m' next line' rest')).
    assert (Ld : lenZ (dest ++ firstn (Z.to_nat v) data) = (lenZ dest + v)%Z).
    { unfold lenZ in *. rewrite app_length, firstn_length. unfold data. rewrite skipn_length. lia. }
    destruct (IH _ _ (total + v)%Z _ _ _ G' ltac:(lia) ltac:(lia) E' (remade m' next line' rest') T (dest ++ firstn (Z.to_nat v) data)) as (m2 & dest' & I1 & I2 & I3).
    + eapply soft_trans; eassumption.
    + lia.
    + exists m2, dest'. split; [exact I1|]. split; [lia|exact I3].
Qed.

(** ** Bodies and messages *)
Lemma cstr_nul m : In 0 m -> exists str t, cstr m = Ok str /\ m = str ++ 0 :: t /\ ~ In 0 str.
Proof.
  induction m as [|c m IH]; intro H; [contradiction|]. cbn [cstr]. destruct (N.eqb_spec c 0) as [->|]; [exists [], m; auto|].
  destruct H as [|H]; [congruence|]. destruct (IH H) as (s & t & E & Em & Hs). rewrite E. exists (c :: s), t. cbn. rewrite Em. repeat split. intros [|]; [congruence|contradiction].
Qed.
Lemma body_plain_safe fuel hs pre m : In 0 m -> not_chunked hs -> safe (fun _ => True) (http_parse_body fuel hs (pre ++ m) (lenZ pre)).
Proof.
  intros H Hc. unfold http_parse_body. rewrite from_app. cbn [bind]. destruct (cstr_nul m H) as (s & t & E & Em & Hs). rewrite E. cbn [bind].
  apply framing_no in Hc. destruct (http_framing hs) as [c l]. cbn [fst] in Hc. subst c. destruct (_ =? _); cbn [negb]; [exact I|]. destruct (_ <? _); exact I.
Qed.
Lemma body_safe fuel hs pre m : In 0 m -> calm m -> (lenZ (pre ++ m) <= 1073741824)%Z -> (length m <= fuel)%nat ->
  safe (fun _ => True) (http_parse_body fuel hs (pre ++ m) (lenZ pre)).
Proof.
  intros H Hc Hl Hf. unfold http_parse_body. rewrite from_app. cbn [bind]. destruct (cstr_nul m H) as (s & t & E & Em & Hs). rewrite E. cbn [bind].
  destruct (http_framing hs) as [c l]. destruct c; [|destruct (_ =? _); cbn [negb]; [exact I|]; destruct (_ <? _); exact I].
  set (lim := (lenZ pre + lenZ s)%Z). assert (Lm : lenZ (pre ++ m) = (lenZ pre + lenZ m)%Z) by (unfold lenZ; rewrite app_length; lia).
  assert (Ls : (lenZ s < lenZ m)%Z) by (rewrite Em; unfold lenZ; rewrite app_length; cbn [length]; lia).
  assert (L0 : (0 <= lenZ pre)%Z) by (unfold lenZ; lia). assert (L1 : (0 <= lenZ s)%Z) by (unfold lenZ; lia).
  assert (Sk : skipn (Z.to_nat (lenZ pre)) (pre ++ m) = m).
  { unfold lenZ. rewrite Nat2Z.id, skipn_app, skipn_all, Nat.sub_diag. reflexivity. }
  assert (G : good lim (pre ++ m) (lenZ pre)).
  { constructor; [unfold lim; lia|unfold lim; lia| |rewrite Sk; exact Hc].
    unfold lim. replace (Z.to_nat (lenZ pre + lenZ s)) with (length pre + length s)%nat by (unfold lenZ; lia). rewrite app_nth2 by lia.
    replace (_ - _)%nat with (length s) by lia. rewrite Em, app_nth2, Nat.sub_diag by lia. reflexivity. }
  assert (Hlim : (lim < 1073741824)%Z) by (unfold lim; lia).
  assert (Hfu : (lim - lenZ pre < Z.of_nat fuel)%Z) by (unfold lim; unfold lenZ in *; lia). clearbody lim.
  pose proof (pass_one fuel lim Hlim _ _ 0%Z G ltac:(lia) Hfu) as P.
  destruct (http_chunks fuel false lim (pre ++ m) (lenZ pre) 0 []) as [[[[m1 n1] t1] d]| | |] eqn:E1; cbn [safe bind] in *; try contradiction; auto.
  destruct P as (-> & P1 & P2 & P3). unfold INT_MAX. destruct (Z.eqb_spec t1 2147483647); [lia|]. destruct (Z.ltb_spec (t1 + 1) 0); [lia|].
  destruct (Z.ltb_spec t1 0); [lia|].
  destruct (pass_two fuel lim Hlim _ _ 0%Z _ _ _ G ltac:(lia) Hfu E1 m1 t1 [] (soft_refl _)) as (m2 & dest & E2 & Ld & S2); [unfold lenZ; cbn; lia|].
  rewrite E2. cbn [bind]. change (lenZ (@nil N)) with 0%Z in Ld. destruct (Z.eqb_spec (lenZ dest) t1); [|lia]. cbn [negb].
  assert (S3 : soft (pre ++ m) m2) by (eapply soft_trans; eassumption). pose proof (soft_len _ _ S3) as L3.
  rewrite from_ok by (destruct G; unfold lenZ in *; lia). cbn [bind].
  assert (Hin : In 0 (skipn (Z.to_nat n1) m2)).
  { eapply soft_in0; [apply soft_skipn; exact S3|]. destruct G as [A B C D]. rewrite <- C.
    replace (Z.to_nat lim) with (Z.to_nat n1 + (Z.to_nat lim - Z.to_nat n1))%nat by lia. rewrite <- nth_skipn_at. apply nth_In. rewrite skipn_length. unfold lenZ in *. lia. }
  eapply safe_bind; [apply headers_safe; [|exact Hin]; lia|]. intros [[ts mem] rest] _. exact I.
Qed.

Lemma parse_plain_safe fuel buf : never_chunked buf -> safe (fun _ => True) (http_msg_parse fuel buf).
Proof.
  intro H. unfold http_msg_parse. eapply safe_bind; [apply start_safe; apply in_or_app; right; left; reflexivity|].
  intros [[[[a b] c] mem1] rest] (p & E1 & L1 & Hr). eapply safe_bind; [apply headers_safe; [|exact Hr]; lia|].
  intros [[hs mem2] rest2] (q & _ & E2 & L2 & Hr2 & Hh). rewrite app_assoc.
  eapply safe_bind; [apply body_plain_safe; [exact Hr2|]|intros [[ts body] num] _; exact I].
  intros h Hin [_ Hc]. destruct (Hh h Hin) as (x & v & y & Ex & Ev). pose proof (chunked_no_space _ Hc) as Hs. rewrite Ev in *.
  destruct (trim_inside v Hs) as (x' & y' & Exy). set (w := trim_ws v) in *. clearbody w.
  assert (E : buf ++ [0] = ((p ++ crlf) ++ x ++ x') ++ w ++ y' ++ y) by (rewrite E1, Ex, Exy; rewrite <- !app_assoc; reflexivity).
  destruct (list_eq_dec N.eq_dec (y' ++ y) []) as [Ey|Ey].
  - rewrite Ey, app_nil_r in E. destruct (exists_last (l := w)) as (w' & c' & Ew); [intros ->; discriminate|].
    rewrite Ew, app_assoc in E. apply app_inj_tail in E. destruct E as [_ <-]. rewrite Ew in Hc. unfold same_name in Hc. rewrite map_app in Hc.
    apply (f_equal (@rev N)) in Hc. rewrite rev_app_distr in Hc. vm_compute in Hc. discriminate.
  - destruct (exists_last Ey) as (y1 & c' & Eyy). rewrite Eyy, !app_assoc in E. apply app_inj_tail in E. destruct E as [E _].
    apply (H ((p ++ crlf) ++ x ++ x') w y1); [|exact Hc]. rewrite E, <- !app_assoc. reflexivity.
Qed.

Lemma parse_calm_safe fuel buf : calm_body buf -> lenN buf < 1073741824 -> (length buf < fuel)%nat -> safe (fun _ => True) (http_msg_parse fuel buf).
Proof.
  intros H Hl Hf. unfold http_msg_parse. eapply safe_bind; [apply start_safe; apply in_or_app; right; left; reflexivity|].
  intros [[[[a b] c] mem1] rest] (p & E1 & L1 & Hr). eapply safe_bind; [apply headers_safe; [|exact Hr]; lia|].
  intros [[hs mem2] rest2] (q & Hq & E2 & L2 & Hr2 & Hh). rewrite app_assoc.
  assert (E : buf ++ [0] = (p ++ crlf) ++ (q ++ crlf) ++ rest2) by (rewrite E1, E2; reflexivity).
  pose proof (f_equal (@length N) E) as Le. rewrite !app_length in Le. cbn [length crlf] in Le. unfold lenZ in L1, L2. rewrite app_length in L1, L2. cbn [length crlf] in *.
  eapply safe_bind; [apply body_safe; [exact Hr2| | |]|intros [[ts body] num] _; exact I].
  - destruct (exists_last (l := rest2)) as (r & z & Er); [intros ->; exact Hr2|]. rewrite Er, !app_assoc in E. apply app_inj_tail in E. destruct E as [E <-].
    rewrite Er. apply calm_nul. destruct Hq as [->|[q' ->]].
    + apply (H p r). rewrite E, <- !app_assoc. reflexivity.
    + apply (H (p ++ crlf ++ q') r). rewrite E, <- !app_assoc. reflexivity.
  - unfold lenZ, lenN in *. rewrite !app_length. lia.
  - lia.
Qed.
