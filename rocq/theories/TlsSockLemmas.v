(** Lemmas on TLS sockets. *)
From Verif Require Import Base BaseLemmas TlsSockModel TlsSockSpec.

Lemma write_one evs : forall buf len out evs' r, len <= lenN buf -> 0 < len -> tls_sock_write evs buf len = (out, evs', r) ->
  (exists n pre, 0 < n /\ n <= len /\ out = firstn (N.to_nat n) buf /\ r = Ok (Z.of_N n) /\ evs = pre ++ evs' /\ (length evs' < length evs)%nat /\ Forall goes_on_writing pre) \/
  (out = [] /\ exists pre e z, evs = pre ++ e :: evs' /\ r = Ok z /\ ends_write e z /\ Forall goes_on_writing pre) \/
  (out = [] /\ evs' = [] /\ r = OutOfFuel /\ Forall goes_on_writing evs).
Proof.
  induction evs as [|e evs IH]; intros buf len out evs' r Hl H0 H; cbn [tls_sock_write] in H.
  { injection H as <- <- <-. right. right. repeat split; constructor. }
  destruct e as [k| |s|h s|].
  - destruct (N.ltb_spec (lenN buf) len); [lia|]. cbv zeta in H. injection H as <- <- <-.
    destruct (N.eq_dec k 0) as [->|Hk].
    + rewrite N.min_0_l. right. left. split; [reflexivity|]. exists [], (TNum 0), 0%Z. cbn. auto 8.
    + left. exists (N.min k len), [TNum k]. cbn [List.app length]. repeat split; try lia. constructor; [cbn; lia|constructor].
  - injection H as <- <- <-. right. left. split; [reflexivity|]. exists [], TIntr, SOCK_INTR. cbn. auto 8.
  - destruct s; cbn [after_select] in H.
    + destruct (IH _ _ _ _ _ Hl H0 H) as [(n & pre & A1 & A2 & A3 & A4 & A5 & A6 & A7)|[(A1 & pre & e & z & A2 & A3 & A4 & A5)|(A1 & A2 & A3 & A4)]].
      * left. exists n, (TAgain SelReady :: pre). cbn [List.app length]. repeat split; first [assumption | congruence | lia | constructor; [exact I|assumption]].
      * right. left. split; [exact A1|]. exists (TAgain SelReady :: pre), e, z. cbn [List.app]. split; [congruence|]. repeat split; auto. constructor; [exact I|exact A5].
      * right. right. repeat split; auto. constructor; [exact I|exact A4].
    + injection H as <- <- <-. right. left. split; [reflexivity|]. exists [], (TAgain SelTimeout), SOCK_TIMEOUT. cbn. auto 8.
    + injection H as <- <- <-. right. left. split; [reflexivity|]. exists [], (TAgain SelIntr), SOCK_INTR. cbn. auto 8.
    + injection H as <- <- <-. right. left. split; [reflexivity|]. exists [], (TAgain SelError), SOCK_WRITE_ERROR. cbn. auto 8.
  - injection H as <- <- <-. right. left. split; [reflexivity|]. exists [], (TRehandshake h s), SOCK_WRITE_ERROR. cbn. auto 8.
  - injection H as <- <- <-. right. left. split; [reflexivity|]. exists [], TError, SOCK_WRITE_ERROR. cbn. auto 8.
Qed.

Lemma ends_write_neg e z : ends_write e z -> (z <= 0)%Z.
Proof. destruct e as [| |[]| |]; cbn; try lia. Qed.

Lemma firstn_more (a b : nat) (l : list N) : firstn a l ++ firstn b (skipn a l) = firstn (a + b) l.
Proof.
  revert l. induction a as [|a IH]; intro l; [reflexivity|]. destruct l; cbn; [rewrite firstn_nil; reflexivity|]. f_equal. apply IH.
Qed.

Lemma skip_skip (a b : nat) (l : list N) : skipn a (skipn b l) = skipn (a + b) l.
Proof. revert l. induction b as [|b IH]; intro l; [rewrite Nat.add_0_r; reflexivity|]. rewrite Nat.add_succ_r. destruct l; [rewrite !skipn_nil; reflexivity|]. cbn [skipn]. apply IH. Qed.

Lemma write_loop fuel : forall evs buf len total out evs' r, len <= lenN buf -> len < 2 ^ 63 -> total <= len -> (length evs < fuel)%nat ->
  write_full_loop fuel evs buf len total = (out, evs', r) ->
  exists n, total + n <= len /\ out = firstn (N.to_nat n) (skipn (N.to_nat total) buf) /\
    (total + n = len /\ r = Ok (Z.of_N len) /\ (exists pre, evs = pre ++ evs' /\ Forall goes_on_writing pre) \/
     total + n < len /\ (exists pre e z, evs = pre ++ e :: evs' /\ r = Ok z /\ ends_write e z /\ Forall goes_on_writing pre) \/
     total + n < len /\ evs' = [] /\ r = OutOfFuel /\ Forall goes_on_writing evs).
Proof.
  induction fuel as [|fuel IH]; intros evs buf len total out evs' r Hl H63 Ht Hf H; [lia|]. cbn [write_full_loop] in H.
  destruct (N.ltb_spec total len) as [Hlt|Hge]; cbn [negb] in H.
  2:{ injection H as <- <- <-. exists 0. split; [lia|]. split; [reflexivity|]. left. split; [lia|].
      assert (total = len) as -> by lia. unfold ssize. split; [destruct (N.ltb_spec len (2 ^ 63)); [reflexivity|lia]|exists []; auto]. }
  destruct (tls_sock_write evs (skipn (N.to_nat total) buf) (len - total)) as [[o1 e1] r1] eqn:E1.
  apply write_one in E1; [|unfold lenN in *; rewrite skipn_length; lia|lia].
  destruct E1 as [(n & pre & A1 & A2 & -> & -> & A5 & A6 & A7)|[(-> & pre & e & z & A2 & -> & A4 & A7)|(-> & -> & -> & A7)]].
  - destruct (Z.leb_spec (Z.of_N n) 0); [lia|]. rewrite N2Z.id in H.
    assert (Ha : add64 total n = total + n).
    { unfold add64. apply N.mod_small. apply N.le_lt_trans with len; [lia|]. eapply N.lt_trans; [exact H63|]. vm_compute. reflexivity. }
    rewrite Ha in H. destruct (write_full_loop fuel e1 buf len (total + n)) as [[o2 e2] r2] eqn:E2. injection H as <- <- <-.
    apply IH in E2; [|exact Hl|exact H63|lia|lia]. destruct E2 as (n2 & B1 & B2 & B3). exists (n + n2).
    split; [lia|]. split.
    { rewrite B2. replace (N.to_nat (n + n2)) with (N.to_nat n + N.to_nat n2)%nat by lia. rewrite <- firstn_more. f_equal. f_equal.
      replace (N.to_nat (total + n)) with (N.to_nat n + N.to_nat total)%nat by lia. symmetry. apply skip_skip. }
    rewrite N.add_assoc. destruct B3 as [(B3 & B4 & pre2 & B5 & B6)|[(B3 & pre2 & e & z & B4 & B5 & B6 & B7)|(B3 & B4 & B5 & B6)]].
    + left. split; [exact B3|]. split; [exact B4|]. exists (pre ++ pre2). split; [rewrite A5, B5, app_assoc; reflexivity|apply Forall_app; auto].
    + right. left. split; [exact B3|]. exists (pre ++ pre2), e, z. split; [rewrite A5, B4, app_assoc; reflexivity|]. repeat split; auto. apply Forall_app; auto.
    + right. right. split; [exact B3|]. split; [exact B4|]. split; [exact B5|]. rewrite A5. apply Forall_app; auto.
  - pose proof (ends_write_neg e z A4). destruct (Z.leb_spec z 0); [|lia]. injection H as <- <- <-. exists 0. split; [lia|]. split; [reflexivity|].
    right. left. split; [lia|]. eauto 10.
  - injection H as <- <- <-. exists 0. split; [lia|]. split; [reflexivity|]. right. right. split; [lia|auto].
Qed.

Lemma read_one evs : forall inp buf len inp' buf' evs' r, Forall handshake_ok evs -> len <= lenN buf -> 0 < len ->
  tls_sock_read evs inp buf len = (inp', buf', evs', r) ->
  exists pre, (evs = pre ++ evs') /\
  ((exists n, 0 < n /\ n <= len /\ n <= lenN inp /\ inp' = skipn (N.to_nat n) inp /\ buf' = firstn (N.to_nat n) inp ++ skipn (N.to_nat n) buf /\
     r = Ok (Z.of_N n) /\ (length evs' < length evs)%nat /\ Forall goes_on_reading pre) \/
   (inp' = inp /\ buf' = buf /\ exists pre e z, evs = pre ++ e :: evs' /\ r = Ok z /\ ends_read inp e z /\ (z <= 0)%Z /\ Forall goes_on_reading pre) \/
   (inp' = inp /\ buf' = buf /\ evs' = [] /\ r = OutOfFuel /\ Forall goes_on_reading evs)).
Proof.
  induction evs as [|e evs IH]; intros inp buf len inp' buf' evs' r Hh Hl H0 H; cbn [tls_sock_read] in H.
  { injection H as <- <- <- <-. exists []. split; [reflexivity|]. right. right. repeat split; constructor. }
  apply Forall_cons_iff in Hh as [He Hh].
  assert (Hgo : goes_on_reading e -> tls_sock_read evs inp buf len = (inp', buf', evs', r) ->
    exists pre, (e :: evs = pre ++ evs') /\
    ((exists n, 0 < n /\ n <= len /\ n <= lenN inp /\ inp' = skipn (N.to_nat n) inp /\ buf' = firstn (N.to_nat n) inp ++ skipn (N.to_nat n) buf /\
       r = Ok (Z.of_N n) /\ (length evs' < length (e :: evs))%nat /\ Forall goes_on_reading pre) \/
     (inp' = inp /\ buf' = buf /\ exists pre e' z, e :: evs = pre ++ e' :: evs' /\ r = Ok z /\ ends_read inp e' z /\ (z <= 0)%Z /\ Forall goes_on_reading pre) \/
     (inp' = inp /\ buf' = buf /\ evs' = [] /\ r = OutOfFuel /\ Forall goes_on_reading (e :: evs)))).
  { clear H. intros Hg H. destruct (IH _ _ _ _ _ _ _ Hh Hl H0 H) as (pre & -> & [(n & A)|[(A1 & A2 & pre2 & e2 & z & A3 & A4 & A5 & A6 & A7)|(A1 & A2 & A3 & A4 & A5)]]); exists (e :: pre); (split; [reflexivity|]).
    - left. exists n. cbn [length]. decompose [and] A. repeat split; auto.
    - right. left. split; [exact A1|]. split; [exact A2|]. exists (e :: pre2), e2, z. cbn [List.app]. rewrite A3. repeat split; auto.
    - right. right. repeat split; auto. }
  assert (Hst : forall z, (inp, buf, evs, Ok z) = (inp', buf', evs', r) -> ends_read inp e z -> (z <= 0)%Z ->
    exists pre, (e :: evs = pre ++ evs') /\
    ((exists n, 0 < n /\ n <= len /\ n <= lenN inp /\ inp' = skipn (N.to_nat n) inp /\ buf' = firstn (N.to_nat n) inp ++ skipn (N.to_nat n) buf /\
       r = Ok (Z.of_N n) /\ (length evs' < length (e :: evs))%nat /\ Forall goes_on_reading pre) \/
     (inp' = inp /\ buf' = buf /\ exists pre e' z, e :: evs = pre ++ e' :: evs' /\ r = Ok z /\ ends_read inp e' z /\ (z <= 0)%Z /\ Forall goes_on_reading pre) \/
     (inp' = inp /\ buf' = buf /\ evs' = [] /\ r = OutOfFuel /\ Forall goes_on_reading (e :: evs)))).
  { intros z Hz Hz1 Hz2. injection Hz as <- <- <- <-. exists [e]. split; [reflexivity|]. right. left. split; [reflexivity|]. split; [reflexivity|].
    exists [], e, z. repeat split; auto. }
  destruct e as [k| |s|h s|].
  - cbv zeta in H. set (n := N.min (N.min k len) (lenN inp)) in *. destruct (N.ltb_spec (lenN buf) n); [lia|].
    destruct (N.eq_dec n 0) as [Hn|Hn].
    + rewrite Hn in H. apply (Hst 0%Z); [exact H| |lia]. cbn. split; [|reflexivity].
      destruct (N.eq_dec k 0); [left; assumption|right]. destruct inp; [reflexivity|]. unfold lenN in *. cbn [length] in *. lia.
    + injection H as <- <- <- <-. exists [TNum k]. split; [reflexivity|]. left. exists n. cbn [length]. repeat split; try lia. constructor; [cbn; lia|constructor].
  - apply (Hst SOCK_INTR); [exact H|reflexivity|]. unfold SOCK_INTR. lia.
  - destruct s; cbn [after_select] in H; [exact (Hgo ltac:(cbn; auto) H)|eapply Hst; [exact H|reflexivity|vm_compute; discriminate]..].
  - cbn [handshake_ok] in He. unfold SOCK_OK in H. destruct (Z.eqb_spec h 0) as [->|Hne].
    + destruct s; cbn [after_select] in H; [exact (Hgo ltac:(cbn; auto) H)|eapply Hst; [exact H|reflexivity|vm_compute; discriminate]..].
    + apply (Hst h); [exact H| |exact He]. destruct s; cbn; auto; destruct (Z.eqb_spec h 0); congruence.
  - apply (Hst SOCK_READ_ERROR); [exact H|reflexivity|vm_compute; discriminate].
Qed.

Lemma read_loop fuel : forall evs inp buf len total inp' buf' evs' r, Forall handshake_ok evs -> len <= lenN buf -> len < 2 ^ 63 -> total <= len ->
  (length evs < fuel)%nat -> read_full_loop fuel evs inp buf len total = (inp', buf', evs', r) ->
  exists n, total + n <= len /\ n <= lenN inp /\ inp' = skipn (N.to_nat n) inp /\
    buf' = firstn (N.to_nat total) buf ++ firstn (N.to_nat n) inp ++ skipn (N.to_nat (total + n)) buf /\
    (total + n = len /\ r = Ok (Z.of_N len) /\ (exists pre, evs = pre ++ evs' /\ Forall goes_on_reading pre) \/
     total + n < len /\ (exists pre e z, evs = pre ++ e :: evs' /\ r = Ok z /\ ends_read inp' e z /\ Forall goes_on_reading pre) \/
     total + n < len /\ evs' = [] /\ r = OutOfFuel /\ Forall goes_on_reading evs).
Proof.
  induction fuel as [|fuel IH]; intros evs inp buf len total inp' buf' evs' r Hh Hl H63 Ht Hf H; [lia|]. cbn [read_full_loop] in H.
  destruct (N.ltb_spec total len) as [Hlt|Hge]; cbn [negb] in H.
  2:{ injection H as <- <- <- <-. exists 0. split; [lia|]. split; [lia|]. split; [reflexivity|]. rewrite N.add_0_r. cbn [N.to_nat firstn List.app].
      split; [symmetry; apply firstn_skipn|]. left. split; [lia|].
      assert (total = len) as -> by lia. unfold ssize. split; [destruct (N.ltb_spec len (2 ^ 63)); [reflexivity|lia]|exists []; auto]. }
  destruct (tls_sock_read evs inp (skipn (N.to_nat total) buf) (len - total)) as [[[i1 b1] e1] r1] eqn:E1.
  apply read_one in E1; [|exact Hh|unfold lenN in *; rewrite skipn_length; lia|lia].
  destruct E1 as (pre & Hpre & [(n & A1 & A2 & A3 & -> & -> & -> & A6 & A7)|[(-> & -> & pre1 & e & z & A2 & -> & A4 & A5 & A7)|(-> & -> & -> & -> & A7)]]).
  - destruct (Z.leb_spec (Z.of_N n) 0); [lia|]. rewrite N2Z.id in H.
    assert (Ha : add64 total n = total + n).
    { unfold add64. apply N.mod_small. apply N.le_lt_trans with len; [lia|]. eapply N.lt_trans; [exact H63|]. vm_compute. reflexivity. }
    rewrite Ha, skip_skip in H. replace (N.to_nat n + N.to_nat total)%nat with (N.to_nat (total + n)) in H by lia.
    assert (Hln : length (firstn (N.to_nat total) buf) = N.to_nat total) by (rewrite firstn_length; unfold lenN in Hl; lia).
    assert (Hln2 : length (firstn (N.to_nat n) inp) = N.to_nat n) by (rewrite firstn_length; unfold lenN in A3; lia).
    apply IH in H; [|rewrite Hpre in Hh; apply Forall_app in Hh; tauto| |exact H63|lia|lia].
    2:{ unfold lenN in *. rewrite !app_length, skipn_length. lia. }
    destruct H as (n2 & B1 & B2 & B3 & B4 & B5). exists (n + n2). unfold lenN in B2. rewrite skipn_length in B2.
    split; [lia|]. split; [unfold lenN in *; lia|].
    rewrite skip_skip in B3. replace (N.to_nat n2 + N.to_nat n)%nat with (N.to_nat (n + n2)) in B3 by lia. split; [exact B3|]. split.
    { rewrite B4. rewrite (app_assoc (firstn (N.to_nat total) buf) (firstn (N.to_nat n) inp)).
      assert (Hl3 : length (firstn (N.to_nat total) buf ++ firstn (N.to_nat n) inp) = N.to_nat (total + n)) by (rewrite app_length; lia).
      rewrite firstn_app, Hl3, Nat.sub_diag, firstn_O, app_nil_r, (firstn_all2 (n := N.to_nat (total + n))) by lia.
      rewrite skipn_app, Hl3, (skipn_all2 (n := N.to_nat (total + n + n2))) by lia. cbn [List.app]. rewrite skip_skip.
      replace (N.to_nat (total + n + n2) - N.to_nat (total + n) + N.to_nat (total + n))%nat with (N.to_nat (total + (n + n2))) by lia.
      replace (N.to_nat (n + n2)) with (N.to_nat n + N.to_nat n2)%nat by lia. rewrite <- firstn_more, <- !app_assoc. reflexivity. }
    rewrite N.add_assoc. destruct B5 as [(B5 & B6 & pre2 & B7 & B8)|[(B5 & pre2 & e & z & B6 & B7 & B8 & B9)|(B5 & B6 & B7 & B8)]].
    + left. split; [exact B5|]. split; [exact B6|]. exists (pre ++ pre2). split; [rewrite Hpre, B7, app_assoc; reflexivity|apply Forall_app; auto].
    + right. left. split; [exact B5|]. exists (pre ++ pre2), e, z. split; [rewrite Hpre, B6, app_assoc; reflexivity|]. repeat split; auto. apply Forall_app; auto.
    + right. right. split; [exact B5|]. split; [exact B6|]. split; [exact B7|]. rewrite Hpre. apply Forall_app; auto.
  - destruct (Z.leb_spec z 0); [|lia]. injection H as <- <- <- <-. exists 0. rewrite N.add_0_r. split; [lia|]. split; [lia|].
    split; [reflexivity|]. split; [reflexivity|]. right. left. split; [lia|]. eauto 10.
  - injection H as <- <- <- <-. exists 0. rewrite N.add_0_r. split; [lia|]. split; [lia|]. split; [reflexivity|]. split; [reflexivity|].
    right. right. split; [lia|auto].
Qed.
