From Coq Require FinFun.
From Verif Require Import BaseLemmas MemModel MemSpec.

Lemma scan_bits_some byte bits b :
  scan_bits byte bits = Some b -> In b bits /\ N.testbit byte b = false.
Proof.
  induction bits as [|x bits IH]; cbn [scan_bits]; [discriminate|].
  rewrite land_pow2_zero. destruct (N.testbit byte x) eqn:E; cbn [negb].
  - intro H. destruct (IH H). split; [right|]; assumption.
  - intros [= <-]. split; [left; reflexivity|exact E].
Qed.

Lemma scan_bits_none byte bits :
  scan_bits byte bits = None -> forall b, In b bits -> N.testbit byte b = true.
Proof.
  induction bits as [|x bits IH]; cbn [scan_bits]; [intros _ b []|].
  rewrite land_pow2_zero. destruct (N.testbit byte x) eqn:E; cbn [negb]; [|discriminate].
  intros H b [<-|Hb]; [exact E|exact (IH H b Hb)].
Qed.

Lemma in_all_bits b : In b all_bits <-> b < 8.
Proof.
  unfold all_bits. cbn [In]. split; [intro H; repeat destruct H as [H|H]; try lia; destruct H|].
  intro H. destruct b as [|p]; [auto|].
  do 3 (destruct p as [p|p|]; try (exfalso; lia); auto 10).
Qed.

Lemma bit_cons_0 byte rest j : j < 8 -> bit (byte :: rest) j = N.testbit byte j.
Proof.
  intro H. unfold bit. rewrite N.div_small, N.mod_small by exact H. reflexivity.
Qed.
Lemma bit_cons_S byte rest j : bit (byte :: rest) (8 + j) = bit rest j.
Proof.
  unfold bit. replace ((8 + j) / 8) with (j / 8 + 1) by lia.
  replace ((8 + j) mod 8) with (j mod 8) by lia.
  replace (N.to_nat (j / 8 + 1)) with (S (N.to_nat (j / 8))) by lia. reflexivity.
Qed.
Lemma bit_cons byte rest j :
  bit (byte :: rest) j = if j <? 8 then N.testbit byte j else bit rest (j - 8).
Proof.
  destruct (N.ltb_spec j 8) as [H|H]; [apply bit_cons_0; exact H|].
  replace j with (8 + (j - 8)) at 1 by lia. apply bit_cons_S.
Qed.

Lemma scan_bytes_some a i a' k :
  scan_bytes a i = Some (a', k) ->
  exists j, k = 8 * i + j /\ j < 8 * lenN a /\ bit a j = false /\ lenN a' = lenN a /\
            (forall j', bit a' j' = (j' =? j) || bit a j') /\
            (forall j', j' < j -> bit a j' = true).
Proof.
  revert i a' k. induction a as [|byte rest IH]; intros i a' k; cbn [scan_bytes]; [discriminate|].
  destruct (scan_bits byte all_bits) as [b|] eqn:E.
  - intros [= <- <-].
    assert (Hfirst : forall j', j' < b -> N.testbit byte j' = true).
    { clear IH. unfold all_bits in E. cbn [scan_bits] in E. rewrite !land_pow2_zero in E.
      intros j' Hj'.
      repeat match type of E with
      | context [if negb ?c then _ else _] =>
        destruct c eqn:?; cbn [negb] in E
      end; try discriminate E; injection E as <-;
      try lia;
      destruct j' as [|q]; try assumption;
      do 3 (destruct q as [q|q|]; try (exfalso; lia); try assumption). }
    apply scan_bits_some in E as [Hb Hbit]. apply in_all_bits in Hb.
    exists b. rewrite !lenN_cons. repeat split; try lia.
    + rewrite bit_cons_0 by exact Hb. exact Hbit.
    + intro j'. rewrite !bit_cons. destruct (N.ltb_spec j' 8).
      * apply lor_pow2_bit.
      * destruct (N.eqb_spec j' b); [lia|reflexivity].
    + intros j' Hj'. rewrite bit_cons_0 by lia. apply Hfirst; exact Hj'.
  - destruct (scan_bytes rest (i + 1)) as [[rest' k']|] eqn:F; [|discriminate].
    intros [= <- <-]. destruct (IH _ _ _ F) as (j & -> & Hj & Hbit & Hl & Hother & Hall).
    exists (8 + j). rewrite !lenN_cons. repeat split; try lia.
    + rewrite bit_cons_S. exact Hbit.
    + intro j'. rewrite !bit_cons. destruct (N.ltb_spec j' 8).
      * destruct (N.eqb_spec j' (8 + j)); [lia|reflexivity].
      * rewrite Hother. destruct (N.eqb_spec (j' - 8) j), (N.eqb_spec j' (8 + j)); try lia; reflexivity.
    + intros j' Hj'. rewrite bit_cons. destruct (N.ltb_spec j' 8) as [H8|H8].
      * exact (scan_bits_none _ _ E _ (proj2 (in_all_bits _) H8)).
      * apply Hall. lia.
Qed.

Lemma scan_bytes_none a i :
  scan_bytes a i = None -> forall j, j < 8 * lenN a -> bit a j = true.
Proof.
  revert i. induction a as [|byte rest IH]; intros i; cbn [scan_bytes].
  - intros _ j. rewrite (@lenN_nil N). lia.
  - destruct (scan_bits byte all_bits) as [b|] eqn:E; [discriminate|].
    destruct (scan_bytes rest (i + 1)) as [[rest' k']|] eqn:F; [discriminate|].
    intros _ j Hj. rewrite lenN_cons in Hj. rewrite bit_cons. destruct (N.ltb_spec j 8) as [H|H].
    + exact (scan_bits_none _ _ E j (proj2 (in_all_bits j) H)).
    + apply (IH _ F). lia.
Qed.

(** ** Free *)

Lemma land_clear_bit byte b m :
  m < 8 -> N.testbit (N.land byte (N.ldiff 255 (N.shiftl 1 b))) m
           = N.testbit byte m && negb (m =? b).
Proof.
  intro H. rewrite N.land_spec, N.ldiff_spec, N.shiftl_1_l, N.pow2_bits_eqb.
  replace (N.testbit 255 m) with true.
  - rewrite (N.eqb_sym b m). reflexivity.
  - symmetry. change 255 with (N.ones 8). apply N.ones_spec_low. exact H.
Qed.

Lemma fold_free_bit base len ptr i bits byte m :
  m < 8 -> NoDup bits ->
  N.testbit (fold_left (free_bit base len ptr i) bits byte) m
  = N.testbit byte m
    && negb (existsb (fun b => (m =? b) && (ptr =? base + (8 * i + b) * len)) bits).
Proof.
  intros Hm. revert byte. induction bits as [|b bits IH]; intros byte Hnd; cbn [fold_left existsb].
  - rewrite andb_true_r. reflexivity.
  - inversion Hnd; subst. rewrite IH by assumption. unfold free_bit at 1.
    destruct (ptr =? base + (8 * i + b) * len) eqn:E.
    + rewrite land_clear_bit by exact Hm. rewrite andb_true_r, negb_orb, andb_assoc. reflexivity.
    + rewrite andb_false_r. cbn [orb]. reflexivity.
Qed.

Lemma existsb_all_bits m f :
  m < 8 -> existsb (fun b => (m =? b) && f b) all_bits = f m.
Proof.
  intro H. destruct (f m) eqn:E.
  - apply existsb_exists. exists m. split; [apply in_all_bits; exact H|].
    rewrite N.eqb_refl. exact E.
  - apply not_true_is_false. intro C. apply existsb_exists in C as (b & _ & Hb).
    apply andb_true_iff in Hb as [Hb1 Hb2]. apply N.eqb_eq in Hb1. subst. congruence.
Qed.

Lemma free_bytes_bit base len ptr a i j :
  j < 8 * lenN a ->
  bit (free_bytes base len ptr a i) j
  = bit a j && negb (ptr =? base + (8 * i + j) * len).
Proof.
  revert i j. induction a as [|byte rest IH]; intros i j; cbn [free_bytes].
  - rewrite (@lenN_nil N). lia.
  - rewrite lenN_cons. intro Hj. rewrite !bit_cons. destruct (N.ltb_spec j 8) as [H|H].
    + rewrite fold_free_bit; [|exact H|].
      * rewrite (existsb_all_bits j (fun b => ptr =? base + (8 * i + b) * len)) by exact H.
        reflexivity.
      * unfold all_bits. repeat constructor; cbn [In]; intuition discriminate.
    + rewrite IH by lia. replace (8 * (i + 1) + (j - 8)) with (8 * i + j) by lia. reflexivity.
Qed.

Lemma free_bytes_len base len ptr a i : lenN (free_bytes base len ptr a i) = lenN a.
Proof.
  revert i. induction a as [|byte rest IH]; intro i; cbn [free_bytes]; [reflexivity|].
  rewrite !lenN_cons, IH. reflexivity.
Qed.

(** Freeing a pointer that is no buffer start leaves the bitmap bytes as they
    are. *)
Lemma fold_free_bit_id base len ptr i bits byte :
  (forall b, In b bits -> ptr <> base + (8 * i + b) * len) ->
  fold_left (free_bit base len ptr i) bits byte = byte.
Proof.
  revert byte. induction bits as [|b bits IH]; intros byte H; cbn [fold_left]; [reflexivity|].
  rewrite IH by (intros b' Hb'; apply H; right; exact Hb'). unfold free_bit.
  destruct (N.eqb_spec ptr (base + (8 * i + b) * len)) as [E|E]; [|reflexivity].
  exfalso. apply (H b); [left; reflexivity|exact E].
Qed.

Lemma free_bytes_id base len ptr a i :
  (forall j, j < 8 * lenN a -> ptr <> base + (8 * i + j) * len) ->
  free_bytes base len ptr a i = a.
Proof.
  revert i. induction a as [|byte rest IH]; intros i H; cbn [free_bytes]; [reflexivity|].
  rewrite lenN_cons in H. f_equal.
  - apply fold_free_bit_id. intros b Hb. apply in_all_bits in Hb. apply H. lia.
  - apply IH. intros j Hj. specialize (H (8 + j)).
    replace (8 * (i + 1) + j) with (8 * i + (8 + j)) by lia. apply H. lia.
Qed.

(** ** Pools *)

Definition pool_ok (p : pool) : Prop :=
  p_num p = 8 * lenN (p_active p) /\ 0 < p_len p.

Definition addr_of (p : pool) (k : N) : N := p_buf p + k * p_len p.

Lemma addr_of_inj p j k : 0 < p_len p -> addr_of p j = addr_of p k -> j = k.
Proof.
  unfold addr_of. intros H E. assert (j * p_len p = k * p_len p) as E' by lia.
  apply N.mul_cancel_r in E'; lia.
Qed.

Lemma mem_create_ok num len addr m2 p :
  mem_create num len (Some addr) m2 = Ok p ->
  pool_ok p /\ p_buf p = addr /\ p_num p = num /\ p_len p = len /\
  p_size p = (num * len) mod two64 /\ (forall j, bit (p_active p) j = false).
Proof.
  unfold mem_create. destruct (N.land num 7 =? 0) eqn:E; cbn [negb orb]; [|discriminate].
  destruct (N.eqb_spec len 0); [discriminate|]. destruct m2; [|discriminate].
  intros [= <-]. cbn. apply N.eqb_eq in E.
  change 7 with (N.ones 3) in E. rewrite N.land_ones in E. change (2 ^ 3) with 8 in E.
  unfold pool_ok; cbn. rewrite lenN_repeat, N.shiftr_div_pow2. change (2 ^ 3) with 8.
  repeat split; try lia.
  intro j. unfold bit.
  replace (nth (N.to_nat (j / 8)) (repeat 0 (N.to_nat (num / 8))) 0) with 0; [apply N.bits_0|].
  symmetry. generalize (N.to_nat (j / 8)) (N.to_nat (num / 8)). clear.
  intros n k. revert n. induction k as [|k IH]; intro n; destruct n; cbn; auto.
Qed.

Lemma mem_alloc_some p len p' q :
  pool_ok p -> mem_alloc p len = (p', Some q) ->
  exists k, q = addr_of p k /\ k < p_num p /\ len <= p_len p /\ bit (p_active p) k = false /\
            pool_ok p' /\ p_buf p' = p_buf p /\ p_num p' = p_num p /\ p_len p' = p_len p /\
            p_size p' = p_size p /\
            (forall j, bit (p_active p') j = (j =? k) || bit (p_active p) j) /\
            (forall j, j < k -> bit (p_active p) j = true).
Proof.
  intros [Hn Hl]. unfold mem_alloc. destruct (N.ltb_spec (p_len p) len); [discriminate|].
  destruct (scan_bytes (p_active p) 0) as [[a' k]|] eqn:E; [|discriminate].
  intros [= <- <-]. destruct (scan_bytes_some _ _ _ _ E) as (j & -> & Hj & Hb & Hlen & Ho & Hall).
  exists (8 * 0 + j). unfold pool_ok, addr_of. cbn. rewrite Hlen.
  replace (8 * 0 + j) with j by lia. repeat split; auto; lia.
Qed.

Lemma mem_alloc_none p len p' :
  pool_ok p -> mem_alloc p len = (p', None) ->
  p' = p /\ (p_len p < len \/ forall k, k < p_num p -> bit (p_active p) k = true).
Proof.
  intros [Hn Hl]. unfold mem_alloc. destruct (N.ltb_spec (p_len p) len); [intros [= <-]; auto|].
  destruct (scan_bytes (p_active p) 0) as [[a' k]|] eqn:E; [discriminate|].
  intros [= <-]. split; [reflexivity|]. right. intros k Hk.
  apply (scan_bytes_none _ _ E). lia.
Qed.

Lemma mem_alloc_none_iff p len :
  pool_ok p -> (snd (mem_alloc p len) = None
                <-> p_len p < len \/ forall k, k < p_num p -> bit (p_active p) k = true).
Proof.
  intro Hok. destruct (mem_alloc p len) as [p' [q|]] eqn:E; cbn [snd].
  - split; [discriminate|]. intros [H|H].
    + destruct (mem_alloc_some _ _ _ _ Hok E) as (k & _ & _ & Hle & _). lia.
    + destruct (mem_alloc_some _ _ _ _ Hok E) as (k & _ & Hk & _ & Hb & _).
      rewrite (H k Hk) in Hb. discriminate.
  - split; [intros _|reflexivity]. exact (proj2 (mem_alloc_none _ _ _ Hok E)).
Qed.

Lemma mem_free_facts p q :
  pool_ok p -> let p' := mem_free p q in
  pool_ok p' /\ p_buf p' = p_buf p /\ p_num p' = p_num p /\ p_len p' = p_len p /\
  p_size p' = p_size p /\
  (forall k, k < p_num p -> bit (p_active p') k = bit (p_active p) k && negb (q =? addr_of p k)).
Proof.
  intros [Hn Hl]. cbn. unfold pool_ok. cbn. rewrite free_bytes_len.
  repeat split; auto. intros k Hk. rewrite free_bytes_bit by lia.
  unfold addr_of. replace (8 * 0 + k) with k by lia. reflexivity.
Qed.

(** A foreign pointer: no change at all. *)
Lemma mem_free_foreign p q :
  pool_ok p -> (forall k, k < p_num p -> q <> addr_of p k) -> mem_free p q = p.
Proof.
  intros [Hn Hl] H. unfold mem_free. rewrite free_bytes_id; [destruct p; reflexivity|].
  intros j Hj. replace (8 * 0 + j) with j by lia. apply H. lia.
Qed.

(** ** Histories *)

Definition hist_inv (p0 p : pool) (live : list N) : Prop :=
  pool_ok p /\ p_buf p = p_buf p0 /\ p_num p = p_num p0 /\ p_len p = p_len p0 /\
  p_size p = p_size p0 /\ NoDup live /\
  (forall q, In q live <-> exists k, k < p_num p0 /\ q = addr_of p0 k /\ bit (p_active p) k = true).

Lemma addr_of_same p p0 k : p_buf p = p_buf p0 -> p_len p = p_len p0 -> addr_of p k = addr_of p0 k.
Proof. unfold addr_of. intros -> ->. reflexivity. Qed.

Lemma NoDup_remove' (l : list N) q : NoDup l -> NoDup (remove N.eq_dec q l).
Proof.
  induction l as [|x l IH]; cbn [remove]; [auto|]. intro H. inversion H; subst.
  destruct (N.eq_dec q x); [auto|]. constructor; [|auto].
  intro C. apply in_remove in C. tauto.
Qed.

Lemma hist_inv_alloc p0 p live len p' r :
  hist_inv p0 p live -> mem_alloc p len = (p', r) ->
  hist_inv p0 p' (match r with Some q => q :: live | None => live end).
Proof.
  intros (Hok & Hb & Hn & Hl & Hs & Hnd & Hlive) E. destruct r as [q|].
  - destruct (mem_alloc_some _ _ _ _ Hok E)
      as (k & -> & Hk & Hle & Hbit & Hok' & Hb' & Hn' & Hl' & Hs' & Ho & _).
    rewrite (addr_of_same p p0) by assumption.
    repeat split; try congruence; auto.
    + destruct Hok'; assumption.
    + destruct Hok'; assumption.
    + constructor; [|exact Hnd]. rewrite Hlive. intros (j & Hj & Ej & Hbj).
      apply addr_of_inj in Ej; [|destruct Hok; lia]. subst j. congruence.
    + intros [<-|Hin].
      * exists k. rewrite Ho, N.eqb_refl. repeat split; auto. lia.
      * apply Hlive in Hin as (j & Hj & -> & Hbj). exists j. rewrite Ho, Hbj, orb_true_r. auto.
    + intros (j & Hj & -> & Hbj). rewrite Ho in Hbj. apply orb_true_iff in Hbj as [Hbj|Hbj].
      * apply N.eqb_eq in Hbj. subst. left. reflexivity.
      * right. apply Hlive. exists j. auto.
  - destruct (mem_alloc_none _ _ _ Hok E) as [-> _]. repeat split; auto; try apply Hlive; try (destruct Hok; assumption).
Qed.

Lemma hist_inv_free p0 p live q :
  hist_inv p0 p live -> hist_inv p0 (mem_free p q) (remove N.eq_dec q live).
Proof.
  intros (Hok & Hb & Hn & Hl & Hs & Hnd & Hlive).
  destruct (mem_free_facts p q Hok) as (Hok' & Hb' & Hn' & Hl' & Hs' & Hbit).
  repeat split; try congruence; try (destruct Hok'; assumption).
  - apply NoDup_remove'; exact Hnd.
  - intro Hin. apply in_remove in Hin as [Hin Hne]. apply Hlive in Hin as (k & Hk & -> & Hbk).
    exists k. repeat split; auto. rewrite Hbit by lia. rewrite Hbk.
    rewrite (addr_of_same p p0) by assumption.
    destruct (N.eqb_spec q (addr_of p0 k)); [congruence|reflexivity].
  - intros (k & Hk & -> & Hbk). rewrite Hbit in Hbk by lia.
    apply andb_true_iff in Hbk as [Hbk Hne]. rewrite (addr_of_same p p0) in Hne by assumption.
    apply in_in_remove.
    + intro C. rewrite C, N.eqb_refl in Hne. discriminate.
    + apply Hlive. exists k. auto.
Qed.

Lemma hist_inv_run p0 p live ops :
  hist_inv p0 p live ->
  let (p', live') := mem_history p live ops in hist_inv p0 p' live'.
Proof.
  revert p live. induction ops as [|[len|q] ops IH]; intros p live H; cbn [mem_history].
  - exact H.
  - destruct (mem_alloc p len) as [p' r] eqn:E. apply IH. exact (hist_inv_alloc _ _ _ _ _ _ H E).
  - apply IH. apply hist_inv_free. exact H.
Qed.

Lemma hist_inv_init num len addr p :
  mem_create num len (Some addr) true = Ok p -> hist_inv p p [].
Proof.
  intro E. destruct (mem_create_ok _ _ _ _ _ E) as (Hok & _ & _ & _ & _ & Hz).
  repeat split; auto; try (destruct Hok; assumption); try constructor.
  - intros [].
  - intros (k & _ & _ & Hb). rewrite Hz in Hb. discriminate.
Qed.

Lemma hist_inv_disjoint p0 p live :
  hist_inv p0 p live -> ForallOrdPairs (disjoint (p_len p0)) live.
Proof.
  intros (Hok & Hb & Hn & Hl & Hs & Hnd & Hlive).
  assert (Hpair : forall q r, In q live -> In r live -> q <> r -> disjoint (p_len p0) q r).
  { intros q r Hq Hr Hne. apply Hlive in Hq as (j & Hj & -> & _). apply Hlive in Hr as (k & Hk & -> & _).
    unfold disjoint, addr_of in *. destruct (N.lt_total j k) as [Hlt|[->|Hlt]]; [left| |right].
    - assert ((j + 1) * p_len p0 <= k * p_len p0) by (apply N.mul_le_mono_r; lia). lia.
    - congruence.
    - assert ((k + 1) * p_len p0 <= j * p_len p0) by (apply N.mul_le_mono_r; lia). lia. }
  clear Hlive. induction Hnd as [|x l Hx Hnd IH]; constructor.
  - apply Forall_forall. intros y Hy. apply Hpair; [left|right|]; auto. intros ->. contradiction.
  - apply IH. intros q r Hq Hr. apply Hpair; right; assumption.
Qed.

Lemma hist_inv_inside p0 p live q :
  hist_inv p0 p live -> In q live -> inside (p_buf p0) (p_num p0 * p_len p0) (p_len p0) q.
Proof.
  intros (Hok & Hb & Hn & Hl & Hs & Hnd & Hlive) Hq. apply Hlive in Hq as (k & Hk & -> & _).
  unfold inside, addr_of. split; [lia|].
  assert ((k + 1) * p_len p0 <= p_num p0 * p_len p0) by (apply N.mul_le_mono_r; lia). lia.
Qed.

(** Counting: the number of live buffers. *)
Definition indices (n : N) : list N := map N.of_nat (seq 0 (N.to_nat n)).
Lemma in_indices n k : In k (indices n) <-> k < n.
Proof.
  unfold indices. rewrite in_map_iff. split.
  - intros (x & <- & Hx). apply in_seq in Hx. lia.
  - intro H. exists (N.to_nat k). split; [lia|]. apply in_seq. lia.
Qed.
Lemma NoDup_indices n : NoDup (indices n).
Proof.
  unfold indices. apply FinFun.Injective_map_NoDup; [|apply seq_NoDup].
  intros x y H. lia.
Qed.
Lemma lenN_indices n : lenN (indices n) = n.
Proof. unfold indices. rewrite lenN_map. unfold lenN. rewrite seq_length. lia. Qed.

Lemma hist_inv_full p0 p live :
  hist_inv p0 p live ->
  (lenN live = p_num p0 <-> forall k, k < p_num p0 -> bit (p_active p) k = true).
Proof.
  intros (Hok & Hb & Hn & Hl & Hs & Hnd & Hlive).
  set (all := map (addr_of p0) (indices (p_num p0))).
  assert (Hall : NoDup all).
  { unfold all. apply FinFun.Injective_map_NoDup; [|apply NoDup_indices].
    intros x y H. apply addr_of_inj in H; [exact H|destruct Hok; lia]. }
  assert (Hincl : incl live all).
  { intros q Hq. apply Hlive in Hq as (k & Hk & -> & _). unfold all. apply in_map.
    apply in_indices. exact Hk. }
  assert (Hlen : length all = N.to_nat (p_num p0)).
  { unfold all. rewrite map_length. rewrite <- (lenN_indices (p_num p0)) at 2. rewrite to_nat_lenN. reflexivity. }
  split.
  - intros E k Hk.
    assert (incl all live) as Hrev.
    { apply NoDup_length_incl; auto. rewrite Hlen, <- E, to_nat_lenN. lia. }
    specialize (Hrev (addr_of p0 k)). destruct Hlive with (q := addr_of p0 k) as [H1 _].
    destruct H1 as (j & Hj & Ej & Hbj).
    + apply Hrev. unfold all. apply in_map. apply in_indices. exact Hk.
    + apply addr_of_inj in Ej; [subst; exact Hbj|destruct Hok; lia].
  - intro H. assert (incl all live) as Hrev.
    { intros q Hq. unfold all in Hq. apply in_map_iff in Hq as (k & <- & Hk). apply in_indices in Hk.
      apply Hlive. exists k. auto. }
    pose proof (NoDup_incl_length Hnd Hincl). pose proof (NoDup_incl_length Hall Hrev).
    unfold lenN. lia.
Qed.

(** ** Property-level lemmas *)

Lemma live_disjoint num len addr p ops p' live :
  mem_create num len (Some addr) true = Ok p ->
  mem_history p [] ops = (p', live) ->
  ForallOrdPairs (disjoint len) live /\
  Forall (inside addr (num * len) len) live.
Proof.
  intros E H. pose proof (hist_inv_run p p [] ops (hist_inv_init _ _ _ _ E)) as I.
  rewrite H in I. destruct (mem_create_ok _ _ _ _ _ E) as (_ & <- & <- & <- & _).
  split; [exact (hist_inv_disjoint _ _ _ I)|].
  apply Forall_forall. intros q Hq. exact (hist_inv_inside _ _ _ _ I Hq).
Qed.

Lemma live_alloc_fits num len addr p ops p' live n p'' q :
  mem_create num len (Some addr) true = Ok p ->
  mem_history p [] ops = (p', live) ->
  mem_alloc p' n = (p'', Some q) ->
  n <= len /\ inside addr (num * len) len q /\ Forall (disjoint len q) live.
Proof.
  intros E H A. pose proof (hist_inv_run p p [] ops (hist_inv_init _ _ _ _ E)) as I.
  rewrite H in I. pose proof (hist_inv_alloc _ _ _ _ _ _ I A) as I'. cbn in I'.
  destruct I as (Hok & Hb & Hn & Hl & _).
  destruct (mem_alloc_some _ _ _ _ Hok A) as (k & _ & _ & Hle & _).
  destruct (mem_create_ok _ _ _ _ _ E) as (_ & <- & <- & <- & _).
  split; [lia|]. split; [apply (hist_inv_inside _ _ _ _ I'); left; reflexivity|].
  pose proof (hist_inv_disjoint _ _ _ I') as D. inversion D; assumption.
Qed.

Lemma alloc_fails_iff num len addr p ops p' live n :
  mem_create num len (Some addr) true = Ok p ->
  mem_history p [] ops = (p', live) ->
  (snd (mem_alloc p' n) = None <-> len < n \/ lenN live = num).
Proof.
  intros E H. pose proof (hist_inv_run p p [] ops (hist_inv_init _ _ _ _ E)) as I.
  rewrite H in I. pose proof (hist_inv_full _ _ _ I) as F.
  destruct I as (Hok & Hb & Hn & Hl & _). rewrite (mem_alloc_none_iff _ _ Hok).
  destruct (mem_create_ok _ _ _ _ _ E) as (_ & <- & <- & <- & _).
  rewrite F, Hn, Hl. reflexivity.
Qed.

Lemma remove_NoDup_len (l : list N) q : NoDup l -> In q l -> lenN (remove N.eq_dec q l) + 1 = lenN l.
Proof.
  induction l as [|x l IH]; intros Hnd Hin; [destruct Hin|]. inversion Hnd; subst. cbn [remove].
  destruct (N.eq_dec q x) as [->|Hne].
  - rewrite notin_remove by assumption. rewrite lenN_cons. reflexivity.
  - rewrite !lenN_cons. destruct Hin as [->|Hin]; [congruence|]. rewrite IH by assumption. reflexivity.
Qed.

Lemma live_bound num len addr p ops p' live :
  mem_create num len (Some addr) true = Ok p ->
  mem_history p [] ops = (p', live) -> lenN live <= num.
Proof.
  intros E H. pose proof (hist_inv_run p p [] ops (hist_inv_init _ _ _ _ E)) as I.
  rewrite H in I. destruct I as (Hok & Hb & Hn & Hl & Hs & Hnd & Hlive).
  destruct (mem_create_ok _ _ _ _ _ E) as (_ & _ & <- & _).
  set (all := map (addr_of p) (indices (p_num p))).
  assert (Hincl : incl live all).
  { intros q Hq. apply Hlive in Hq as (k & Hk & -> & _). unfold all. apply in_map.
    apply in_indices. exact Hk. }
  pose proof (NoDup_incl_length Hnd Hincl) as L. unfold all in L. rewrite map_length in L.
  pose proof (lenN_indices (p_num p)). unfold lenN in *. lia.
Qed.

Lemma history_app p live ops1 ops2 :
  mem_history p live (ops1 ++ ops2)
  = let (p', live') := mem_history p live ops1 in mem_history p' live' ops2.
Proof.
  revert p live. induction ops1 as [|[n|q] ops1 IH]; intros p live; cbn [mem_history app].
  - reflexivity.
  - destruct (mem_alloc p n) as [p1 r]. apply IH.
  - apply IH.
Qed.

Lemma free_then_alloc num len addr p ops p' live q n :
  mem_create num len (Some addr) true = Ok p ->
  mem_history p [] ops = (p', live) ->
  In q live -> n <= len -> snd (mem_alloc (mem_free p' q) n) <> None.
Proof.
  intros E H Hin Hle C.
  pose proof (alloc_fails_iff num len addr p (ops ++ [MFree q]) (mem_free p' q)
                (remove N.eq_dec q live) n E) as F.
  rewrite history_app, H in F. cbn [mem_history] in F. specialize (F eq_refl).
  apply F in C. destruct C as [C|C]; [lia|].
  pose proof (hist_inv_run p p [] ops (hist_inv_init _ _ _ _ E)) as I. rewrite H in I.
  destruct I as (_ & _ & _ & _ & _ & Hnd & _).
  pose proof (remove_NoDup_len _ _ Hnd Hin). pose proof (live_bound _ _ _ _ _ _ _ E H). lia.
Qed.

(** What free does, on any pool reached by a history, in terms of live buffers
    only: the live buffers are the old ones without the freed one (part of
    [mem_history]); the pool itself is unchanged if the pointer is not the
    start of a buffer. *)
Lemma free_foreign num len addr p ops p' live q :
  mem_create num len (Some addr) true = Ok p ->
  mem_history p [] ops = (p', live) ->
  (forall k, k < num -> q <> addr + k * len) ->
  mem_free p' q = p'.
Proof.
  intros E H Hf. pose proof (hist_inv_run p p [] ops (hist_inv_init _ _ _ _ E)) as I.
  rewrite H in I. destruct I as (Hok & Hb & Hn & Hl & _).
  destruct (mem_create_ok _ _ _ _ _ E) as (_ & <- & <- & <- & _).
  apply mem_free_foreign; [exact Hok|]. intros k Hk. unfold addr_of. rewrite Hb, Hl.
  apply Hf. lia.
Qed.

(** Freeing buffer [k]: buffer [k] becomes available and the state of every
    other buffer stays.  A buffer is in use when its bitmap bit is set. *)
Lemma free_exactly num len addr p ops p' live k :
  mem_create num len (Some addr) true = Ok p ->
  mem_history p [] ops = (p', live) -> k < num ->
  let p'' := mem_free p' (addr + k * len) in
  bit (p_active p'') k = false /\
  (forall j, j < num -> j <> k -> bit (p_active p'') j = bit (p_active p') j).
Proof.
  intros E H Hk. pose proof (hist_inv_run p p [] ops (hist_inv_init _ _ _ _ E)) as I.
  rewrite H in I. destruct I as (Hok & Hb & Hn & Hl & _).
  destruct (mem_create_ok _ _ _ _ _ E) as (Hok0 & <- & <- & <- & _). cbv zeta.
  destruct (mem_free_facts p' (p_buf p + k * p_len p) Hok) as (_ & _ & _ & _ & _ & Hbit).
  replace (p_buf p + k * p_len p) with (addr_of p' k) in * by (unfold addr_of; rewrite Hb, Hl; reflexivity).
  split.
  - rewrite Hbit by lia. rewrite N.eqb_refl. apply andb_false_r.
  - intros j Hj Hne. rewrite Hbit by lia.
    destruct (N.eqb_spec (addr_of p' k) (addr_of p' j)) as [C|C].
    + apply addr_of_inj in C; [congruence|destruct Hok; lia].
    + apply andb_true_r.
Qed.

(** ** Two threads *)

Lemma set_byte_nth a i v n :
  nth n (set_byte a i v) 0 = if (n =? i)%nat && (i <? length a)%nat then v else nth n a 0.
Proof.
  revert i n. induction a as [|b a IH]; intros i n; cbn [set_byte length].
  - rewrite andb_false_r. reflexivity.
  - destruct i as [|i].
    + destruct n as [|n]; reflexivity.
    + destruct n as [|n]; cbn [nth]; [reflexivity|]. rewrite IH.
      change (S i <? S (length a))%nat with (i <? length a)%nat.
      change (S n =? S i)%nat with (n =? i)%nat. reflexivity.
Qed.

Lemma set_byte_len a i v : lenN (set_byte a i v) = lenN a.
Proof.
  revert i. induction a as [|b a IH]; intro i; cbn [set_byte]; [reflexivity|].
  destruct i; rewrite !lenN_cons; [reflexivity|]. rewrite IH. reflexivity.
Qed.

(** One thread's knowledge. *)
Definition tok (num : N) (a : list N) (pc : alloc_pc) : Prop :=
  match pc with
  | PTest _ => True
  | PLoad i => i < num /\ bit a i = false
  | PStore i v => i < num /\ bit a i = false /\ v = N.lor (nth_byte a (i / 8)) (N.shiftl 1 (i mod 8))
  | PDone (Some i) => i < num /\ bit a i = true
  | PDone None => True
  end.

Definition conc_inv (num : N) (a : list N) (t1 t2 : alloc_pc) : Prop :=
  num = 8 * lenN a /\ tok num a t1 /\ tok num a t2 /\
  (forall i j, t1 = PDone (Some i) -> t2 = PDone (Some j) -> i <> j).

Lemma store_bit num a i j :
  num = 8 * lenN a -> i < num ->
  bit (set_byte a (N.to_nat (i / 8)) (N.lor (nth_byte a (i / 8)) (N.shiftl 1 (i mod 8)))) j
  = (j =? i) || bit a j.
Proof.
  intros Hn Hi. unfold bit, nth_byte. rewrite set_byte_nth.
  replace (N.to_nat (i / 8) <? length a)%nat with true
    by (symmetry; apply Nat.ltb_lt; unfold lenN in Hn; lia).
  rewrite andb_true_r.
  destruct (Nat.eqb_spec (N.to_nat (j / 8)) (N.to_nat (i / 8))) as [E|E].
  - rewrite lor_pow2_bit, E.
    destruct (N.eqb_spec (j mod 8) (i mod 8)), (N.eqb_spec j i); try lia; reflexivity.
  - destruct (N.eqb_spec j i); [subst; lia|reflexivity].
Qed.

Lemma conc_step num a t1 t2 :
  conc_inv num a t1 t2 -> mid t2 = false ->
  let (a', t1') := alloc_tstep num a t1 in conc_inv num a' t1' t2.
Proof.
  intros (Hn & H1 & H2 & Hd) Hm. destruct t1 as [i|i|i v|r]; cbn [alloc_tstep].
  - destruct (N.leb_spec num i) as [Hi|Hi].
    + repeat split; cbn; auto. intros; discriminate.
    + rewrite land_pow2_zero. destruct (N.testbit _ _) eqn:E; cbn [negb].
      * repeat split; cbn; auto. intros; discriminate.
      * repeat split; cbn; auto. intros; discriminate.
  - destruct H1 as [Hi Hb]. repeat split; cbn; auto. intros; discriminate.
  - destruct H1 as (Hi & Hb & ->).
    pose proof (store_bit num a i) as S. unfold conc_inv. rewrite set_byte_len.
    repeat split; cbn; auto.
    + rewrite S, N.eqb_refl by auto. reflexivity.
    + destruct t2 as [?|?|? ?|[j|]]; try discriminate Hm; cbn in *; auto.
      destruct H2 as [Hj Hbj]. split; [exact Hj|]. rewrite S by auto. rewrite Hbj. apply orb_true_r.
    + intros i' j [= <-] ->. cbn in H2. destruct H2 as [_ Hbj]. intros ->. congruence.
  - repeat split; cbn; auto.
Qed.

Lemma conc_inv_sym num a t1 t2 : conc_inv num a t1 t2 -> conc_inv num a t2 t1.
Proof.
  intros (Hn & H1 & H2 & Hd). repeat split; auto. intros i j Hi Hj C. exact (Hd j i Hj Hi (eq_sym C)).
Qed.

Lemma conc_run num sched a t1 t2 :
  conc_inv num a t1 t2 -> uninterrupted num sched a t1 t2 ->
  let '(a', t1', t2') := alloc_run2 num sched a t1 t2 in conc_inv num a' t1' t2'.
Proof.
  revert a t1 t2. induction sched as [|[|] s IH]; intros a t1 t2 I; cbn [uninterrupted alloc_run2].
  - intros _. exact I.
  - intros [Hm Hu]. pose proof (conc_step num a t2 t1 (conc_inv_sym _ _ _ _ I) Hm) as C.
    destruct (alloc_tstep num a t2) as [a' t2']. apply IH; [apply conc_inv_sym; exact C|exact Hu].
  - intros [Hm Hu]. pose proof (conc_step num a t1 t2 I Hm) as C.
    destruct (alloc_tstep num a t1) as [a' t1']. apply IH; assumption.
Qed.

Lemma conc_distinct num sched a a' i j :
  num = 8 * lenN a ->
  uninterrupted num sched a (PTest 0) (PTest 0) ->
  alloc_run2 num sched a (PTest 0) (PTest 0) = (a', PDone (Some i), PDone (Some j)) ->
  i <> j.
Proof.
  intros Hn Hu Hr.
  assert (I : conc_inv num a (PTest 0) (PTest 0)).
  { repeat split; cbn; auto. intros; discriminate. }
  pose proof (conc_run num sched a _ _ I Hu) as C. rewrite Hr in C.
  destruct C as (_ & _ & _ & Hd). apply Hd; reflexivity.
Qed.

(** The thread machine computes what [mem_alloc] computes when it runs alone. *)
Lemma solo_run num a : num = 8 * lenN a ->
  forall n i, i + N.of_nat n = num -> (forall j, j < i -> bit a j = true) ->
  exists m,
    alloc_run2 num (repeat false m) a (PTest i) (PDone None)
    = match scan_bytes a 0 with
      | Some (a', k) => (a', PDone (Some k), PDone None)
      | None => (a, PDone None, PDone None)
      end.
Proof.
  intros Hn n. induction n as [|n IH]; intros i Hi Hall.
  - exists 1%nat. cbn [repeat alloc_run2 alloc_tstep].
    destruct (N.leb_spec num i); [|lia].
    destruct (scan_bytes a 0) as [[a' k]|] eqn:E; [|reflexivity].
    destruct (scan_bytes_some _ _ _ _ E) as (j & _ & Hj & Hb & _). rewrite Hall in Hb by lia. discriminate.
  - destruct (bit a i) eqn:B.
    + destruct (IH (i + 1)) as [m Hm]; [lia| |].
      * intros j Hj. destruct (N.eq_dec j i) as [->|]; [exact B|apply Hall; lia].
      * exists (S m). cbn [repeat alloc_run2 alloc_tstep]. destruct (N.leb_spec num i); [lia|].
        rewrite land_pow2_zero. unfold bit in B. unfold nth_byte. rewrite B. cbn [negb]. exact Hm.
    + exists 3%nat. cbn [repeat alloc_run2 alloc_tstep]. destruct (N.leb_spec num i); [lia|].
      rewrite land_pow2_zero. unfold bit in B. unfold nth_byte at 1. rewrite B. cbn [negb alloc_tstep].
      fold (bit a i) in B.
      destruct (scan_bytes a 0) as [[a' k]|] eqn:E.
      * destruct (scan_bytes_some _ _ _ _ E) as (j & Hk & Hj & Hbj & Hlen & Ho & Hfirst).
        assert (j = i) as ->.
        { destruct (N.lt_total j i) as [H'|[H'|H']]; auto.
          - rewrite Hall in Hbj by exact H'. discriminate.
          - rewrite Hfirst in B by exact H'. discriminate. }
        assert (k = i) as -> by lia.
        f_equal. f_equal. clear IH Hall n Hi Hk. revert E.
        (* compare the two updates of the bitmap byte by byte *)
        assert (G : forall l i0 a1 kk, scan_bytes l i0 = Some (a1, kk) ->
                  forall jj, kk = 8 * i0 + jj -> jj < 8 * lenN l ->
                  a1 = set_byte l (N.to_nat (jj / 8)) (N.lor (nth_byte l (jj / 8)) (N.shiftl 1 (jj mod 8)))).
        { clear. induction l as [|b l IHl]; intros i0 a1 kk; cbn [scan_bytes]; [discriminate|].
          destruct (scan_bits b all_bits) as [bt|] eqn:Sb.
          - intros [= <- <-] jj Hjj _. apply scan_bits_some in Sb as [Sb _]. apply in_all_bits in Sb.
            assert (jj = bt) as -> by lia. rewrite N.div_small, N.mod_small by exact Sb. reflexivity.
          - destruct (scan_bytes l (i0 + 1)) as [[l' k']|] eqn:T; [|discriminate].
            intros [= <- <-] jj Hjj Hlt. rewrite lenN_cons in Hlt.
            destruct (scan_bytes_some _ _ _ _ T) as (j2 & Hk2 & Hj2 & _).
            assert (jj = 8 + j2) as -> by lia.
            rewrite (IHl _ _ _ T j2) by lia.
            replace ((8 + j2) / 8) with (j2 / 8 + 1) by lia.
            replace ((8 + j2) mod 8) with (j2 mod 8) by lia.
            replace (N.to_nat (j2 / 8 + 1)) with (S (N.to_nat (j2 / 8))) by lia.
            cbn [set_byte]. f_equal. f_equal. unfold nth_byte.
            replace (N.to_nat (j2 / 8 + 1)) with (S (N.to_nat (j2 / 8))) by lia. reflexivity. }
        intro E. symmetry. exact (G a 0 a' i E i ltac:(lia) ltac:(lia)).
      * pose proof (scan_bytes_none _ _ E i). rewrite B in H0. discriminate H0. lia.
Qed.

Lemma solo_run_0 num a : num = 8 * lenN a ->
  exists m,
    alloc_run2 num (repeat false m) a (PTest 0) (PDone None)
    = match scan_bytes a 0 with
      | Some (a', k) => (a', PDone (Some k), PDone None)
      | None => (a, PDone None, PDone None)
      end.
Proof.
  intro Hn. apply (solo_run num a Hn (N.to_nat num) 0); [lia|]. intros j Hj. lia.
Qed.

Lemma create_size num len addr p :
  num * len < two64 ->
  mem_create num len (Some addr) true = Ok p -> p_size p = p_num p * p_len p.
Proof.
  intros Hlt E. destruct (mem_create_ok _ _ _ _ _ E) as (_ & _ & <- & <- & -> & _).
  apply N.mod_small. exact Hlt.
Qed.
