(** Lemmas on the proxy's data buffers and string functions. *)
From Verif Require Import Base BaseLemmas BufModel BufSpec.

(** ** Data buffers *)

Definition holds (b : dbuf) (q : list N) (size max : N) : Prop :=
  d_count b = lenN q /\ d_size b = size /\ d_max b = max /\ lenN q <= size /\ size <= max /\
  lenN (d_data b) = size + 1 /\ firstn (length q) (d_data b) = map Some q.

Lemma sub64_ok a b : b <= a -> a < two64 -> sub64 a b = a - b.
Proof. intros H1 H2. unfold sub64, two64 in *. rewrite (N.mod_small b) by lia. lia. Qed.
Lemma add64_ok a b : a + b < two64 -> add64 a b = a + b.
Proof. intro H. unfold add64. apply N.mod_small. exact H. Qed.

Lemma skipn_twice {A} a b (l : list A) : skipn a (skipn b l) = skipn (b + a) l.
Proof. revert l. induction b; intros [|x l]; cbn; auto. apply skipn_nil. Qed.

Lemma skipn_tail {A} a (x : A) l : skipn (S a) (x :: l) = skipn a l.
Proof. reflexivity. Qed.

Lemma lenN_to_nat {A} (l : list A) : N.to_nat (lenN l) = length l.
Proof. unfold lenN. lia. Qed.
Lemma lenN_map {A B} (f : A -> B) l : lenN (map f l) = lenN l.
Proof. unfold lenN. rewrite map_length. reflexivity. Qed.
Lemma lenN_repeat {A} (x : A) n : lenN (repeat x n) = N.of_nat n.
Proof. unfold lenN. rewrite repeat_length. reflexivity. Qed.

Lemma create_holds size max : size <= max -> max < 2 ^ 63 ->
  exists b, data_buf_create size max true = Ok b /\ holds b [] size max.
Proof.
  intros H1 H2. unfold data_buf_create. destruct (N.ltb_spec max size); [lia|]. cbn [negb].
  eexists. split; [reflexivity|]. unfold holds. cbn [d_count d_size d_max d_data length firstn map].
  rewrite add64_ok by (unfold two64; lia). rewrite lenN_repeat, (@lenN_nil N). repeat split; try lia; reflexivity.
Qed.

Lemma recv_holds b q size max bs : max < 2 ^ 63 -> holds b q size max -> lenN q + lenN bs <= size ->
  exists b', data_buf_recv b bs = Ok (b', lenN bs) /\ holds b' (q ++ bs) size max.
Proof.
  intros Hm (H1 & H2 & H3 & H4 & H5 & H6 & H7) Hs. unfold data_buf_recv. rewrite H1, H6.
  destruct (N.ltb_spec (size + 1) (lenN q + lenN bs)); [lia|].
  unfold data_buf_add, data_buf_get_space. cbn [d_count d_size d_max d_data]. rewrite H2.
  rewrite sub64_ok by (unfold two64; lia).
  destruct (N.ltb_spec (size - lenN q) (lenN bs)); [lia|].
  rewrite add64_ok by (unfold two64; lia).
  eexists. split; [reflexivity|]. unfold holds. cbn [d_count d_size d_max d_data].
  rewrite !lenN_app, lenN_firstn, lenN_map, lenN_skipn, H6. repeat split; try lia.
  rewrite lenN_to_nat, H7, app_assoc, <- map_app.
  rewrite firstn_app, map_length, Nat.sub_diag. cbn [firstn]. rewrite app_nil_r.
  apply firstn_all2. rewrite map_length. lia.
Qed.

Lemma consume_holds b q size max num : max < 2 ^ 63 -> holds b q size max ->
  exists b', data_buf_consume b num = Ok (b', N.min num (lenN q)) /\ holds b' (skipn (N.to_nat num) q) size max.
Proof.
  intros Hm (H1 & H2 & H3 & H4 & H5 & H6 & H7). unfold data_buf_consume. rewrite H1, H2.
  assert (E : (if lenN q <? num then lenN q else num) = N.min num (lenN q)) by (destruct (N.ltb_spec (lenN q) num); lia).
  rewrite E. set (k := N.min num (lenN q)) in *.
  assert (Ek : skipn (N.to_nat num) q = skipn (N.to_nat k) q).
  { destruct (N.le_gt_cases num (lenN q)) as [Hk|Hk].
    - replace k with num by lia. reflexivity.
    - rewrite !skipn_all2; unfold lenN in *; auto; lia. }
  rewrite Ek. rewrite !sub64_ok by (unfold two64; lia). rewrite H6.
  destruct (N.ltb_spec (size + 1) (k + (size - k))); [lia|].
  rewrite lenN_app, lenN_firstn, !lenN_skipn, H6.
  destruct (N.ltb_spec (N.min (size - k) (size + 1 - k) + (size + 1 - (size - k))) (size - k + k)); [lia|].
  eexists. split; [reflexivity|]. unfold holds. cbn [d_count d_size d_max d_data].
  rewrite !lenN_app, lenN_firstn, !lenN_skipn, lenN_repeat, !lenN_app, lenN_firstn, !lenN_skipn, H6.
  repeat split; try lia.
  assert (Hl : length (d_data b) = N.to_nat (size + 1)) by (unfold lenN in H6; lia).
  assert (Hq : (length q <= N.to_nat size)%nat) by (unfold lenN in H4; lia).
  assert (Hk : (N.to_nat k <= length q)%nat) by (unfold lenN in k; lia).
  assert (E1 : forall (x y : list (option N)), length x = N.to_nat (size - k) ->
    firstn (N.to_nat (size - k)) (x ++ y) = x).
  { intros x y Hx. rewrite firstn_app, Hx, Nat.sub_diag, <- Hx, firstn_all. cbn [firstn]. apply app_nil_r. }
  rewrite E1 by (rewrite firstn_length, skipn_length, Hl; lia).
  rewrite firstn_app, firstn_firstn, firstn_length, !skipn_length, Hl.
  replace (length q - N.to_nat k - Nat.min (N.to_nat (size - k)) (N.to_nat (size + 1) - N.to_nat k))%nat with 0%nat by lia.
  cbn [firstn]. rewrite app_nil_r.
  replace (Nat.min (length q - N.to_nat k) (N.to_nat (size - k))) with (length q - N.to_nat k)%nat by lia.
  rewrite <- skipn_firstn_comm in *. rewrite H7. rewrite skipn_map. reflexivity.
Qed.

Lemma expand_holds b q size max mem : max < 2 ^ 63 -> holds b q size max ->
  match data_buf_expand b mem with
  | Ok b' => 2 * size <= max /\ mem = true /\ holds b' q (2 * size) max
  | Err EINVAL => max < 2 * size
  | Err ENOMEM => 2 * size <= max /\ mem = false
  | _ => False
  end.
Proof.
  intros Hm (H1 & H2 & H3 & H4 & H5 & H6 & H7). unfold data_buf_expand. rewrite H1, H2, H3.
  assert (Em : mul64 2 size = 2 * size) by (unfold mul64; apply N.mod_small; unfold two64; lia).
  rewrite Em. destruct (N.ltb_spec max (2 * size)); [lia|].
  destruct mem; cbn [negb]; [|auto]. rewrite H6. destruct (N.ltb_spec (size + 1) (lenN q)); [lia|].
  rewrite sub64_ok by (unfold two64; lia). rewrite add64_ok by (unfold two64; lia).
  destruct (N.ltb_spec (2 * size + 1) (lenN q + (2 * size - lenN q))); [lia|].
  split; [lia|]. split; [reflexivity|]. unfold holds. cbn [d_count d_size d_max d_data].
  rewrite !lenN_app, lenN_firstn, !lenN_repeat, H6. repeat split; try lia.
  rewrite lenN_to_nat, H7, firstn_app, map_length, Nat.sub_diag. cbn [firstn]. rewrite app_nil_r.
  apply firstn_all2. rewrite map_length. lia.
Qed.

Lemma run_holds max : max < 2 ^ 63 -> forall os b q size, holds b q size max -> within max (q, size) os ->
  exists b', dbuf_run b os = Ok (b', snd (queue_run max (q, size) os)) /\
    holds b' (fst (fst (queue_run max (q, size) os))) (snd (fst (queue_run max (q, size) os))) max.
Proof.
  intros Hm os. induction os as [|o os IH]; intros b q size Hb Hw; [exists b; auto|].
  cbn [within] in Hw. destruct Hw as [Hw1 Hw2]. cbn [dbuf_run queue_run].
  assert (S : exists b', dbuf_step b o = Ok (b', snd (queue_step max (q, size) o)) /\
    holds b' (fst (fst (queue_step max (q, size) o))) (snd (fst (queue_step max (q, size) o))) max).
  { destruct o as [bs|num|mem]; cbn [dbuf_step queue_step fst snd] in *.
    - destruct (recv_holds b q size max bs Hm Hb Hw1) as (b' & E & Hb'). rewrite E. cbn. eauto.
    - destruct (consume_holds b q size max num Hm Hb) as (b' & E & Hb'). rewrite E. cbn. eauto.
    - pose proof (expand_holds b q size max mem Hm Hb) as E.
      destruct (data_buf_expand b mem) as [b'|[]| |]; try contradiction.
      + destruct E as (E1 & -> & E2). destruct (N.ltb_spec max (2 * size)); [lia|]. cbn. eauto.
      + destruct (N.ltb_spec max (2 * size)); [|lia]. cbn. eauto.
      + destruct E as (E1 & ->). destruct (N.ltb_spec max (2 * size)); [lia|]. cbn. eauto. }
  destruct S as (b1 & E1 & H1). rewrite E1. cbn [bind fst snd].
  destruct (queue_step max (q, size) o) as [[q1 size1] r1]. cbn [fst snd] in *.
  destruct (IH b1 q1 size1 H1 Hw2) as (b2 & E2 & H2). rewrite E2. cbn [bind fst snd].
  destruct (queue_run max (q1, size1) os) as [[q2 size2] rs]. cbn [fst snd] in *. eauto.
Qed.

Lemma queue_received max os : forall q size,
  exists gone, q ++ received os = gone ++ fst (fst (queue_run max (q, size) os)) /\
    lenN gone = consumed os (snd (queue_run max (q, size) os)).
Proof.
  induction os as [|o os IH]; intros q size; [exists []; split; [apply app_nil_r|reflexivity]|].
  cbn [queue_run]. destruct o as [bs|num|mem]; cbn [queue_step received consumed].
  - destruct (IH (q ++ bs) size) as (g & E1 & E2).
    destruct (queue_run max (q ++ bs, size) os) as [[q' s'] rs]. cbn [fst snd] in *.
    exists g. rewrite app_assoc. auto.
  - destruct (IH (skipn (N.to_nat num) q) size) as (g & E1 & E2).
    destruct (queue_run max (skipn (N.to_nat num) q, size) os) as [[q' s'] rs]. cbn [fst snd] in *.
    exists (firstn (N.to_nat num) q ++ g). rewrite <- app_assoc, <- E1, app_assoc, firstn_skipn.
    split; [reflexivity|]. rewrite lenN_app, lenN_firstn, E2. lia.
  - destruct (max <? 2 * size); [|destruct mem];
    match goal with |- context [queue_run max (q, ?s) os] => destruct (IH q s) as (g & E1 & E2);
      destruct (queue_run max (q, s) os) as [[q' s'] rs] end; cbn [fst snd] in *; exists g; auto.
Qed.

Lemma buffer_is_queue size max os b : size <= max -> max < 2 ^ 63 ->
  data_buf_create size max true = Ok b -> within max ([], size) os ->
  exists b' q size' rs,
    queue_run max ([], size) os = (q, size', rs) /\ dbuf_run b os = Ok (b', rs) /\
    d_count b' = lenN q /\ firstn (length q) (d_data b') = map Some q /\
    d_size b' = size' /\ lenN q <= size' /\ size' <= max /\ size' < lenN (d_data b').
Proof.
  intros H1 H2 H3 H4. destruct (create_holds size max H1 H2) as (b0 & E & Hb). rewrite H3 in E. injection E as <-.
  destruct (run_holds max H2 os b [] size Hb H4) as (b' & E' & Hb').
  destruct (queue_run max ([], size) os) as [[q s] rs]. cbn [fst snd] in *.
  exists b', q, s, rs. destruct Hb' as (K1 & K2 & K3 & K4 & K5 & K6 & K7). repeat split; auto; lia.
Qed.

Lemma queue_is_received max size os q size' rs : queue_run max ([], size) os = (q, size', rs) ->
  exists gone, received os = gone ++ q /\ lenN gone = consumed os rs.
Proof. intro H. destruct (queue_received max os [] size) as (g & E1 & E2). rewrite H in *. cbn in *. eauto. Qed.

(** ** Strings *)

Lemma store_ok dst i x : i < lenN dst -> store dst i x = Ok (firstn (N.to_nat i) dst ++ x :: skipn (S (N.to_nat i)) dst).
Proof. intro H. unfold store. destruct (N.ltb_spec i (lenN dst)); [reflexivity|lia]. Qed.

(** What the copying loop leaves: from position [i], as much of the string as fits
    before position [n - 1]. *)
Lemma copy_ok n s rest : ~ In 0 s -> 0 < n -> n < two64 -> forall dst i j k,
  n <= lenN dst -> i < two64 -> j + lenN s < two64 -> k = N.min (lenN s) (n - 1 - i) ->
  util_copy dst (s ++ 0 :: rest) i j n =
    Ok (firstn (N.to_nat i) dst ++ firstn (N.to_nat k) s ++ skipn (N.to_nat (i + k)) dst, i + k, j + lenN s).
Proof.
  intros Hs Hn Hn2. induction s as [|x s IH]; intros dst i j k Hd Hi Hj Hk.
  - cbn [List.app util_copy]. rewrite N.eqb_refl. rewrite (@lenN_nil N) in *. replace k with 0 by lia.
    change (firstn (N.to_nat 0) (@nil N)) with (@nil N). cbn [List.app]. rewrite N.add_0_r, firstn_skipn, N.add_0_r. reflexivity.
  - cbn [List.app util_copy]. destruct (N.eqb_spec x 0) as [E|_]; [exfalso; apply Hs; left; auto|].
    assert (Hs' : ~ In 0 s) by (intro; apply Hs; right; assumption).
    rewrite sub64_ok by lia. rewrite lenN_cons in *.
    destruct (N.ltb_spec i (n - 1)) as [Hlt|Hge].
    + rewrite store_ok by lia. cbn [bind]. rewrite !add64_ok by lia.
      set (d1 := firstn (N.to_nat i) dst ++ x :: skipn (S (N.to_nat i)) dst).
      assert (Hd1 : lenN d1 = lenN dst) by (unfold d1; rewrite lenN_app, lenN_cons, lenN_firstn; unfold lenN; rewrite skipn_length; unfold lenN in Hd; lia).
      remember (N.min (lenN s) (n - 1 - (i + 1))) as k' eqn:Hk'. assert (Ek : k = k' + 1) by lia.
      rewrite (IH Hs' d1 (i + 1) (j + 1) k') by lia.
      assert (Hli : length (firstn (N.to_nat i) dst) = N.to_nat i) by (rewrite firstn_length; unfold lenN in Hd; lia).
      f_equal. f_equal; [f_equal|].
      * rewrite Ek. replace (N.to_nat (k' + 1)) with (S (N.to_nat k')) by lia. cbn [firstn].
        assert (F1 : firstn (N.to_nat (i + 1)) d1 = firstn (N.to_nat i) dst ++ [x]).
        { unfold d1. rewrite firstn_app, Hli. replace (N.to_nat (i + 1) - N.to_nat i)%nat with 1%nat by lia. cbn [firstn].
          rewrite firstn_all2 by lia. reflexivity. }
        assert (F2 : skipn (N.to_nat (i + 1 + k')) d1 = skipn (N.to_nat (i + (k' + 1))) dst).
        { unfold d1. rewrite skipn_app, Hli. rewrite skipn_all2 by lia. cbn [List.app].
          replace (N.to_nat (i + 1 + k') - N.to_nat i)%nat with (S (N.to_nat k')) by lia. rewrite skipn_tail.
          rewrite skipn_twice. f_equal. lia. }
        rewrite F1, F2, <- app_assoc. reflexivity.
      * lia.
      * lia.
    + rewrite add64_ok by lia. rewrite (IH Hs' dst i (j + 1) 0) by lia. replace k with 0 by lia.
      change (firstn (N.to_nat 0) s) with (@nil N). change (firstn (N.to_nat 0) (x :: s)) with (@nil N).
      f_equal. f_equal. lia.
Qed.

Lemma strncpy_ok dst s rest n : ~ In 0 s -> n <= lenN dst -> lenN dst < two64 -> lenN s < two64 ->
  util_strncpy dst (s ++ 0 :: rest) n =
    if n =? 0 then Ok (dst, 0)
    else Ok (firstn (N.to_nat (n - 1)) s ++ 0 :: skipn (N.to_nat (N.min (lenN s) (n - 1) + 1)) dst, lenN s).
Proof.
  intros Hs Hd Hd2 Hl. unfold util_strncpy. destruct (N.eqb_spec n 0) as [->|Hn]; [reflexivity|].
  remember (N.min (lenN s) (n - 1)) as k eqn:Hk.
  rewrite (copy_ok n s rest Hs ltac:(lia) ltac:(lia) dst 0 0 k) by lia. cbn [bind]. rewrite !N.add_0_l.
  change (firstn (N.to_nat 0) dst) with (@nil N). cbn [List.app].
  assert (Ef : firstn (N.to_nat k) s = firstn (N.to_nat (n - 1)) s).
  { destruct (N.le_gt_cases (lenN s) (n - 1)).
    - replace k with (lenN s) by lia. rewrite lenN_to_nat, firstn_all. symmetry. apply firstn_all2. unfold lenN in *. lia.
    - f_equal. lia. }
  assert (Lk : length (firstn (N.to_nat k) s) = N.to_nat k) by (rewrite firstn_length; unfold lenN in Hk; lia).
  rewrite store_ok by (rewrite lenN_app, lenN_firstn, lenN_skipn; lia). cbn [bind].
  f_equal. f_equal. rewrite firstn_app, Lk, Nat.sub_diag, (firstn_all2 (firstn (N.to_nat k) s)) by lia. change (firstn 0 (skipn (N.to_nat k) dst)) with (@nil N). rewrite app_nil_r, Ef. f_equal. f_equal.
  rewrite skipn_app, <- Ef, Lk. rewrite skipn_all2 by lia. cbn [List.app].
  replace (S (N.to_nat k) - N.to_nat k)%nat with 1%nat by lia. rewrite skipn_twice. f_equal. lia.
Qed.

Lemma strncat_ok dst s rest m n : ~ In 0 s -> n <= lenN dst -> lenN dst < two64 -> m + lenN s < two64 -> m < n ->
  util_strncat dst (s ++ 0 :: rest) m n =
    Ok (firstn (N.to_nat m) dst ++ firstn (N.to_nat (n - 1 - m)) s ++
        0 :: skipn (N.to_nat (m + N.min (lenN s) (n - 1 - m) + 1)) dst, m + lenN s).
Proof.
  intros Hs Hd Hd2 Hl Hm. unfold util_strncat. destruct (N.eqb_spec n 0) as [->|Hn]; [lia|].
  remember (N.min (lenN s) (n - 1 - m)) as k eqn:Hk.
  rewrite (copy_ok n s rest Hs ltac:(lia) ltac:(lia) dst m 0 k) by lia. cbn [bind]. rewrite !N.add_0_l. destruct (N.ltb_spec (m + k) n); [|lia].
  assert (Ef : firstn (N.to_nat k) s = firstn (N.to_nat (n - 1 - m)) s).
  { destruct (N.le_gt_cases (lenN s) (n - 1 - m)).
    - replace k with (lenN s) by lia. rewrite lenN_to_nat, firstn_all. symmetry. apply firstn_all2. unfold lenN in *. lia.
    - f_equal. lia. }
  set (p := firstn (N.to_nat m) dst ++ firstn (N.to_nat k) s).
  assert (Lp : length p = N.to_nat (m + k)) by (unfold p; rewrite app_length, !firstn_length; unfold lenN in *; lia).
  rewrite app_assoc. fold p.
  rewrite store_ok by (rewrite lenN_app, lenN_skipn; unfold lenN at 1; rewrite Lp; lia). cbn [bind].
  rewrite add64_ok by lia. f_equal. f_equal.
  rewrite firstn_app, Lp, Nat.sub_diag, (firstn_all2 p) by lia. change (firstn 0 (skipn (N.to_nat (m + k)) dst)) with (@nil N). rewrite app_nil_r.
  unfold p at 1. rewrite Ef, <- app_assoc. f_equal. f_equal. f_equal.
  rewrite skipn_app, Lp. rewrite skipn_all2 by lia. cbn [List.app].
  replace (S (N.to_nat (m + k)) - N.to_nat (m + k))%nat with 1%nat by lia. rewrite skipn_twice. f_equal. lia.
Qed.

(** If the string to append to reaches past the buffer, only the last byte is written. *)
Lemma strncat_full dst s rest m n : ~ In 0 s -> 0 < n -> n <= lenN dst -> lenN dst < two64 -> m + lenN s < two64 -> n <= m ->
  util_strncat dst (s ++ 0 :: rest) m n =
    Ok (firstn (N.to_nat (n - 1)) dst ++ 0 :: skipn (N.to_nat n) dst, m + lenN s).
Proof.
  intros Hs H0 Hd Hd2 Hl Hm. unfold util_strncat. destruct (N.eqb_spec n 0) as [->|Hn]; [lia|].
  rewrite (copy_ok n s rest Hs ltac:(lia) ltac:(lia) dst m 0 0) by lia. cbn [bind]. rewrite !N.add_0_l.
  change (firstn (N.to_nat 0) s) with (@nil N). cbn [List.app].
  rewrite N.add_0_r, firstn_skipn. destruct (N.ltb_spec m n); [lia|]. rewrite sub64_ok by lia.
  rewrite store_ok by lia. cbn [bind]. rewrite add64_ok by lia. replace (S (N.to_nat (n - 1))) with (N.to_nat n) by lia. reflexivity.
Qed.

Lemma strncpy_none dst src : util_strncpy dst src 0 = Ok (dst, 0).
Proof. reflexivity. Qed.

Lemma strncpy_spec dst s rest n : ~ In 0 s -> 0 < n -> n <= lenN dst -> lenN dst < two64 -> lenN s < two64 ->
  exists dst', util_strncpy dst (s ++ 0 :: rest) n = Ok (dst', lenN s) /\
    lenN dst' = lenN dst /\ skipn (N.to_nat n) dst' = skipn (N.to_nat n) dst /\
    exists tl, dst' = firstn (N.to_nat (n - 1)) s ++ 0 :: tl.
Proof.
  intros H1 H2 H3 H4 H5. rewrite strncpy_ok by assumption. destruct (N.eqb_spec n 0); [lia|].
  eexists. split; [reflexivity|]. rewrite lenN_app, lenN_cons, lenN_firstn, lenN_skipn.
  split; [lia|]. split; [|eauto].
  assert (Ll : length (firstn (N.to_nat (n - 1)) s) = N.to_nat (N.min (lenN s) (n - 1))) by (rewrite firstn_length; unfold lenN; lia).
  rewrite skipn_app, Ll. rewrite skipn_all2 by (rewrite Ll; lia). cbn [List.app].
  replace (N.to_nat n - N.to_nat (N.min (lenN s) (n - 1)))%nat with (S (N.to_nat n - N.to_nat (N.min (lenN s) (n - 1)) - 1)) by lia.
  rewrite skipn_tail, skipn_twice. f_equal. lia.
Qed.

Lemma strncat_spec dst s rest m n : ~ In 0 s -> 0 < n -> n <= lenN dst -> lenN dst < two64 -> m + lenN s < two64 ->
  exists dst', util_strncat dst (s ++ 0 :: rest) m n = Ok (dst', m + lenN s) /\
    lenN dst' = lenN dst /\ skipn (N.to_nat n) dst' = skipn (N.to_nat n) dst /\
    exists tl, dst' = firstn (N.to_nat (n - 1)) (firstn (N.to_nat (N.min m (n - 1))) dst ++ (if m <? n then s else [])) ++ 0 :: tl.
Proof.
  intros H1 H2 H3 H4 H5. destruct (N.ltb_spec m n) as [Hm|Hm].
  - rewrite strncat_ok by assumption. eexists. split; [reflexivity|].
    rewrite !lenN_app, lenN_cons, !lenN_firstn, lenN_skipn. split; [lia|].
    assert (Lm : length (firstn (N.to_nat m) dst) = N.to_nat m) by (rewrite firstn_length; unfold lenN in *; lia).
    assert (Ls : length (firstn (N.to_nat (n - 1 - m)) s) = N.to_nat (N.min (lenN s) (n - 1 - m))) by (rewrite firstn_length; unfold lenN; lia).
    split.
    + rewrite app_assoc, skipn_app, app_length, Lm, Ls. rewrite skipn_all2 by (rewrite app_length, Lm, Ls; lia). cbn [List.app].
      replace (N.to_nat n - (N.to_nat m + N.to_nat (N.min (lenN s) (n - 1 - m))))%nat
        with (S (N.to_nat n - (N.to_nat m + N.to_nat (N.min (lenN s) (n - 1 - m))) - 1)) by lia.
      rewrite skipn_tail, skipn_twice. f_equal. lia.
    + eexists. rewrite firstn_app. replace (N.min m (n - 1)) with m by lia. rewrite Lm.
      rewrite (firstn_all2 (firstn (N.to_nat m) dst)) by lia.
      replace (N.to_nat (n - 1) - N.to_nat m)%nat with (N.to_nat (n - 1 - m)) by lia. rewrite <- app_assoc. reflexivity.
  - rewrite strncat_full by assumption. eexists. split; [reflexivity|].
    rewrite !lenN_app, lenN_cons, !lenN_firstn, lenN_skipn. split; [lia|].
    assert (Lm : length (firstn (N.to_nat (n - 1)) dst) = N.to_nat (n - 1)) by (rewrite firstn_length; unfold lenN in *; lia).
    split.
    + rewrite skipn_app, Lm. rewrite skipn_all2 by lia. cbn [List.app].
      replace (N.to_nat n - N.to_nat (n - 1))%nat with 1%nat by lia. reflexivity.
    + eexists. rewrite app_nil_r. replace (N.min m (n - 1)) with (n - 1) by lia. rewrite (firstn_all2 (firstn (N.to_nat (n - 1)) dst)) by lia. reflexivity.
Qed.
