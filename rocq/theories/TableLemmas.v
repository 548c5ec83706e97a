(** Lemmas on the TLS session caches and on the registrar. *)
From Verif Require Import Base BaseLemmas BufModel BufSpec BufLemmas TableModel TableSpec.
From Coq Require Import Permutation.

(** ** Keys *)

Lemma key_eqb_iff a b : key_eqb a b = true <-> a = b.
Proof. unfold key_eqb. destruct (list_eq_dec N.eq_dec a b); split; intro; congruence. Qed.
Lemma key_eqb_refl a : key_eqb a a = true.
Proof. apply key_eqb_iff. reflexivity. Qed.
Lemma key_eqb_neq a b : key_eqb a b = false <-> a <> b.
Proof. rewrite <- key_eqb_iff. destruct (key_eqb a b); split; intro; congruence. Qed.

Definition keysof (w : places) : list (list N) := flat_map (fun o => match o with Some (k, _) => [k] | None => [] end) w.

Lemma under_iff k o : under k o = true <-> exists d, o = Some (k, d).
Proof.
  destruct o as [[k' d]|]; cbn; [rewrite key_eqb_iff|]; split.
  - intros ->. eauto.
  - intros (d' & E). congruence.
  - discriminate.
  - intros (d & E). discriminate.
Qed.
Lemma holds_iff k w : holds_key k w = true <-> In k (keysof w).
Proof.
  unfold holds_key, keysof. rewrite existsb_exists, in_flat_map. split; intros (o & H1 & H2); exists o; split; auto.
  - apply under_iff in H2. destruct H2 as (d & ->). left. reflexivity.
  - apply under_iff. destruct o as [[k' d]|]; cbn in H2; [|contradiction]. destruct H2 as [->|[]]. eauto.
Qed.
Lemma holds_false k w : holds_key k w = false <-> ~ In k (keysof w).
Proof. rewrite <- holds_iff. destruct (holds_key k w); split; intro; congruence. Qed.
Lemma keysof_in k d w : In (Some (k, d)) w -> In k (keysof w).
Proof. intro H. unfold keysof. apply in_flat_map. exists (Some (k, d)). split; [auto|left; reflexivity]. Qed.
Lemma keysof_app w w' : keysof (w ++ w') = keysof w ++ keysof w'.
Proof. apply flat_map_app. Qed.

Lemma lookup_none k w : lookup k w = None <-> ~ In k (keysof w).
Proof.
  induction w as [|[[k' d]|] w IH]; cbn; [tauto| |exact IH].
  destruct (key_eqb k' k) eqn:E.
  - apply key_eqb_iff in E. split; [discriminate|]. intro H. exfalso. apply H. left. exact E.
  - apply key_eqb_neq in E. rewrite IH. unfold keysof. tauto.
Qed.
Lemma lookup_in k d w : lookup k w = Some d -> In (Some (k, d)) w.
Proof.
  induction w as [|[[k' d']|] w IH]; cbn; [discriminate| |auto].
  destruct (key_eqb k' k) eqn:E; [|auto]. apply key_eqb_iff in E. intro H. left. congruence.
Qed.
Lemma lookup_unique k d w : NoDup (keysof w) -> In (Some (k, d)) w -> lookup k w = Some d.
Proof.
  induction w as [|[[k' d']|] w IH]; cbn; [contradiction| |].
  - intros Hn [H|H].
    + injection H as -> ->. rewrite key_eqb_refl. reflexivity.
    + inversion_clear Hn. destruct (key_eqb k' k) eqn:E; [|auto]. apply key_eqb_iff in E. subst k'.
      exfalso. apply H0. apply keysof_in with d. exact H.
  - intros Hn [H|H]; [discriminate|auto].
Qed.

(** ** The ring *)

Definition ring {A} (i : nat) (l : list A) : list A := rev (firstn i l) ++ rev (skipn i l).

Lemma ring_perm {A} i (l : list A) : Permutation (ring i l) l.
Proof.
  unfold ring. transitivity (firstn i l ++ skipn i l); [|rewrite firstn_skipn; reflexivity].
  apply Permutation_app; symmetry; apply Permutation_rev.
Qed.
Lemma ring_map {A B} (f : A -> B) i l : ring i (map f l) = map f (ring i l).
Proof. unfold ring. rewrite map_app, !map_rev, firstn_map, skipn_map. reflexivity. Qed.
Lemma ring_keys i w : Permutation (keysof (ring i w)) (keysof w).
Proof. apply Permutation_flat_map. apply ring_perm. Qed.
Lemma ring_repeat {A} (x : A) i n : ring i (repeat x n) = repeat x n.
Proof.
  assert (R : forall m, rev (repeat x m) = repeat x m).
  { intro m. induction m as [|m IH]; [reflexivity|]. cbn [repeat rev]. rewrite IH. rewrite <- repeat_cons. reflexivity. }
  unfold ring. assert (F : forall i n, firstn i (repeat x n) = repeat x (Nat.min i n)).
  { intro i0. induction i0; intros [|m]; cbn; congruence. }
  assert (K : forall i n, skipn i (repeat x n) = repeat x (n - i)).
  { intro i0. induction i0; intros [|m]; cbn; congruence. }
  rewrite F, K, !R, <- repeat_app. f_equal. lia.
Qed.

Lemma nth_split_here {A} (l : list A) i : (i < length l)%nat -> exists x, nth_error l i = Some x /\ l = firstn i l ++ x :: skipn (S i) l.
Proof.
  intro H. destruct (nth_error l i) as [x|] eqn:E; [|apply nth_error_None in E; lia].
  exists x. split; [reflexivity|]. destruct (nth_error_split _ _ E) as (a & b & -> & <-).
  rewrite firstn_app, Nat.sub_diag, firstn_all. cbn [firstn]. rewrite app_nil_r. f_equal. f_equal.
  rewrite skipn_app, skipn_all2 by lia. replace (S (length a) - length a)%nat with 1%nat by lia. reflexivity.
Qed.

Lemma ring_push {A} (l : list A) i x : (i < length l)%nat ->
  ring (Nat.modulo (S i) (length l)) (firstn i l ++ x :: skipn (S i) l) = x :: removelast (ring i l).
Proof.
  intro H. destruct (nth_split_here l i H) as (y & _ & E). unfold ring.
  assert (Hs : skipn i l = y :: skipn (S i) l).
  { rewrite E at 1. rewrite skipn_app, firstn_length, Nat.min_l by lia. rewrite skipn_all2 by (rewrite firstn_length; lia).
    rewrite Nat.sub_diag. reflexivity. }
  rewrite Hs. cbn [rev]. rewrite app_assoc, removelast_last.
  destruct (Nat.eq_dec (S i) (length l)) as [E2|E2].
  - rewrite (skipn_all2 l) by lia. rewrite <- E2, Nat.mod_same by lia. cbn [firstn skipn rev List.app].
    rewrite rev_app_distr. cbn [rev List.app]. rewrite app_nil_r. reflexivity.
  - rewrite Nat.mod_small by lia.
    rewrite firstn_app, firstn_firstn, firstn_length. replace (Nat.min (S i) i) with i by lia.
    replace (S i - Nat.min i (length l))%nat with 1%nat by lia. cbn [firstn].
    rewrite skipn_app, firstn_length. rewrite skipn_all2 by (rewrite firstn_length; lia).
    replace (S i - Nat.min i (length l))%nat with 1%nat by lia. rewrite skipn_tail. cbn [List.app].
    rewrite rev_app_distr. reflexivity.
Qed.

Lemma nodup_app_l {A} (a b : list A) : NoDup (a ++ b) -> NoDup a.
Proof.
  induction a as [|x a IH]; cbn; intro H; [constructor|]. inversion_clear H. constructor; auto.
  intro. apply H0. apply in_or_app. left. assumption.
Qed.
Lemma removelast_keys (w : places) : NoDup (keysof w) -> NoDup (keysof (removelast w)).
Proof.
  intro H. destruct w as [|o w] using rev_ind; [exact H|]. rewrite removelast_last.
  rewrite keysof_app in H. eapply nodup_app_l. exact H.
Qed.
Lemma removelast_incl {A} (w : list A) x : In x (removelast w) -> In x w.
Proof.
  destruct w as [|o w] using rev_ind; [auto|]. rewrite removelast_last. intro. apply in_or_app. left. assumption.
Qed.
Lemma removelast_keys_incl w k : In k (keysof (removelast w)) -> In k (keysof w).
Proof. unfold keysof. rewrite !in_flat_map. intros (o & H1 & H2). exists o. split; [apply removelast_incl|]; assumption. Qed.

Lemma push_unique k d w : NoDup (keysof w) -> holds_key k w = false -> NoDup (keysof (push k d w)).
Proof.
  intros Hn Hk. unfold push. cbn. constructor; [|apply removelast_keys; exact Hn].
  apply holds_false in Hk. intro H. apply Hk. apply removelast_keys_incl. exact H.
Qed.
Lemma update_keys k d w : keysof (update k d w) = keysof w.
Proof.
  unfold update. induction w as [|o w IH]; [reflexivity|]. cbn [map keysof flat_map] in *. unfold keysof in IH. rewrite IH. f_equal.
  destruct (under k o) eqn:E; [|reflexivity]. apply under_iff in E. destruct E as (d' & ->). reflexivity.
Qed.
Lemma update_none k d w : ~ In k (keysof w) -> update k d w = w.
Proof.
  unfold update. induction w as [|o w IH]; [reflexivity|]. cbn. intro H. f_equal.
  - destruct (under k o) eqn:E; [|reflexivity]. apply under_iff in E. destruct E as (d' & ->). exfalso. apply H. left. reflexivity.
  - apply IH. intro. apply H. apply in_or_app. right. assumption.
Qed.
Lemma erase_none k w : ~ In k (keysof w) -> erase k w = w.
Proof.
  unfold erase. induction w as [|o w IH]; [reflexivity|]. cbn. intro H. f_equal.
  - destruct (under k o) eqn:E; [|reflexivity]. apply under_iff in E. destruct E as (d' & ->). exfalso. apply H. left. reflexivity.
  - apply IH. intro. apply H. apply in_or_app. right. assumption.
Qed.
Lemma nodup_mid (a b : places) k d : NoDup (keysof (a ++ Some (k, d) :: b)) -> ~ In k (keysof a) /\ ~ In k (keysof b).
Proof.
  rewrite keysof_app. cbn. intro H. apply NoDup_remove_2 in H. split; intro; apply H; apply in_or_app; [left|right]; assumption.
Qed.
Lemma update_mid (a b : places) k d d' : NoDup (keysof (a ++ Some (k, d) :: b)) ->
  update k d' (a ++ Some (k, d) :: b) = a ++ Some (k, d') :: b.
Proof.
  intro H. apply nodup_mid in H. destruct H as [H1 H2]. unfold update. rewrite map_app. cbn [map].
  change (map _ a) with (update k d' a). change (map _ b) with (update k d' b). rewrite !update_none by assumption.
  cbn. rewrite key_eqb_refl. reflexivity.
Qed.
Lemma erase_mid (a b : places) k d : NoDup (keysof (a ++ Some (k, d) :: b)) ->
  erase k (a ++ Some (k, d) :: b) = a ++ None :: b.
Proof.
  intro H. apply nodup_mid in H. destruct H as [H1 H2]. unfold erase. rewrite map_app. cbn [map].
  change (map _ a) with (erase k a). change (map _ b) with (erase k b). rewrite !erase_none by assumption.
  cbn. rewrite key_eqb_refl. reflexivity.
Qed.
Lemma erase_unique k w : NoDup (keysof w) -> NoDup (keysof (erase k w)).
Proof.
  unfold erase. induction w as [|o w IH]; [auto|]. cbn. destruct o as [[k' d]|]; cbn; [|auto].
  intro H. inversion_clear H. destruct (key_eqb k' k); cbn; [auto|]. constructor; [|auto].
  intro Hi. apply H0. clear -Hi. unfold keysof in *. rewrite in_flat_map in *.
  destruct Hi as (x & H1 & H2). apply in_map_iff in H1. destruct H1 as (y & Hy & H1).
  exists y. split; [assumption|]. destruct (under k y); subst x; [contradiction|assumption].
Qed.

(** ** Elements of the client's cache *)

Definition celem_is (alen : N) (e : celem) (o : option (list N * list N)) : Prop :=
  exists s tl, ce_addr e = s ++ 0 :: tl /\ ~ In 0 s /\ lenN (ce_addr e) = alen /\
  lenN (ce_data e) = 2048 /\ ce_size e <= 2048 /\
  o = match s with [] => None | _ => Some (s, firstn (N.to_nat (ce_size e)) (ce_data e)) end.

Lemma str_is_ok k s tl : ~ In 0 k -> ~ In 0 s -> str_is k (s ++ 0 :: tl) = Ok (key_eqb s k).
Proof.
  revert k. induction s as [|b s IH]; intros k Hk Hs; cbn [List.app str_is].
  - destruct k as [|x k].
    + rewrite key_eqb_refl. reflexivity.
    + destruct (N.eqb_spec x 0) as [->|E]; [exfalso; apply Hk; left; reflexivity|].
      replace (key_eqb [] (x :: k)) with false; [reflexivity|]. symmetry. apply key_eqb_neq. discriminate.
  - destruct k as [|x k].
    + destruct (N.eqb_spec b 0) as [->|E]; [exfalso; apply Hs; left; reflexivity|].
      replace (key_eqb (b :: s) []) with false; [reflexivity|]. symmetry. apply key_eqb_neq. discriminate.
    + destruct (N.eqb_spec x b) as [->|E].
      * rewrite IH; [|intro; apply Hk; right; assumption|intro; apply Hs; right; assumption].
        f_equal. destruct (key_eqb s k) eqn:E.
        -- apply key_eqb_iff in E. subst. symmetry. apply key_eqb_refl.
        -- symmetry. apply key_eqb_neq. apply key_eqb_neq in E. congruence.
      * f_equal. symmetry. apply key_eqb_neq. congruence.
Qed.

Lemma celem_under alen e o k : celem_is alen e o -> k <> [] -> ~ In 0 k -> str_is k (ce_addr e) = Ok (under k o).
Proof.
  intros (s & tl & E & Hs & _ & _ & _ & Ho) Hk H0. rewrite E, str_is_ok by assumption. subst o.
  destruct s; [|reflexivity]. cbn. f_equal. apply key_eqb_neq. congruence.
Qed.
Lemma celem_data alen e k d : celem_is alen e (Some (k, d)) -> rdn (ce_data e) (ce_size e) = Ok d.
Proof.
  intros (s & tl & _ & _ & _ & Hl & Hz & Ho). destruct s; [discriminate|]. injection Ho as _ ->.
  unfold rdn. destruct (N.leb_spec (ce_size e) (lenN (ce_data e))); [reflexivity|lia].
Qed.

Lemma cfind_ok alen k l os : Forall2 (celem_is alen) l os -> k <> [] -> ~ In 0 k -> forall i,
  i + lenN l < two32 ->
  (holds_key k os = false /\ client_cache_find l k i = Ok None) \/
  exists l1 e l2 p1 d p2, l = l1 ++ e :: l2 /\ os = p1 ++ Some (k, d) :: p2 /\ length l1 = length p1 /\
    celem_is alen e (Some (k, d)) /\ Forall2 (celem_is alen) l1 p1 /\ Forall2 (celem_is alen) l2 p2 /\
    client_cache_find l k i = Ok (Some (i + lenN l1, e)).
Proof.
  intros Hl Hk H0. induction Hl as [|e o l os He Hl IH]; intros i Hi; [left; split; reflexivity|].
  cbn [client_cache_find]. rewrite (celem_under _ _ _ _ He Hk H0). cbn [bind]. rewrite lenN_cons in Hi.
  destruct (under k o) eqn:E.
  - right. apply under_iff in E. destruct E as (d & ->).
    exists [], e, l, [], d, os. repeat split; auto. rewrite (@lenN_nil celem), N.add_0_r. reflexivity.
  - replace (add32 i 1) with (i + 1) by (unfold add32; symmetry; apply N.mod_small; lia).
    destruct (IH (i + 1)) as [[E1 E2]|(l1 & e' & l2 & p1 & d & p2 & -> & -> & E1 & E2 & E3 & E4 & E5)]; [lia| |].
    + left. split; [|exact E2]. cbn. rewrite E. exact E1.
    + right. exists (e :: l1), e', l2, (o :: p1), d, p2. rewrite E5, lenN_cons.
      split; [reflexivity|]. split; [reflexivity|]. split; [cbn; congruence|]. split; [assumption|].
      split; [constructor; assumption|]. split; [assumption|]. f_equal. f_equal. f_equal. lia.
Qed.

Lemma set_elem_mid {A} (a : list A) x b y : set_elem (a ++ x :: b) (lenN a) y = Ok (a ++ y :: b).
Proof.
  unfold set_elem. rewrite lenN_app, lenN_cons. destruct (N.ltb_spec (lenN a) (lenN a + (lenN b + 1))); [|lia].
  rewrite lenN_to_nat, firstn_app, Nat.sub_diag, firstn_all. cbn [firstn]. rewrite app_nil_r.
  rewrite skipn_app, skipn_all2 by lia. replace (S (length a) - length a)%nat with 1%nat by lia. reflexivity.
Qed.
Lemma nth_mid {A} (a : list A) x b : nth_error (a ++ x :: b) (length a) = Some x.
Proof. rewrite nth_error_app2, Nat.sub_diag by lia. reflexivity. Qed.

Lemma fill_ok buf bs : lenN bs <= lenN buf -> fill buf bs = Ok (bs ++ skipn (length bs) buf).
Proof. intro H. unfold fill. destruct (N.ltb_spec (lenN buf) (lenN bs)); [lia|reflexivity]. Qed.
Lemma fill_len (buf bs : list N) : lenN bs <= lenN buf -> lenN (bs ++ skipn (length bs) buf) = lenN buf.
Proof. intro H. rewrite lenN_app. unfold lenN in *. rewrite skipn_length. lia. Qed.
Lemma fill_first (buf bs : list N) : firstn (N.to_nat (lenN bs)) (bs ++ skipn (length bs) buf) = bs.
Proof. rewrite lenN_to_nat, firstn_app, Nat.sub_diag, firstn_all. cbn [firstn]. apply app_nil_r. Qed.

(** What is written to an element. *)
Lemma celem_write alen e o k data : celem_is alen e o -> addr_ok alen k -> alen < two64 -> lenN data <= 2048 ->
  exists a d, util_strncpy (ce_addr e) (k ++ [0]) alen = Ok (a, lenN k) /\ fill (ce_data e) data = Ok d /\
    celem_is alen (mkcelem a d (lenN data)) (Some (k, data)).
Proof.
  intros (s & tl & _ & _ & Ha & Hl & _ & _) (Hk & H0 & Hlen) Hal Hd.
  destruct (strncpy_spec (ce_addr e) k [] alen) as (a & E & E1 & _ & tl' & E2); try lia; [assumption|].
  exists a, (data ++ skipn (length data) (ce_data e)). split; [exact E|]. split; [apply fill_ok; lia|].
  exists k, tl'. cbn [ce_addr ce_data ce_size]. rewrite fill_len, fill_first by lia.
  rewrite firstn_all2 in E2 by (unfold lenN in Hlen; lia).
  split; [exact E2|]. split; [assumption|]. split; [lia|]. split; [lia|]. split; [lia|]. destruct k; [contradiction|reflexivity].
Qed.

Definition cc_is (alen size : N) (c : ccache) (w : places) : Prop :=
  exists os, Forall2 (celem_is alen) (cc_elem c) os /\ w = ring (N.to_nat (cc_index c)) os /\
    NoDup (keysof os) /\ lenN (cc_elem c) = size /\ cc_index c < size.

Lemma forall_first {A} (P : A -> Prop) n l : Forall P l -> Forall P (firstn n l).
Proof. intro H. revert n. induction H; intros [|n]; cbn; constructor; auto. Qed.
Lemma forall_skip {A} (P : A -> Prop) n l : Forall P l -> Forall P (skipn n l).
Proof. intro H. revert n. induction H; intros [|n]; cbn; auto. Qed.
Lemma forall2_len {A B} {R : A -> B -> Prop} {l os} : Forall2 R l os -> length l = length os.
Proof. intro H. induction H; cbn; congruence. Qed.
Lemma forall2_set {A B} (R : A -> B -> Prop) l os : Forall2 R l os -> forall i x y, R x y ->
  Forall2 R (firstn i l ++ x :: skipn (S i) l) (firstn i os ++ y :: skipn (S i) os).
Proof.
  intro H. induction H as [|a b l os Hab Hl IH]; intros i x y Hxy.
  - rewrite !firstn_nil, !skipn_nil. constructor; auto.
  - destruct i as [|i]; cbn; constructor; auto. apply IH. exact Hxy.
Qed.
Lemma forall2_nth {A B} (R : A -> B -> Prop) l os : Forall2 R l os -> forall i x, nth_error l i = Some x ->
  exists y, nth_error os i = Some y /\ R x y.
Proof.
  intro H. induction H as [|a b l os Hab Hl IH]; intros [|i] x E; try discriminate; cbn in *; eauto.
  injection E as ->. eauto.
Qed.

Lemma index_next i size : i < size -> size < two32 ->
  N.to_nat (add32 i 1 mod size) = Nat.modulo (S (N.to_nat i)) (N.to_nat size).
Proof.
  intros H1 H2. unfold add32. rewrite (N.mod_small (i + 1)) by (unfold two32 in *; lia).
  destruct (N.eq_dec (i + 1) size) as [E|E].
  - subst size. rewrite N.mod_same by lia. replace (N.to_nat (i + 1)) with (S (N.to_nat i)) by lia.
    rewrite Nat.mod_same by lia. reflexivity.
  - rewrite N.mod_small, Nat.mod_small by lia. lia.
Qed.

Lemma cset_ok alen size c w k d : alen < two64 -> size < two32 -> cc_is alen size c w -> addr_ok alen k ->
  exists c', keep (client_cache_set alen c k d) c = Ok c' /\ cc_is alen size c' (spec_set w (k, d)).
Proof.
  intros Hal Hsz (os & H1 & -> & H3 & H4 & H5) Hk. unfold client_cache_set, spec_set.
  change MAX_SESSION_DATA_SIZE with 2048. destruct (N.ltb_spec 2048 (lenN d)) as [Hd|Hd].
  { exists c. split; [reflexivity|]. exists os. auto 6. }
  destruct Hk as (Hk1 & Hk2 & Hk3).
  assert (P : holds_key k (ring (N.to_nat (cc_index c)) os) = holds_key k os).
  { apply eq_true_iff_eq. rewrite !holds_iff. split; apply Permutation_in; [|symmetry]; apply ring_keys. }
  rewrite P.
  destruct (cfind_ok alen k (cc_elem c) os H1 Hk1 Hk2 0) as [[E1 E2]|(l1 & e & l2 & p1 & d0 & p2 & E1 & E2 & E3 & E4 & E5 & E6 & E7)]; [lia| |].
  - rewrite E1, E2. cbn [bind].
    destruct (nth_split_here (cc_elem c) (N.to_nat (cc_index c))) as (e & En & _); [unfold lenN in H4; lia|].
    rewrite En. destruct (forall2_nth _ _ _ H1 _ _ En) as (o & _ & He).
    destruct (celem_write alen e o k d He (conj Hk1 (conj Hk2 Hk3)) Hal Hd) as (a & d' & W1 & W2 & W3).
    rewrite W1. cbn [bind fst]. rewrite W2. cbn [bind]. unfold set_elem. rewrite H4.
    destruct (N.ltb_spec (cc_index c) size); [|lia]. cbn [bind keep].
    eexists. split; [reflexivity|].
    exists (firstn (N.to_nat (cc_index c)) os ++ Some (k, d) :: skipn (S (N.to_nat (cc_index c))) os). cbn [cc_elem cc_index].
    assert (Hlo : length os = N.to_nat size) by (rewrite <- (forall2_len H1); unfold lenN in H4; lia).
    assert (Er : push k d (ring (N.to_nat (cc_index c)) os) =
      ring (N.to_nat (add32 (cc_index c) 1 mod size)) (firstn (N.to_nat (cc_index c)) os ++ Some (k, d) :: skipn (S (N.to_nat (cc_index c))) os)).
    { rewrite index_next by assumption. rewrite <- Hlo. rewrite ring_push by lia. reflexivity. }
    split; [apply forall2_set; assumption|]. split; [exact Er|]. split; [|split].
    + apply (Permutation_NoDup (ring_keys (N.to_nat (add32 (cc_index c) 1 mod size)) _)). rewrite <- Er.
      apply push_unique; [|rewrite P; exact E1]. apply (Permutation_NoDup (Permutation_sym (ring_keys _ _)) H3).
    + unfold lenN in *. rewrite app_length, firstn_length. cbn [length]. rewrite skipn_length. lia.
    + apply N.mod_upper_bound. lia.
  - replace (holds_key k os) with true.
    2:{ symmetry. apply holds_iff. apply keysof_in with d0. rewrite E2. apply in_or_app. right. left. reflexivity. }
    rewrite E7. cbn [bind]. rewrite N.add_0_l, lenN_to_nat, E1, nth_mid.
    destruct (celem_write alen e _ k d E4 (conj Hk1 (conj Hk2 Hk3)) Hal Hd) as (a & d' & W1 & W2 & W3).
    rewrite W1. cbn [bind fst]. rewrite W2. cbn [bind]. rewrite set_elem_mid. cbn [bind keep].
    eexists. split; [reflexivity|]. exists (p1 ++ Some (k, d) :: p2). cbn [cc_elem cc_index].
    assert (Eu : update k d os = p1 ++ Some (k, d) :: p2) by (rewrite E2; apply update_mid; rewrite <- E2; exact H3).
    split; [apply Forall2_app; [assumption|constructor; assumption]|]. split; [|split; [|split]].
    + rewrite <- Eu. unfold update. rewrite ring_map. reflexivity.
    + rewrite <- Eu, update_keys. exact H3.
    + rewrite <- H4, E1. rewrite !lenN_app, !lenN_cons. reflexivity.
    + assumption.
Qed.

Lemma cget_ok alen size c w k : size < two32 -> cc_is alen size c w -> addr_ok alen k ->
  client_cache_get c k = Ok (lookup k w).
Proof.
  intros Hsz (os & H1 & -> & H3 & H4 & H5) (Hk1 & Hk2 & Hk3). unfold client_cache_get.
  destruct (cfind_ok alen k (cc_elem c) os H1 Hk1 Hk2 0) as [[E1 E2]|(l1 & e & l2 & p1 & d0 & p2 & E1 & E2 & E3 & E4 & E5 & E6 & E7)]; [lia| |].
  - rewrite E2. cbn [bind]. f_equal. symmetry. apply lookup_none. apply holds_false in E1. intro H. apply E1.
    apply (Permutation_in _ (ring_keys _ _) H).
  - rewrite E7. cbn [bind]. rewrite (celem_data alen e k d0 E4). cbn [bind]. f_equal. symmetry. apply lookup_unique.
    + apply (Permutation_NoDup (Permutation_sym (ring_keys _ _)) H3).
    + apply (Permutation_in _ (Permutation_sym (ring_perm _ _))). rewrite E2. apply in_or_app. right. left. reflexivity.
Qed.

Lemma crun_ok alen size l : alen < two64 -> size < two32 -> Forall (fun p => addr_ok alen (fst p)) l -> forall c w,
  cc_is alen size c w -> exists c', client_cache_run alen c l = Ok c' /\ cc_is alen size c' (fold_left spec_set l w).
Proof.
  intros Hal Hsz. induction l as [|[k d] l IH]; intros Hl c w Hc; [exists c; auto|].
  inversion_clear Hl. destruct (cset_ok alen size c w k d Hal Hsz Hc H) as (c1 & E & H1).
  cbn [client_cache_run fold_left]. rewrite E. cbn [bind]. auto.
Qed.

Lemma ccreate_is alen size : 0 < alen -> 0 < size -> cc_is alen size (client_cache_create alen size) (repeat None (N.to_nat size)).
Proof.
  intros Ha Hs. exists (repeat None (N.to_nat size)). cbn [client_cache_create cc_elem cc_index].
  split; [|split; [symmetry; apply ring_repeat|split; [|split]]].
  - induction (N.to_nat size) as [|n IH]; cbn [repeat]; constructor; [|exact IH].
    exists [], (repeat 0 (N.to_nat (alen - 1))). cbn [ce_addr ce_data ce_size].
    split; [replace (N.to_nat alen) with (S (N.to_nat (alen - 1))) by lia; reflexivity|].
    split; [intros []|]. split; [rewrite lenN_repeat; lia|]. split; [rewrite lenN_repeat; reflexivity|]. split; [lia|reflexivity].
  - replace (keysof (repeat None (N.to_nat size))) with (@nil (list N)); [constructor|].
    induction (N.to_nat size); [reflexivity|cbn; assumption].
  - rewrite lenN_repeat. lia.
  - assumption.
Qed.

Lemma client_cache_places alen size l k : 0 < alen -> alen < two64 -> 0 < size -> size < two32 ->
  Forall (fun p => addr_ok alen (fst p)) l -> addr_ok alen k ->
  exists c, client_cache_run alen (client_cache_create alen size) l = Ok c /\
    client_cache_get c k = Ok (lookup k (fold_left spec_set l (repeat None (N.to_nat size)))).
Proof.
  intros H1 H2 H3 H4 Hl Hk. destruct (crun_ok alen size l H2 H4 Hl _ _ (ccreate_is alen size H1 H3)) as (c & E & Hc).
  exists c. split; [exact E|]. eapply cget_ok; eauto.
Qed.

(** What the places say of the data stored last. *)
Lemma last_set_app k a b : last_set k (a ++ b) = match last_set k b with Some d => Some d | None => last_set k a end.
Proof.
  induction a as [|[k' d] a IH]; cbn; [destruct (last_set k b); reflexivity|].
  rewrite IH. destruct (last_set k b); reflexivity.
Qed.
Lemma last_set_one k k' d : last_set k [(k', d)] = if key_eqb k' k && (lenN d <=? 2048) then Some d else None.
Proof. reflexivity. Qed.

Lemma spec_unique l w : NoDup (keysof w) -> NoDup (keysof (fold_left spec_set l w)).
Proof.
  revert w. induction l as [|[k d] l IH]; intros w Hw; [exact Hw|]. cbn [fold_left]. apply IH. unfold spec_set.
  destruct (2048 <? lenN d); [exact Hw|]. destruct (holds_key k w) eqn:E; [rewrite update_keys; exact Hw|].
  apply push_unique; assumption.
Qed.
Lemma keysof_repeat n : keysof (repeat None n) = [].
Proof. induction n; [reflexivity|cbn; assumption]. Qed.

Lemma update_lookup k d w k' : NoDup (keysof w) -> holds_key k w = true ->
  lookup k' (update k d w) = if key_eqb k k' then Some d else lookup k' w.
Proof.
  intros Hn Hk. destruct (key_eqb k k') eqn:E.
  - apply key_eqb_iff in E. subst k'. apply lookup_unique; [rewrite update_keys; exact Hn|].
    apply existsb_exists in Hk. destruct Hk as (o & H1 & H2). unfold update. apply in_map_iff. exists o. rewrite H2. auto.
  - clear Hn Hk. induction w as [|o w IH]; [reflexivity|]. unfold update in *. cbn [map lookup].
    destruct (under k o) eqn:E2.
    + apply under_iff in E2. destruct E2 as (d' & ->). cbn [lookup]. rewrite E. exact IH.
    + destruct o as [[k2 d2]|]; cbn [lookup]; [destruct (key_eqb k2 k')|]; auto.
Qed.

Lemma removelast_lookup k d w : NoDup (keysof w) -> lookup k (removelast w) = Some d -> lookup k w = Some d.
Proof. intros Hn H. apply lookup_unique; [exact Hn|]. apply removelast_incl. apply lookup_in. exact H. Qed.

Lemma places_latest size l k d :
  lookup k (fold_left spec_set l (repeat None size)) = Some d -> last_set k l = Some d.
Proof.
  revert k d. induction l as [|[k' d'] l IH] using rev_ind; intros k d H.
  - cbn in H. apply lookup_in in H. apply keysof_in in H. rewrite keysof_repeat in H. contradiction.
  - rewrite fold_left_app in H. cbn [fold_left] in H. rewrite last_set_app, last_set_one.
    pose proof (spec_unique l (repeat None size)) as Hu. rewrite keysof_repeat in Hu. specialize (Hu (NoDup_nil _)).
    unfold spec_set in H at 1. destruct (N.ltb_spec 2048 (lenN d')) as [Hd|Hd].
    + destruct (N.leb_spec (lenN d') 2048); [lia|]. rewrite andb_false_r. auto.
    + destruct (N.leb_spec (lenN d') 2048); [|lia]. rewrite andb_true_r.
      destruct (holds_key k' _) eqn:E.
      * rewrite update_lookup in H by assumption. destruct (key_eqb k' k); [exact H|auto].
      * unfold push in H. cbn [lookup] in H. destruct (key_eqb k' k); [exact H|]. apply IH. apply removelast_lookup; assumption.
Qed.

(** As long as there is a place for every key, nothing is dropped. *)
Lemma places_kept size ks l : lenN ks <= N.of_nat size -> Forall (fun p => In (fst p) ks) l ->
  exists w n, fold_left spec_set l (repeat None size) = w ++ repeat None n /\ (length w + n = size)%nat /\
    Forall (fun o => exists k d, o = Some (k, d) /\ In k ks) w /\ (forall k, lookup k w = last_set k l).
Proof.
  intro Hks. induction l as [|[k' d'] l IH] using rev_ind; intro Hl.
  - exists [], size. cbn. auto.
  - apply Forall_app in Hl. destruct Hl as [Hl Hk']. inversion_clear Hk'. cbn in H. clear H0.
    destruct (IH Hl) as (w & n & E & Hn & Hw & Hlk). rewrite fold_left_app. cbn [fold_left].
    pose proof (spec_unique l (repeat None size)) as Hu. rewrite keysof_repeat in Hu. specialize (Hu (NoDup_nil _)).
    rewrite E in *. rewrite keysof_app, keysof_repeat, app_nil_r in Hu.
    unfold spec_set. destruct (N.ltb_spec 2048 (lenN d')) as [Hd|Hd].
    + exists w, n. split; [reflexivity|]. split; [assumption|]. split; [assumption|].
      intro k. rewrite last_set_app, last_set_one. destruct (N.leb_spec (lenN d') 2048); [lia|]. rewrite andb_false_r. apply Hlk.
    + assert (Hh : holds_key k' (w ++ repeat None n) = holds_key k' w).
      { apply eq_true_iff_eq. rewrite !holds_iff, keysof_app, keysof_repeat, app_nil_r. tauto. }
      rewrite Hh. destruct (holds_key k' w) eqn:E2.
      * exists (update k' d' w), n.
        split; [unfold update; rewrite map_app; f_equal; clear; induction n; [reflexivity|cbn; f_equal; assumption]|].
        split; [unfold update; rewrite map_length; assumption|]. split.
        -- unfold update. rewrite Forall_map. eapply Forall_impl; [|exact Hw]. intros o (k & d & -> & Hi). cbn.
           destruct (key_eqb k k'); eauto.
        -- intro k. rewrite update_lookup by assumption. rewrite last_set_app, last_set_one.
           destruct (N.leb_spec (lenN d') 2048); [|lia]. rewrite andb_true_r. destruct (key_eqb k' k); auto.
      * assert (Hlen : (length w < size)%nat).
        { assert (Hkw : length (keysof w) = length w).
          { clear -Hw. induction Hw as [|o w (k & d & -> & _) _ IH]; [reflexivity|]. cbn. f_equal. exact IH. }
          assert (Hin : (length (k' :: keysof w) <= length ks)%nat).
          { apply NoDup_incl_length; [constructor; [apply holds_false; exact E2|exact Hu]|].
            intros k [<-|Hk]; [assumption|]. unfold keysof in Hk. apply in_flat_map in Hk. destruct Hk as (o & H1 & H2).
            rewrite Forall_forall in Hw. destruct (Hw o H1) as (k0 & d0 & -> & Hi). destruct H2 as [<-|[]]. exact Hi. }
          cbn in Hin. unfold lenN in Hks. lia. }
        destruct n as [|n]; [lia|].
        exists (Some (k', d') :: w), n. split; [|split; [|split]].
        -- unfold push. replace (w ++ repeat None (S n)) with ((w ++ repeat (@None (list N * list N)) n) ++ [None]).
           ++ rewrite removelast_last. reflexivity.
           ++ rewrite <- app_assoc. f_equal. symmetry. apply repeat_cons.
        -- cbn. lia.
        -- constructor; [eauto|assumption].
        -- intro k. cbn [lookup]. rewrite last_set_app, last_set_one.
           destruct (N.leb_spec (lenN d') 2048); [|lia]. rewrite andb_true_r. destruct (key_eqb k' k); [reflexivity|apply Hlk].
Qed.

Lemma client_cache_latest alen size l k : 0 < alen -> alen < two64 -> 0 < size -> size < two32 ->
  Forall (fun p => addr_ok alen (fst p)) l -> addr_ok alen k ->
  exists c r, client_cache_run alen (client_cache_create alen size) l = Ok c /\ client_cache_get c k = Ok r /\
    (r = None \/ r = last_set k l).
Proof.
  intros H1 H2 H3 H4 Hl Hk. destruct (client_cache_places alen size l k H1 H2 H3 H4 Hl Hk) as (c & E1 & E2).
  eexists. eexists. split; [exact E1|]. split; [exact E2|].
  destruct (lookup k _) as [d|] eqn:E; [right|left; reflexivity]. symmetry. eapply places_latest. exact E.
Qed.
Lemma client_cache_kept alen size l k ks : 0 < alen -> alen < two64 -> 0 < size -> size < two32 ->
  Forall (fun p => addr_ok alen (fst p)) l -> addr_ok alen k ->
  lenN ks <= size -> Forall (fun p => In (fst p) ks) l ->
  exists c, client_cache_run alen (client_cache_create alen size) l = Ok c /\ client_cache_get c k = Ok (last_set k l).
Proof.
  intros H1 H2 H3 H4 Hl Hk Hks Hin. destruct (client_cache_places alen size l k H1 H2 H3 H4 Hl Hk) as (c & E1 & E2).
  exists c. split; [exact E1|]. rewrite E2. f_equal.
  destruct (places_kept (N.to_nat size) ks l) as (w & n & E & _ & _ & Hw); [lia|assumption|]. rewrite E, <- Hw.
  destruct (lookup k w) as [d|] eqn:Ed.
  - clear -Ed. induction w as [|[[k' d']|] w IH]; cbn in *; [discriminate| |auto]. destruct (key_eqb k' k); auto.
  - apply lookup_none. rewrite keysof_app, keysof_repeat, app_nil_r. apply lookup_none. exact Ed.
Qed.

(** ** Elements of the server's cache *)

Definition selem_is (e : selem) (o : option (list N * list N)) : Prop :=
  lenN (se_id e) = 32 /\ lenN (se_data e) = 2048 /\ se_idlen e <= 32 /\ se_size e <= 2048 /\
  o = if se_idlen e =? 0 then None
      else Some (firstn (N.to_nat (se_idlen e)) (se_id e), firstn (N.to_nat (se_size e)) (se_data e)).

Lemma sfind_ok k l os : Forall2 selem_is l os -> k <> [] -> forall i,
  i + lenN l < two32 ->
  (holds_key k os = false /\ server_cache_find l k i = Ok None) \/
  exists l1 e l2 p1 d p2, l = l1 ++ e :: l2 /\ os = p1 ++ Some (k, d) :: p2 /\ length l1 = length p1 /\
    selem_is e (Some (k, d)) /\ Forall2 selem_is l1 p1 /\ Forall2 selem_is l2 p2 /\
    server_cache_find l k i = Ok (Some (i + lenN l1, e)).
Proof.
  intros Hl Hk. induction Hl as [|e o l os He Hl IH]; intros i Hi; [left; split; reflexivity|].
  cbn [server_cache_find]. rewrite lenN_cons in Hi.
  assert (Hn : lenN k <> 0) by (destruct k; [contradiction|rewrite lenN_cons; lia]).
  assert (Hu : (if lenN k =? se_idlen e then
      let* k0 := rdn (se_id e) (lenN k) in if list_eq_dec N.eq_dec k k0 then Ok true else Ok false else Ok false) = Ok (under k o)).
  { destruct He as (H1 & H2 & H3 & H4 & ->). destruct (N.eqb_spec (lenN k) (se_idlen e)) as [E|E].
    - unfold rdn. destruct (N.leb_spec (lenN k) (lenN (se_id e))); [|lia]. cbn [bind]. rewrite <- E.
      destruct (N.eqb_spec (lenN k) 0); [lia|]. cbn [under].
      destruct (list_eq_dec _ _ _) as [E2|E2]; f_equal; symmetry.
      + apply key_eqb_iff. congruence.
      + apply key_eqb_neq. congruence.
    - destruct (N.eqb_spec (se_idlen e) 0); [reflexivity|]. cbn [under]. f_equal. symmetry. apply key_eqb_neq. intro E2.
      apply E. rewrite <- E2. rewrite lenN_firstn. lia. }
  replace (add32 i 1) with (i + 1) by (unfold add32; symmetry; apply N.mod_small; lia).
  destruct (under k o) eqn:E.
  - right. apply under_iff in E. destruct E as (d & ->).
    exists [], e, l, [], d, os. split; [reflexivity|]. split; [reflexivity|]. split; [reflexivity|]. split; [assumption|].
    split; [constructor|]. split; [assumption|].
    rewrite (@lenN_nil selem), N.add_0_r. destruct (lenN k =? se_idlen e); [|discriminate].
    destruct (rdn _ _); cbn [bind] in *; try discriminate. destruct (list_eq_dec _ _ _); [reflexivity|discriminate].
  - assert (Es : (if lenN k =? se_idlen e then
       let* k0 := rdn (se_id e) (lenN k) in if list_eq_dec N.eq_dec k k0 then Ok (Some (i, e)) else server_cache_find l k (i + 1)
       else server_cache_find l k (i + 1)) = server_cache_find l k (i + 1)).
    { destruct (lenN k =? se_idlen e); [|reflexivity]. destruct (rdn _ _); cbn [bind] in *; try discriminate.
      destruct (list_eq_dec _ _ _); [discriminate|reflexivity]. }
    rewrite Es.
    destruct (IH (i + 1)) as [[E1 E2]|(l1 & e' & l2 & p1 & d & p2 & -> & -> & E1 & E2 & E3 & E4 & E5)]; [lia| |].
    + left. split; [|exact E2]. cbn. rewrite E. exact E1.
    + right. exists (e :: l1), e', l2, (o :: p1), d, p2. rewrite E5, lenN_cons.
      split; [reflexivity|]. split; [reflexivity|]. split; [cbn; congruence|]. split; [assumption|].
      split; [constructor; assumption|]. split; [assumption|]. f_equal. f_equal. f_equal. lia.
Qed.

Lemma selem_data e k d : selem_is e (Some (k, d)) -> rdn (se_data e) (se_size e) = Ok d.
Proof.
  intros (H1 & H2 & H3 & H4 & H5). destruct (se_idlen e =? 0); [discriminate|]. injection H5 as _ ->.
  unfold rdn. destruct (N.leb_spec (se_size e) (lenN (se_data e))); [reflexivity|lia].
Qed.
Lemma selem0_is : selem_is selem0 None.
Proof.
  unfold selem_is, selem0. cbn [se_id se_data se_idlen se_size]. rewrite !lenN_repeat.
  split; [reflexivity|]. split; [reflexivity|]. split; [lia|]. split; [lia|reflexivity].
Qed.

(** The places of any history, with any entries they have. *)
Definition sc_at (size : N) (c : scache) (os : places) : Prop :=
  Forall2 selem_is (sc_elem c) os /\ lenN (sc_elem c) = size /\ sc_index c < size.

Lemma sset_at size c os k d : size < two32 -> sc_at size c os ->
  (lenN k <= 32 -> lenN d <= 2048 -> exists c',
    server_cache_set c k d = Ok c' /\
    sc_at size c' (firstn (N.to_nat (sc_index c)) os ++ (match k with [] => None | _ => Some (k, d) end) :: skipn (S (N.to_nat (sc_index c))) os) /\
    sc_index c' = add32 (sc_index c) 1 mod size) /\
  (32 < lenN k \/ 2048 < lenN d -> server_cache_set c k d = Err EOTHER).
Proof.
  intros Hsz (H1 & H2 & H3). split.
  - intros Hk Hd. unfold server_cache_set. change MAX_SESSION_ID_SIZE with 32. change MAX_SESSION_DATA_SIZE with 2048.
    destruct (N.ltb_spec 32 (lenN k)); [lia|]. destruct (N.ltb_spec 2048 (lenN d)); [lia|]. cbn [orb].
    destruct (nth_split_here (sc_elem c) (N.to_nat (sc_index c))) as (e & En & _); [unfold lenN in H2; lia|].
    rewrite En. destruct (forall2_nth _ _ _ H1 _ _ En) as (o & _ & He1 & He2 & He3 & He4 & _).
    rewrite !fill_ok by lia. cbn [bind]. unfold set_elem. rewrite H2. destruct (N.ltb_spec (sc_index c) size); [|lia]. cbn [bind].
    eexists. split; [reflexivity|]. cbn [sc_elem sc_index]. split; [|reflexivity]. split; [|split].
    + apply forall2_set; [assumption|]. unfold selem_is. cbn [se_id se_data se_idlen se_size].
      rewrite !fill_len, !fill_first by lia. split; [lia|]. split; [lia|]. split; [lia|]. split; [lia|].
      destruct k; [reflexivity|]. rewrite lenN_cons. destruct (N.eqb_spec (lenN k + 1) 0); [lia|reflexivity].
    + unfold lenN in *. cbn [sc_elem]. rewrite app_length, firstn_length. cbn [length]. rewrite skipn_length. lia.
    + cbn [sc_index]. apply N.mod_upper_bound. lia.
  - intro H. unfold server_cache_set. change MAX_SESSION_ID_SIZE with 32. change MAX_SESSION_DATA_SIZE with 2048.
    destruct (N.ltb_spec 32 (lenN k)); [reflexivity|]. destruct (N.ltb_spec 2048 (lenN d)); [reflexivity|]. lia.
Qed.

(** An entry found is one that was stored under that key. *)
Lemma sfind_at size c os k : size < two32 -> sc_at size c os ->
  (server_cache_find (sc_elem c) k 0 = Ok None) \/
  (exists i e o, server_cache_find (sc_elem c) k 0 = Ok (Some (i, e)) /\ i < size /\ selem_is e o).
Proof.
  intros Hsz (H1 & H2 & H3).
  assert (G : forall i, i + lenN (sc_elem c) < two32 -> server_cache_find (sc_elem c) k i = Ok None \/
    exists j e o, server_cache_find (sc_elem c) k i = Ok (Some (j, e)) /\ j < i + lenN (sc_elem c) /\ selem_is e o).
  { clear H2 H3. induction H1 as [|e o l os He Hl IH]; intros i Hi; [left; reflexivity|].
    cbn [server_cache_find]. rewrite lenN_cons in *.
    replace (add32 i 1) with (i + 1) by (unfold add32; symmetry; apply N.mod_small; lia).
    assert (IH' : server_cache_find l k (i + 1) = Ok None \/
       exists j e o, server_cache_find l k (i + 1) = Ok (Some (j, e)) /\ j < i + (lenN l + 1) /\ selem_is e o).
    { destruct (IH (i + 1)) as [E|(j & e' & o' & E & Hj & Ho)]; [lia|left; exact E|right]. exists j, e', o'. split; [exact E|]. split; [lia|assumption]. }
    destruct (N.eqb_spec (lenN k) (se_idlen e)) as [E|E]; [|exact IH'].
    assert (Er : rdn (se_id e) (lenN k) = Ok (firstn (N.to_nat (lenN k)) (se_id e))).
    { destruct He as (K1 & _ & K3 & _). unfold rdn. destruct (N.leb_spec (lenN k) (lenN (se_id e))); [reflexivity|lia]. }
    rewrite Er. cbn [bind]. destruct (list_eq_dec _ _ _); [|exact IH']. right. exists i, e, o. split; [reflexivity|]. split; [lia|assumption]. }
  destruct (G 0) as [E|(j & e & o & E & Hj & Ho)]; [lia|left; exact E|right]. exists j, e, o. split; [exact E|]. split; [lia|assumption].
Qed.

Definition stored (l : list scop) (o : option (list N * list N)) : Prop :=
  match o with Some (k, d) => In (CSet k d) l | None => True end.

Lemma srun_at size l : size < two32 -> forall pre c os, sc_at size c os -> Forall (stored pre) os ->
  exists c' os', server_cache_run c l = Ok c' /\ sc_at size c' os' /\ Forall (stored (pre ++ l)) os'.
Proof.
  intro Hsz. induction l as [|o l IH]; intros pre c os Hc Hs.
  - exists c, os. rewrite app_nil_r. auto.
  - assert (St : exists c1 os1, (match o with CSet k d => keep (server_cache_set c k d) c | CDel k => keep (server_cache_delete c k) c end) = Ok c1 /\
      sc_at size c1 os1 /\ Forall (stored (pre ++ [o])) os1).
    { assert (Hs' : Forall (stored (pre ++ [o])) os).
      { eapply Forall_impl; [|exact Hs]. intros [[k d]|]; cbn; [intro; apply in_or_app; left; assumption|auto]. }
      destruct o as [k d|k].
      - destruct (sset_at size c os k d Hsz Hc) as [A B].
        destruct (N.le_gt_cases (lenN k) 32) as [Hk|Hk]; [destruct (N.le_gt_cases (lenN d) 2048) as [Hd|Hd]|].
        + destruct (A Hk Hd) as (c1 & E & H1 & _). eexists. eexists. rewrite E. split; [reflexivity|]. split; [exact H1|].
          apply Forall_app. split; [apply forall_first; assumption|]. constructor; [|apply forall_skip; assumption].
          destruct k; cbn; [auto|]. apply in_or_app. right. left. reflexivity.
        + exists c, os. rewrite B by auto. auto.
        + exists c, os. rewrite B by auto. auto.
      - unfold server_cache_delete. destruct (sfind_at size c os k Hsz Hc) as [E|(i & e & o & E & Hi & _)]; rewrite E; cbn [bind].
        + exists c, os. auto.
        + destruct Hc as (H1 & H2 & H3). unfold set_elem. rewrite H2. destruct (N.ltb_spec i size); [|lia]. cbn [bind keep].
          eexists. exists (firstn (N.to_nat i) os ++ None :: skipn (S (N.to_nat i)) os). split; [reflexivity|].
          split; [|apply Forall_app; split; [apply forall_first; assumption|constructor; [exact I|apply forall_skip; assumption]]].
          split; [|split]; cbn [sc_elem sc_index]; [apply forall2_set; [assumption|apply selem0_is]| |assumption].
          unfold lenN in *. rewrite app_length, firstn_length. cbn [length]. rewrite skipn_length. lia. }
    destruct St as (c1 & os1 & E1 & H1 & H2).
    destruct (IH (pre ++ [o]) c1 os1 H1 H2) as (c2 & os2 & E2 & H3 & H4).
    exists c2, os2. rewrite <- app_assoc in H4. split; [|auto]. cbn [server_cache_run]. destruct o; rewrite E1; exact E2.
Qed.

Lemma screate_at size : 0 < size -> sc_at size (server_cache_create size) (repeat None (N.to_nat size)).
Proof.
  intro H. unfold sc_at, server_cache_create. cbn [sc_elem sc_index]. split; [|split; [rewrite lenN_repeat; lia|assumption]].
  induction (N.to_nat size); cbn [repeat]; constructor; [apply selem0_is|assumption].
Qed.

Lemma server_cache_own size l k : 0 < size -> size < two32 -> k <> [] ->
  exists c r, server_cache_run (server_cache_create size) l = Ok c /\ server_cache_get c k = Ok r /\
    (r = None \/ exists d, r = Some d /\ In (CSet k d) l).
Proof.
  intros H1 H2 Hk. destruct (srun_at size l H2 [] _ _ (screate_at size H1)) as (c & os & E & Hc & Hs).
  { apply Forall_forall. intros o Ho. apply repeat_spec in Ho. subst o. exact I. }
  exists c. unfold server_cache_get. destruct Hc as (K1 & K2 & K3).
  destruct (sfind_ok k (sc_elem c) os K1 Hk 0) as [[E1 E2]|(l1 & e & l2 & p1 & d0 & p2 & E1 & E2 & E3 & E4 & E5 & E6 & E7)]; [lia| |].
  - rewrite E2. eexists. split; [exact E|]. split; [reflexivity|left; reflexivity].
  - rewrite E7. cbn [bind]. rewrite (selem_data _ _ _ E4). cbn [bind]. eexists. split; [exact E|]. split; [reflexivity|].
    right. exists d0. split; [reflexivity|]. rewrite E2 in Hs. apply Forall_app in Hs. destruct Hs as [_ Hs]. inversion_clear Hs. exact H.
Qed.

(** If no key is stored twice at a time. *)
Definition sc_is (size : N) (c : scache) (w : places) : Prop :=
  exists os, sc_at size c os /\ w = ring (N.to_nat (sc_index c)) os /\ NoDup (keysof os).

Lemma sop_ok size c w o l : size < two32 -> sc_is size c w -> fresh_keys w (o :: l) ->
  exists c', (match o with CSet k d => keep (server_cache_set c k d) c | CDel k => keep (server_cache_delete c k) c end) = Ok c' /\
    sc_is size c' (spec_sop w o).
Proof.
  intros Hsz (os & Ha & -> & Hn) [Hf _]. assert (Ha' := Ha). destruct Ha' as (K1 & K2 & K3).
  destruct o as [k d|k]; cbn [spec_sop].
  - destruct Hf as [Hk Hf]. destruct (sset_at size c os k d Hsz Ha) as [A B].
    destruct (N.ltb_spec 32 (lenN k)) as [Hk1|Hk1].
    { cbn [orb]. exists c. rewrite B by auto. split; [reflexivity|]. exists os. auto. }
    destruct (N.ltb_spec 2048 (lenN d)) as [Hd|Hd].
    { cbn [orb]. exists c. rewrite B by auto. split; [reflexivity|]. exists os. auto. }
    cbn [orb]. destruct (A Hk1 Hd) as (c1 & E & H1 & H2). exists c1. rewrite E. split; [reflexivity|].
    eexists. split; [exact H1|].
    assert (Hlo : length os = N.to_nat size) by (rewrite <- (forall2_len K1); unfold lenN in K2; lia).
    destruct k as [|x k]; [contradiction|].
    assert (Er : push (x :: k) d (ring (N.to_nat (sc_index c)) os) =
      ring (N.to_nat (sc_index c1)) (firstn (N.to_nat (sc_index c)) os ++ Some (x :: k, d) :: skipn (S (N.to_nat (sc_index c))) os)).
    { rewrite H2, index_next by assumption. rewrite <- Hlo. rewrite ring_push by lia. reflexivity. }
    split; [exact Er|].
    apply (Permutation_NoDup (ring_keys (N.to_nat (sc_index c1)) _)). rewrite <- Er.
    apply push_unique; [|exact Hf]. apply (Permutation_NoDup (Permutation_sym (ring_keys _ _)) Hn).
  - unfold server_cache_delete.
    destruct (sfind_ok k (sc_elem c) os K1 Hf 0) as [[E1 E2]|(l1 & e & l2 & p1 & d0 & p2 & E1 & E2 & E3 & E4 & E5 & E6 & E7)]; [lia| |].
    + rewrite E2. cbn [bind keep]. exists c. split; [reflexivity|]. exists os. split; [assumption|]. split; [|assumption].
      apply erase_none. apply holds_false in E1. intro H. apply E1. apply (Permutation_in _ (ring_keys _ _) H).
    + rewrite E7. cbn [bind]. rewrite N.add_0_l, E1, set_elem_mid. cbn [bind keep]. eexists. split; [reflexivity|].
      exists (p1 ++ None :: p2). unfold sc_at. cbn [sc_elem sc_index].
      assert (Ee : erase k os = p1 ++ None :: p2) by (rewrite E2; apply erase_mid; rewrite <- E2; exact Hn).
      split; [split; [|split]|split].
      * apply Forall2_app; [assumption|constructor; [apply selem0_is|assumption]].
      * rewrite <- K2, E1, !lenN_app, !lenN_cons. reflexivity.
      * assumption.
      * rewrite <- Ee. unfold erase. rewrite ring_map. reflexivity.
      * rewrite <- Ee. apply erase_unique. exact Hn.
Qed.

Lemma server_cache_places size l k : 0 < size -> size < two32 -> k <> [] ->
  fresh_keys (repeat None (N.to_nat size)) l ->
  exists c, server_cache_run (server_cache_create size) l = Ok c /\
    server_cache_get c k = Ok (lookup k (fold_left spec_sop l (repeat None (N.to_nat size)))).
Proof.
  intros H1 H2 Hk Hf.
  assert (G : forall l c w, sc_is size c w -> fresh_keys w l -> exists c', server_cache_run c l = Ok c' /\ sc_is size c' (fold_left spec_sop l w)).
  { clear l Hf. intro l. induction l as [|o l IH]; intros c w Hc Hf; [exists c; auto|].
    destruct (sop_ok size c w o l H2 Hc Hf) as (c1 & E & Hc1). destruct Hf as [_ Hf].
    destruct (IH c1 _ Hc1 Hf) as (c2 & E2 & Hc2). exists c2. split; [|exact Hc2]. cbn [server_cache_run]. destruct o; rewrite E; exact E2. }
  destruct (G l (server_cache_create size) (repeat None (N.to_nat size))) as (c & E & os & (K1 & K2 & K3) & Ew & Hn); [|exact Hf|].
  { exists (repeat None (N.to_nat size)). split; [apply screate_at; assumption|]. split; [symmetry; apply ring_repeat|].
    rewrite keysof_repeat. constructor. }
  exists c. split; [exact E|]. rewrite Ew. unfold server_cache_get.
  destruct (sfind_ok k (sc_elem c) os K1 Hk 0) as [[E1 E2]|(l1 & e & l2 & p1 & d0 & p2 & E1 & E2 & E3 & E4 & E5 & E6 & E7)]; [lia| |].
  - rewrite E2. cbn [bind]. f_equal. symmetry. apply lookup_none. apply holds_false in E1. intro H. apply E1.
    apply (Permutation_in _ (ring_keys _ _) H).
  - rewrite E7. cbn [bind]. rewrite (selem_data _ _ _ E4). cbn [bind]. f_equal. symmetry. apply lookup_unique.
    + apply (Permutation_NoDup (Permutation_sym (ring_keys _ _)) Hn).
    + apply (Permutation_in _ (Permutation_sym (ring_perm _ _))). rewrite E2. apply in_or_app. right. left. reflexivity.
Qed.

(** ** The registrar *)

Fixpoint chain (h : list rentry) (ps : list nat) (t : table) : Prop :=
  match ps, t with
  | [], [] => True
  | p :: ps, (id, a) :: t =>
    (exists e, nth_error h p = Some e /\ re_live e = true /\ re_id e = id /\ re_addr e = a /\ re_next e = hd_error ps) /\ chain h ps t
  | _, _ => False
  end.
Definition lastp (ps : list nat) : option nat := hd_error (rev ps).

Definition reg_is (alone : bool) (r : registrar) (t : table) : Prop :=
  exists ps, NoDup ps /\ chain (rg_heap r) ps t /\ NoDup (map fst t) /\
    rg_first r = hd_error ps /\ rg_last r = lastp ps /\
    (alone = true -> forall p e, hd_error ps = Some p -> nth_error (rg_heap r) p = Some e -> re_prev e = None).

Lemma chain_len h ps t : chain h ps t -> length ps = length t.
Proof. revert t. induction ps as [|p ps IH]; intros [|[id a] t]; cbn; intro H; try contradiction; auto. destruct H as [_ H]. f_equal. auto. Qed.
Lemma chain_bound h ps t : chain h ps t -> Forall (fun p => (p < length h)%nat) ps.
Proof.
  revert t. induction ps as [|p ps IH]; intros [|[id a] t]; cbn; intro H; try contradiction; constructor.
  - destruct H as ((e & E & _) & _). apply nth_error_Some. congruence.
  - destruct H as [_ H]. eapply IH. exact H.
Qed.
Lemma chain_fuel h ps t : NoDup ps -> chain h ps t -> (length ps <= length h)%nat.
Proof.
  intros Hn H. rewrite <- (seq_length (length h) 0). apply NoDup_incl_length; [exact Hn|].
  intros p Hp. apply in_seq. pose proof (chain_bound _ _ _ H) as Hb. rewrite Forall_forall in Hb. specialize (Hb p Hp). lia.
Qed.
Lemma chain_split h ps1 p ps2 t1 id a t2 : length ps1 = length t1 -> chain h (ps1 ++ p :: ps2) (t1 ++ (id, a) :: t2) ->
  chain h (p :: ps2) ((id, a) :: t2).
Proof.
  revert t1. induction ps1 as [|q ps1 IH]; intros [|[i b] t1] Hl H; try discriminate; [exact H|].
  cbn in H. destruct H as [_ H]. apply IH with t1; [cbn in Hl; congruence|exact H].
Qed.

Lemma rfind_ok h id ps : forall t fuel, chain h ps t -> (length ps <= fuel)%nat ->
  (find_id id t = None /\ registrar_find_from fuel h (hd_error ps) id = Ok None) \/
  exists ps1 p ps2 t1 a t2, ps = ps1 ++ p :: ps2 /\ t = t1 ++ (id, a) :: t2 /\ length ps1 = length t1 /\
    find_id id t = Some a /\ registrar_find_from fuel h (hd_error ps) id = Ok (Some p).
Proof.
  induction ps as [|p ps IH]; intros t fuel H Hf.
  - destruct t as [|[i a] t]; [|contradiction]. left. split; [reflexivity|]. destruct fuel; reflexivity.
  - destruct t as [|[i a] t]; [contradiction|]. destruct H as ((e & E1 & E2 & E3 & E4 & E5) & H).
    destruct fuel as [|fuel]; [cbn in Hf; lia|]. cbn [hd_error registrar_find_from]. unfold entry. rewrite E1, E2. cbn [bind].
    rewrite E3, E5. cbn [find_id]. unfold key_eqb. destruct (list_eq_dec N.eq_dec i id) as [->|Hne].
    + right. exists [], p, ps, [], a, t. auto.
    + destruct (IH t fuel H) as [[F1 F2]|(ps1 & q & ps2 & t1 & b & t2 & -> & -> & F1 & F2 & F3)]; [cbn in Hf; lia|left; auto|].
      right. exists (p :: ps1), q, ps2, ((i, a) :: t1), b, t2. cbn [length]. auto 6.
Qed.

Lemma registrar_find_ok alone r t id : reg_is alone r t ->
  (find_id id t = None /\ registrar_find r id = Ok None) \/
  exists ps1 p ps2 t1 a t2, t = t1 ++ (id, a) :: t2 /\ length ps1 = length t1 /\
    find_id id t = Some a /\ registrar_find r id = Ok (Some p) /\
    NoDup (ps1 ++ p :: ps2) /\ chain (rg_heap r) (ps1 ++ p :: ps2) t /\ NoDup (map fst t) /\
    rg_first r = hd_error (ps1 ++ p :: ps2) /\ rg_last r = lastp (ps1 ++ p :: ps2) /\
    (alone = true -> forall q e, hd_error (ps1 ++ p :: ps2) = Some q -> nth_error (rg_heap r) q = Some e -> re_prev e = None).
Proof.
  intros (ps & H1 & H2 & H3 & H4 & H5 & H6). unfold registrar_find. rewrite H4.
  destruct (rfind_ok (rg_heap r) id ps t (S (length (rg_heap r))) H2) as [E|(ps1 & p & ps2 & t1 & a & t2 & -> & -> & E1 & E2 & E3)].
  - pose proof (chain_fuel _ _ _ H1 H2). lia.
  - left. exact E.
  - right. exists ps1, p, ps2, t1, a, t2. auto 12.
Qed.

Lemma set_entry_same h p e : (p < length h)%nat -> nth_error (set_entry h p e) p = Some e.
Proof.
  intro H. unfold set_entry. rewrite nth_error_app2 by (rewrite firstn_length; lia).
  rewrite firstn_length, Nat.min_l by lia. rewrite Nat.sub_diag. reflexivity.
Qed.
Lemma set_entry_other h p q e : (p < length h)%nat -> p <> q -> nth_error (set_entry h p e) q = nth_error h q.
Proof.
  intros H Hq. unfold set_entry. destruct (nth_split_here h p H) as (x & _ & E). rewrite E at 3.
  destruct (Nat.lt_ge_cases q p) as [Hlt|Hge].
  - rewrite !nth_error_app1 by (rewrite firstn_length; lia). reflexivity.
  - rewrite !nth_error_app2 by (rewrite firstn_length; lia). rewrite firstn_length, Nat.min_l by lia.
    destruct (q - p)%nat eqn:E2; [lia|]. reflexivity.
Qed.
Lemma set_entry_len h p e : (p < length h)%nat -> length (set_entry h p e) = length h.
Proof. intro H. unfold set_entry. rewrite app_length, firstn_length. cbn [length]. rewrite skipn_length. lia. Qed.

Lemma chain_same h h' ps t : (forall p, In p ps -> nth_error h' p = nth_error h p) -> chain h ps t -> chain h' ps t.
Proof.
  revert t. induction ps as [|p ps IH]; intros [|[id a] t] Hh H; cbn in *; try contradiction; auto.
  destruct H as [H1 H2]. split; [rewrite Hh by auto; exact H1|]. apply IH; auto.
Qed.
Lemma chain_set_addr h p e a : nth_error h p = Some e -> forall ps1 ps2 t1 id b t2,
  length ps1 = length t1 -> NoDup (ps1 ++ p :: ps2) -> chain h (ps1 ++ p :: ps2) (t1 ++ (id, b) :: t2) ->
  chain (set_entry h p (mkrentry (re_id e) a (re_prev e) (re_next e) (re_live e))) (ps1 ++ p :: ps2) (t1 ++ (id, a) :: t2).
Proof.
  intros E ps1. assert (Hp : (p < length h)%nat) by (apply nth_error_Some; congruence).
  induction ps1 as [|q ps1 IH]; intros ps2 [|[i c] t1] id b t2 Hl Hn H; try discriminate.
  - cbn [List.app] in *. destruct H as ((e' & E1 & E2 & E3 & E4 & E5) & H). inversion_clear Hn. split.
    + rewrite E in E1. injection E1 as <-. eexists. split; [apply set_entry_same; exact Hp|]. cbn. auto.
    + apply chain_same with h; [|exact H]. intros q Hq. apply set_entry_other; [exact Hp|]. intros ->. contradiction.
  - cbn [List.app] in *. destruct H as [H1 H2]. inversion_clear Hn. split.
    + rewrite set_entry_other; [|exact Hp|]; [exact H1|]. intros ->. apply H. apply in_or_app. right. left. reflexivity.
    + apply IH with b; [cbn in Hl; congruence|assumption|exact H2].
Qed.

Lemma find_set id a t : find_id id t = None -> set_id id a t = t ++ [(id, a)].
Proof.
  induction t as [|[i b] t IH]; cbn; [reflexivity|]. destruct (key_eqb i id); [discriminate|]. intro H. f_equal. auto.
Qed.
Lemma find_none_in id t : find_id id t = None <-> ~ In id (map fst t).
Proof.
  induction t as [|[i b] t IH]; cbn; [tauto|]. destruct (key_eqb i id) eqn:E.
  - apply key_eqb_iff in E. split; [discriminate|]. intro H. exfalso. apply H. left. exact E.
  - apply key_eqb_neq in E. rewrite IH. tauto.
Qed.
Lemma set_mid id a b t1 t2 : ~ In id (map fst t1) -> set_id id a (t1 ++ (id, b) :: t2) = t1 ++ (id, a) :: t2.
Proof.
  induction t1 as [|[i c] t1 IH]; cbn; intro H; [rewrite key_eqb_refl; reflexivity|].
  destruct (key_eqb i id) eqn:E; [apply key_eqb_iff in E; exfalso; apply H; left; exact E|]. f_equal. apply IH. tauto.
Qed.

Lemma chain_snoc h ps : forall t l el n id a, NoDup (ps ++ [l]) -> chain h (ps ++ [l]) t -> nth_error h l = Some el -> n = length h ->
  chain (set_entry h l (mkrentry (re_id el) (re_addr el) (re_prev el) (Some n) (re_live el)) ++ [mkrentry id a (Some l) None true])
    ((ps ++ [l]) ++ [n]) (t ++ [(id, a)]).
Proof.
  intros t l el n id a Hn H E En. assert (Hl : (l < length h)%nat) by (apply nth_error_Some; congruence).
  assert (Hb := chain_bound _ _ _ H).
  revert t Hn H Hb. induction ps as [|p ps IH]; intros [|[i b] t] Hn H Hb; cbn [List.app] in *; try contradiction.
  - destruct H as ((e & E1 & E2 & E3 & E4 & E5) & H). destruct t; [|contradiction]. rewrite E in E1. injection E1 as <-. cbn [chain List.app]. split.
    + eexists. split; [rewrite nth_error_app1 by (rewrite set_entry_len; lia); apply set_entry_same; exact Hl|]. cbn. auto.
    + split; [|exact I]. eexists. split.
      * rewrite nth_error_app2 by (rewrite set_entry_len; lia). rewrite set_entry_len, En, Nat.sub_diag by lia. reflexivity.
      * cbn. auto.
  - destruct H as ((e & E1 & E2 & E3 & E4 & E5) & H). inversion_clear Hn. inversion_clear Hb. cbn [chain]. split.
    + exists e. split; [|].
      * rewrite nth_error_app1 by (rewrite set_entry_len; lia). rewrite set_entry_other; [exact E1|exact Hl|].
        intros ->. apply H0. apply in_or_app. right. left. reflexivity.
      * split; [exact E2|]. split; [exact E3|]. split; [exact E4|]. rewrite E5. destruct ps; reflexivity.
    + apply IH; assumption.
Qed.

Lemma cut_all n s : lenN s < n -> cut n s = s.
Proof. intro H. unfold cut. apply firstn_all2. unfold lenN in H. lia. Qed.

Definition next_alone (alone : bool) (t : table) (o : rgop) : bool :=
  match t with
  | [] => true
  | _ => match o with RDel id => if has_id id t then false else alone | _ => alone end
  end.

Lemma hd_snoc {A} (a : list A) x y : hd_error ((a ++ [x]) ++ [y]) = hd_error (a ++ [x]).
Proof. destruct a; reflexivity. Qed.

Lemma add_ok alen alone r t id addr mem : reg_is alone r t -> lenN id < 32 -> lenN addr < alen ->
  exists r', keep (let* p := registrar_add alen r id addr mem in Ok (fst p)) r = Ok r' /\
    reg_is (next_alone alone t (RAdd id addr mem)) r' (spec_rop t (RAdd id addr mem)).
Proof.
  intros Hr Hi Ha. unfold registrar_add, spec_rop, has_id.
  destruct (registrar_find_ok alone r t id Hr) as [[E1 E2]|(ps1 & p & ps2 & t1 & a & t2 & E1 & E2 & E3 & E4 & E5 & E6 & E7 & E8 & E9 & E10)].
  - rewrite E1, E2. cbn [bind]. rewrite orb_false_r. destruct mem; cbn [negb]; [|exists r; split; [reflexivity|]].
    2:{ unfold next_alone. destruct t; [|exact Hr]. destruct Hr as (ps & K1 & K2 & K3 & K4 & K5 & K6).
        destruct ps; [|contradiction]. exists []. cbn in *. repeat split; auto. discriminate. }
    rewrite (cut_all ID_LEN id) by exact Hi. rewrite (cut_all alen addr) by exact Ha. rewrite find_set by exact E1.
    destruct Hr as (ps & K1 & K2 & K3 & K4 & K5 & K6).
    assert (Hids : NoDup (map fst (t ++ [(id, addr)]))).
    { rewrite map_app. cbn [map fst]. apply (Permutation_NoDup (Permutation_cons_append (map fst t) id)).
      constructor; [apply find_none_in; exact E1|exact K3]. }
    destruct ps as [|l ps _] using rev_ind.
    + destruct t; [|contradiction]. cbn in K4, K5. rewrite K4, K5. cbn [bind keep fst]. eexists. split; [reflexivity|].
      exists [length (rg_heap r)]. cbn [rg_first rg_last rg_heap]. split; [constructor; [intros []|constructor]|]. split; [|split; [exact Hids|split; [reflexivity|split; [reflexivity|]]]].
      * cbn. split; [|exact I]. eexists. split; [rewrite nth_error_app2, Nat.sub_diag by lia; reflexivity|]. cbn. auto.
      * intros _ p e Hp He. injection Hp as <-. rewrite nth_error_app2, Nat.sub_diag in He by lia. injection He as <-. reflexivity.
    + assert (Hne : exists q, rg_first r = Some q) by (rewrite K4; destruct ps; cbn; eauto). destruct Hne as (q & Eq).
      assert (El : rg_last r = Some l) by (rewrite K5; unfold lastp; rewrite rev_app_distr; reflexivity).
      rewrite El, Eq.
      assert (Hll : (l < length (rg_heap r))%nat).
      { pose proof (chain_bound _ _ _ K2) as Hb. apply Forall_app in Hb. destruct Hb as [_ Hb]. inversion Hb; assumption. }
      destruct (nth_split_here (rg_heap r) l Hll) as (el & Ee & _).
      assert (Hlive : re_live el = true).
      { destruct t as [|[i b] t _] using rev_ind; [apply chain_len in K2; rewrite app_length in K2; cbn in K2; lia|].
        pose proof (chain_len _ _ _ K2) as Hlen. rewrite !app_length in Hlen. cbn in Hlen.
        apply chain_split in K2; [|lia]. destruct K2 as ((e & F1 & F2 & _) & _). congruence. }
      unfold entry. rewrite Ee, Hlive. cbn [bind keep fst re_id re_addr]. eexists. split; [reflexivity|].
      exists ((ps ++ [l]) ++ [length (rg_heap r)]). cbn [rg_first rg_last rg_heap].
      split; [|split; [|split; [exact Hids|split; [|split]]]].
      * apply (Permutation_NoDup (Permutation_cons_append (ps ++ [l]) (length (rg_heap r)))). constructor; [|exact K1].
        intro Hin. pose proof (chain_bound _ _ _ K2) as Hb. rewrite Forall_forall in Hb. specialize (Hb _ Hin). lia.
      * pose proof (chain_snoc (rg_heap r) ps t l el (length (rg_heap r)) id addr K1 K2 Ee eq_refl) as Hc. exact Hc.
      * rewrite hd_snoc, <- K4. congruence.
      * unfold lastp. rewrite rev_app_distr. reflexivity.
      * unfold next_alone. destruct t as [|x t]; [apply chain_len in K2; rewrite app_length in K2; cbn in K2; lia|].
        intros Hal p e Hp He. rewrite hd_snoc in Hp. specialize (K6 Hal p).
        assert (Hpb : (p < length (rg_heap r))%nat).
        { pose proof (chain_bound _ _ _ K2) as Hb. rewrite Forall_forall in Hb. apply Hb. destruct ps; injection Hp as <-; left; reflexivity. }
        rewrite nth_error_app1 in He by (rewrite set_entry_len; lia).
        destruct (Nat.eq_dec l p) as [->|Hlp].
        -- rewrite set_entry_same in He by lia. injection He as <-. cbn. apply K6; assumption.
        -- rewrite set_entry_other in He by lia. apply K6; assumption.
  - rewrite E3, E4. cbn [bind]. rewrite orb_true_r.
    assert (E6' := E6). rewrite E1 in E6'. apply chain_split in E6'; [|exact E2]. destruct E6' as ((e & F1 & F2 & F3 & F4 & F5) & _).
    unfold entry. rewrite F1, F2. cbn [bind keep fst]. eexists. split; [reflexivity|].
    rewrite (cut_all alen addr) by exact Ha.
    assert (Hnin : ~ In id (map fst t1)).
    { rewrite E1, map_app in E7. cbn [map fst] in E7. apply NoDup_remove_2 in E7. intro. apply E7. apply in_or_app. left. assumption. }
    exists (ps1 ++ p :: ps2). cbn [rg_first rg_last rg_heap]. rewrite E1 at 1 2. rewrite set_mid by exact Hnin.
    split; [exact E5|]. split; [|split; [|split; [exact E8|split; [exact E9|]]]].
    + pose proof (chain_set_addr (rg_heap r) p e addr F1 ps1 ps2 t1 id a t2 E2 E5) as Hc. apply Hc. rewrite <- E1. exact E6.
    + rewrite E1, map_app in E7. rewrite map_app. exact E7.
    + unfold next_alone. destruct t as [|x t]; [destruct t1; discriminate|]. intros Hal q e' Hq He'. specialize (E10 Hal q).
      destruct (Nat.eq_dec p q) as [->|Hpq].
      * rewrite set_entry_same in He' by (apply nth_error_Some; congruence). injection He' as <-. cbn. apply E10; assumption.
      * rewrite set_entry_other in He' by (assumption || (apply nth_error_Some; congruence)). apply E10; assumption.
Qed.

Lemma filter_all id t : ~ In id (map fst t) -> filter (fun p : list N * list N => negb (key_eqb (fst p) id)) t = t.
Proof.
  induction t as [|[i b] t IH]; cbn; intro H; [reflexivity|].
  destruct (key_eqb i id) eqn:E; [apply key_eqb_iff in E; exfalso; apply H; left; exact E|]. cbn. f_equal. apply IH. tauto.
Qed.

Lemma del_ok alone r t id : reg_is alone r t ->
  has_id id t = false \/ (exists a x t', t = (id, a) :: x :: t') \/ (alone = true /\ exists a, t = [(id, a)]) ->
  exists r', keep (registrar_del r id) r = Ok r' /\ reg_is (next_alone alone t (RDel id)) r' (spec_rop t (RDel id)).
Proof.
  intros Hr Hd. unfold registrar_del. cbn [spec_rop].
  destruct (registrar_find_ok alone r t id Hr) as [[E1 E2]|(ps1 & p & ps2 & t1 & a & t2 & E1 & E2 & E3 & E4 & E5 & E6 & E7 & E8 & E9 & E10)].
  - rewrite E2. cbn [bind keep]. exists r. split; [reflexivity|]. rewrite filter_all by (apply find_none_in; exact E1).
    unfold next_alone, has_id. rewrite E1. destruct t; [|exact Hr]. destruct Hr as (ps & K1 & K2 & K3 & K4 & K5 & K6).
    destruct ps; [|contradiction]. exists []. cbn in *. repeat split; auto. discriminate.
  - assert (Hh : has_id id t = true) by (unfold has_id; rewrite E3; reflexivity).
    assert (Ht : exists a0 tl, t = (id, a0) :: tl).
    { destruct Hd as [Hd|[(a0 & x & t' & ->)|(_ & a0 & ->)]]; [congruence|eauto|eauto]. }
    destruct Ht as (a0 & tl & Et).
    assert (t1 = []) as ->.
    { destruct t1 as [|[i b] t1]; [reflexivity|]. exfalso. rewrite Et in E1, E7. injection E1 as -> _ E1. rewrite E1 in E7.
      cbn [map fst] in E7. inversion_clear E7. apply H. rewrite map_app. apply in_or_app. right. left. reflexivity. }
    destruct ps1; [|discriminate]. cbn [List.app] in *. clear Et a0 tl.
    assert (Hfil : filter (fun p0 : list N * list N => negb (key_eqb (fst p0) id)) t = t2).
    { rewrite E1 in *. cbn [filter fst]. rewrite key_eqb_refl. cbn [negb]. cbn [map fst] in E7. inversion_clear E7. apply filter_all. assumption. }
    rewrite Hfil. rewrite E1 in E6. destruct E6 as ((e & F1 & F2 & F3 & F4 & F5) & Hc).
    assert (Hp : (p < length (rg_heap r))%nat) by (apply nth_error_Some; congruence).
    rewrite E4. cbn [bind]. unfold entry. rewrite F1, F2. cbn [bind keep]. eexists. split; [reflexivity|].
    rewrite E8. cbn [hd_error]. rewrite Nat.eqb_refl. inversion_clear E5.
    exists ps2. cbn [rg_first rg_last rg_heap]. split; [assumption|]. split; [|split; [|split; [exact F5|split]]].
    + apply chain_same with (rg_heap r); [|exact Hc]. intros q Hq. apply set_entry_other; [exact Hp|]. intros ->. contradiction.
    + rewrite E1 in E7. cbn [map fst] in E7. inversion_clear E7. assumption.
    + rewrite E9. unfold lastp. cbn [rev]. destruct ps2 as [|l ps2 _] using rev_ind.
      * cbn. rewrite Nat.eqb_refl. destruct t2; [|contradiction].
        destruct Hd as [Hd|[(a0 & x & t' & ->)|(Hal & _)]]; [congruence|discriminate|]. apply (E10 Hal p e); [reflexivity|exact F1].
      * rewrite rev_app_distr. cbn [rev List.app hd_error]. destruct (Nat.eqb_spec l p) as [->|]; [|reflexivity].
        exfalso. apply H. apply in_or_app. right. left. reflexivity.
    + unfold next_alone. rewrite E1 in *. rewrite Hh. discriminate.
Qed.

Lemma registrar_table alen l id : Forall (rop_ok alen) l -> oldest_only true [] l ->
  exists r, registrar_run alen registrar_create l = Ok r /\
    registrar_lookup r id = Ok (find_id id (fold_left spec_rop l [])).
Proof.
  intros Hl Ho.
  assert (G : forall l alone r t, reg_is alone r t -> Forall (rop_ok alen) l -> oldest_only alone t l ->
    exists r' alone', registrar_run alen r l = Ok r' /\ reg_is alone' r' (fold_left spec_rop l t)).
  { clear l Hl Ho. intro l. induction l as [|o l IH]; intros alone r t Hr Hl Ho; [exists r, alone; auto|].
    inversion_clear Hl. destruct Ho as [Ho1 Ho2].
    change (match t with [] => true | _ :: _ => match o with RAdd _ _ _ => alone | RDel id => if has_id id t then false else alone end end)
      with (next_alone alone t o) in Ho2.
    destruct o as [i a mem|i]; cbn [registrar_run fold_left].
    - destruct H as [H1 H2]. destruct (add_ok alen alone r t i a mem Hr H1 H2) as (r1 & E & Hr1). rewrite E. cbn [bind]. eapply IH; eauto.
    - destruct (del_ok alone r t i Hr Ho1) as (r1 & E & Hr1). rewrite E. cbn [bind]. eapply IH; eauto. }
  destruct (G l true registrar_create []) as (r & alone & E & Hr); [|assumption|assumption|].
  { exists []. cbn. repeat split; auto; try constructor. intros _ p e H. discriminate. }
  exists r. split; [exact E|]. unfold registrar_lookup.
  destruct (registrar_find_ok alone r _ id Hr) as [[E1 E2]|(ps1 & p & ps2 & t1 & a & t2 & E1 & E2 & E3 & E4 & E5 & E6 & _)].
  - rewrite E1, E2. reflexivity.
  - rewrite E4, E3. cbn [bind]. rewrite E1 in E6. apply chain_split in E6; [|exact E2]. destruct E6 as ((e & F1 & F2 & F3 & F4 & F5) & _).
    unfold entry. rewrite F1, F2. cbn [bind]. rewrite F4. reflexivity.
Qed.
