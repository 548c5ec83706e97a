From Coq Require Import Permutation.
From Verif Require Import BaseLemmas MemModel MemSpec MemLemmas MsgModel MsgLemmas MsgMemModel MsgMemSpec.

(** ** Bitmaps are bytes, so a pool is determined by its live buffers *)

Lemma lt256_bits a : a < 256 <-> forall m, 8 <= m -> N.testbit a m = false.
Proof.
  split.
  - intros H m Hm. destruct (N.eq_dec a 0) as [->|Hz]; [apply N.bits_0|].
    apply N.bits_above_log2. apply N.lt_le_trans with 8; [|exact Hm].
    apply N.log2_lt_pow2; [lia|exact H].
  - intro H. destruct (N.lt_ge_cases a 256) as [C|C]; [exact C|exfalso].
    assert (8 <= N.log2 a) as L by (change 8 with (N.log2 256); apply N.log2_le_mono; exact C).
    specialize (H (N.log2 a) L). rewrite N.bit_log2 in H by lia. discriminate.
Qed.

Lemma byte_ext a b : a < 256 -> b < 256 -> (forall m, m < 8 -> N.testbit a m = N.testbit b m) -> a = b.
Proof.
  intros Ha Hb H. apply N.bits_inj. intro m. destruct (N.lt_ge_cases m 8) as [C|C]; [auto|].
  rewrite (proj1 (lt256_bits a) Ha m C), (proj1 (lt256_bits b) Hb m C). reflexivity.
Qed.

Lemma bitmap_ext a b : bytes_ok a -> bytes_ok b -> lenN a = lenN b ->
  (forall j, j < 8 * lenN a -> bit a j = bit b j) -> a = b.
Proof.
  revert b. induction a as [|x a IH]; intros [|y b] Ha Hb Hl H; try reflexivity;
    rewrite ?lenN_cons, ?(@lenN_nil N) in *; try lia.
  apply bytes_ok_cons in Ha as [Hx Ha]. apply bytes_ok_cons in Hb as [Hy Hb]. f_equal.
  - apply byte_ext; auto. intros m Hm. specialize (H m). rewrite !bit_cons_0 in H by exact Hm. apply H. lia.
  - apply IH; auto; [lia|]. intros j Hj. specialize (H (8 + j)). rewrite !bit_cons_S in H. apply H. lia.
Qed.

Definition pool_bytes (p : pool) : Prop := bytes_ok (p_active p).

Lemma scan_bytes_ok a i a' k : bytes_ok a -> scan_bytes a i = Some (a', k) -> bytes_ok a'.
Proof.
  revert i a' k. induction a as [|x a IH]; intros i a' k Ha; cbn [scan_bytes]; [discriminate|].
  apply bytes_ok_cons in Ha as [Hx Ha].
  destruct (scan_bits x all_bits) as [b|] eqn:E.
  - intros [= <- <-]. apply scan_bits_some in E as [E _]. apply in_all_bits in E.
    apply bytes_ok_cons. split; [|exact Ha]. apply lt256_bits. intros m Hm.
    rewrite lor_pow2_bit. rewrite (proj1 (lt256_bits x) Hx m Hm).
    destruct (N.eqb_spec m b); [lia|reflexivity].
  - destruct (scan_bytes a (i + 1)) as [[a1 k1]|] eqn:F; [|discriminate]. intros [= <- <-].
    apply bytes_ok_cons. split; [exact Hx|]. exact (IH _ _ _ Ha F).
Qed.

Lemma land_le a b : a < 256 -> N.land a b < 256.
Proof.
  intro H. apply lt256_bits. intros m Hm. rewrite N.land_spec, (proj1 (lt256_bits a) H m Hm). reflexivity.
Qed.

Lemma free_bytes_ok base len ptr a i : bytes_ok a -> bytes_ok (free_bytes base len ptr a i).
Proof.
  revert i. induction a as [|x a IH]; intros i Ha; cbn [free_bytes]; [constructor|].
  apply bytes_ok_cons in Ha as [Hx Ha]. apply bytes_ok_cons. split; [|apply IH; exact Ha].
  generalize all_bits. intro bits. revert x Hx. induction bits as [|b bits IHb]; intros x Hx; cbn [fold_left]; [exact Hx|].
  apply IHb. unfold free_bit. destruct (_ =? _); [apply land_le|]; exact Hx.
Qed.

Lemma pool_bytes_alloc p n p' r : pool_bytes p -> mem_alloc p n = (p', r) -> pool_bytes p'.
Proof.
  unfold pool_bytes, mem_alloc. intro H. destruct (_ <? _); [intros [= <- <-]; exact H|].
  destruct (scan_bytes (p_active p) 0) as [[a k]|] eqn:E; intros [= <- <-]; [|exact H].
  cbn. exact (scan_bytes_ok _ _ _ _ H E).
Qed.
Lemma pool_bytes_free p q : pool_bytes p -> pool_bytes (mem_free p q).
Proof. unfold pool_bytes, mem_free. cbn. apply free_bytes_ok. Qed.
Lemma pool_bytes_create num len a m p : mem_create num len a m = Ok p -> pool_bytes p.
Proof.
  unfold mem_create. destruct (_ || _); [discriminate|]. destruct a; [|discriminate].
  destruct m; [|discriminate]. intros [= <-]. unfold pool_bytes. cbn.
  apply Forall_forall. intros x Hx. apply repeat_spec in Hx. subst. unfold byte_ok. lia.
Qed.
Lemma pool_bytes_hist ops p live p' live' :
  pool_bytes p -> mem_history p live ops = (p', live') -> pool_bytes p'.
Proof.
  revert p live. induction ops as [|[n|q] ops IH]; intros p live H; cbn [mem_history].
  - intros [= <- <-]. exact H.
  - destruct (mem_alloc p n) as [p1 r] eqn:E. apply IH. exact (pool_bytes_alloc _ _ _ _ H E).
  - apply IH. apply pool_bytes_free. exact H.
Qed.

Definition holds (p0 p : pool) (live : list N) : Prop := hist_inv p0 p live /\ pool_bytes p.

Lemma holds_alloc p0 p live n p' r :
  holds p0 p live -> mem_alloc p n = (p', r) ->
  holds p0 p' (match r with Some q => q :: live | None => live end).
Proof.
  intros [H B] E. split; [exact (hist_inv_alloc _ _ _ _ _ _ H E)|exact (pool_bytes_alloc _ _ _ _ B E)].
Qed.

Lemma holds_perm p0 p l1 l2 : holds p0 p l1 -> Permutation l1 l2 -> holds p0 p l2.
Proof.
  intros [(Hok & Hb & Hn & Hl & Hs & Hnd & Hlive) B] HP. split; [|exact B].
  repeat split; auto; try (destruct Hok; assumption).
  - exact (Permutation_NoDup HP Hnd).
  - intro H. apply Hlive. apply (Permutation_in _ (Permutation_sym HP)). exact H.
  - intro H. apply (Permutation_in _ HP). apply Hlive. exact H.
Qed.

Lemma holds_free p0 p q live : holds p0 p (q :: live) -> holds p0 (mem_free p q) live.
Proof.
  intros [H B]. split; [|apply pool_bytes_free; exact B].
  pose proof (hist_inv_free _ _ _ q H) as F. cbn [remove] in F.
  destruct (N.eq_dec q q); [|congruence].
  destruct H as (_ & _ & _ & _ & _ & Hnd & _). inversion Hnd; subst.
  rewrite notin_remove in F by assumption. exact F.
Qed.

Lemma holds_ext p0 p p' l : holds p0 p l -> holds p0 p' l -> p = p'.
Proof.
  intros [(Hok & Hb & Hn & Hl & Hs & Hnd & Hlive) B] [(Hok' & Hb' & Hn' & Hl' & Hs' & Hnd' & Hlive') B'].
  destruct p as [b1 s1 n1 l1 a1], p' as [b2 s2 n2 l2 a2]. unfold pool_ok, pool_bytes in *. cbn in *. subst.
  f_equal. apply bitmap_ext; auto; [lia|]. intros j Hj.
  assert (Hlp : 0 < p_len p0) by lia.
  assert (Hx : forall a c, (forall q, In q l <-> exists k, k < p_num p0 /\ q = addr_of p0 k /\ bit a k = true) ->
                 (forall q, In q l <-> exists k, k < p_num p0 /\ q = addr_of p0 k /\ bit c k = true) ->
                 bit a j = true -> bit c j = true).
  { intros a c Ha Hc Hbit. assert (Hin : In (addr_of p0 j) l) by (apply Ha; exists j; repeat split; auto; lia).
    apply Hc in Hin as (k & _ & Ek & Hk). apply addr_of_inj in Ek; [|exact Hlp]. subst. exact Hk. }
  destruct (bit a1 j) eqn:E1, (bit a2 j) eqn:E2; auto.
  - rewrite (Hx a1 a2 Hlive Hlive' E1) in E2. discriminate.
  - rewrite (Hx a2 a1 Hlive' Hlive E2) in E1. discriminate.
Qed.

Lemma holds_in p0 p l q : holds p0 p l -> In q l -> exists k, k < p_num p0 /\ q = addr_of p0 k.
Proof. intros [(_ & _ & _ & _ & _ & _ & H) _] Hq. apply H in Hq as (k & ? & ? & _). eauto. Qed.

Lemma holds_free_foreign p0 p l q :
  holds p0 p l -> (forall k, k < p_num p0 -> q <> addr_of p0 k) -> mem_free p q = p.
Proof.
  intros [(Hok & Hb & Hn & Hl & _) _] H. apply mem_free_foreign; [exact Hok|].
  intros k Hk. rewrite (addr_of_same p p0 k) by assumption. apply H. lia.
Qed.

(** ** Ownership invariant *)

Section Own.
Variables (S0 M0 : pool) (liveS liveM : list N).
(** The two pools are different objects. *)
Hypothesis apart : forall j k, j < p_num S0 -> k < p_num M0 -> addr_of S0 j <> addr_of M0 k.

Definition pl_list (o : option N) : list N := match o with Some q => [q] | None => [] end.

Definition owned (leak : list N) (P : pools) (own : list (N * N)) (pl : option N) : Prop :=
  holds S0 (ps P) (leak ++ map fst own ++ liveS) /\
  holds M0 (pm P) (map snd own ++ pl_list pl ++ liveM).

Lemma op_new_owned leak P own pl n P' r :
  owned leak P own pl -> op_new P n = (P', r) ->
  match r with
  | Some o => owned leak P' (own ++ [o]) pl
  | None => owned leak P' own pl \/ exists q, owned (q :: leak) P' own pl
  end.
Proof.
  intros [HS HM]. unfold op_new. destruct (mem_alloc (ps P) SIZEOF_OP) as [s' [q|]] eqn:E.
  - pose proof (holds_alloc _ _ _ _ _ _ HS E) as HS'.
    destruct (mem_alloc (pm P) n) as [m' [v|]] eqn:F; intros [= <- <-];
      pose proof (holds_alloc _ _ _ _ _ _ HM F) as HM'.
    + split; cbn [ps pm].
      * apply (holds_perm _ _ _ _ HS'). rewrite map_app. cbn [map fst].
        rewrite <- app_assoc. cbn [app].
        rewrite !app_assoc. apply Permutation_middle.
      * apply (holds_perm _ _ _ _ HM'). rewrite map_app. cbn [map snd].
        rewrite <- app_assoc. cbn [app]. apply Permutation_middle.
    + right. exists q. split; cbn [ps pm app]; [exact HS'|].
      rewrite (holds_free_foreign _ _ _ q HM'); [exact HM'|].
      destruct (holds_in _ _ _ q HS') as (j & Hj & ->); [left; reflexivity|].
      intros k Hk. apply apart; assumption.
  - intros [= <- <-]. left. split; cbn [ps pm]; [|exact HM].
    exact (holds_alloc _ _ _ _ _ _ HS E).
Qed.

Lemma destroy_own_owned leak own pl P :
  owned leak P own pl -> owned leak (fold_left op_delete own P) [] pl.
Proof.
  revert P. induction own as [|[q v] own IH]; intros P [HS HM]; cbn [fold_left]; [split; assumption|].
  apply IH. cbn [map fst snd app] in *. split; unfold op_delete; cbn [ps pm fst snd].
  - apply holds_free. apply (holds_perm _ _ _ _ HS). symmetry. apply Permutation_middle.
  - apply holds_free. exact HM.
Qed.

Lemma destroy_owned leak P m :
  owned leak P (mm_own m) (mm_pl m) -> owned leak (fst (mm_destroy P m)) [] None.
Proof.
  intro H. apply destroy_own_owned in H. unfold mm_destroy. cbn [fst].
  destruct (mm_pl m) as [q|]; [|exact H]. destruct H as [HS HM]. split; cbn [ps pm map app pl_list] in *; [exact HS|].
  apply holds_free. exact HM.
Qed.

Definition mowned (leak : list N) (P : pools) (m : mmsg) : Prop := owned leak P (mm_own m) (mm_pl m).

(** At most one structure is lost by a step, and only on ENOMEM. *)
Definition step_ok {A} (leak : list N) (P' : pools) (m' : mmsg) (r : res A) : Prop :=
  mowned leak P' m' \/ (r = Err ENOMEM /\ exists q, mowned (q :: leak) P' m').

Lemma parse_op_owned sg leak P m p len P' m' r :
  mowned leak P m -> mparse_op sg P m p len = (P', m', r) ->
  (forall u, r <> UB u) -> r <> OutOfFuel -> step_ok leak P' m' r.
Proof.
  intros H. unfold mparse_op. destruct (parse_op_hdr sg p len) as [[[[d l] p1] len1]|e|u|].
  2,3,4: intros [= <- <- <-] _ _; left; exact H.
  destruct (op_new P l) as [P1 [o|]] eqn:E; pose proof (op_new_owned _ _ _ _ _ _ _ H E) as H1; cbn beta iota in H1.
  - destruct (bind (rdn p1 l) _) as [[val p2]|e|u|] eqn:F; intros [= <- <- <-] HU HO.
    + left. exact H1.
    + exfalso. revert F. unfold rdn, adv. destruct (_ <=? _); cbn [bind]; discriminate.
    + exfalso. apply (HU u). reflexivity.
    + exfalso. apply HO. reflexivity.
  - intros [= <- <- <-] _ _. destruct H1 as [H1|[q H1]]; [left; exact H1|right; eauto].
Qed.

Lemma parse_ops_owned sg fuel leak P m p len P' m' r :
  mowned leak P m -> mparse_ops sg fuel P m p len = (P', m', r) ->
  (forall u, r <> UB u) -> r <> OutOfFuel -> step_ok leak P' m' r.
Proof.
  revert P m p len. induction fuel as [|fuel IH]; intros P m p len H; cbn [mparse_ops].
  - intros [= <- <- <-] _ HO. congruence.
  - destruct (rd p 0) as [b|e|u|]; [|intros [= <- <- <-] _ _; left; exact H..].
    destruct (_ || _); [intros [= <- <- <-] _ _; left; exact H|].
    destruct (mparse_op sg P m p len) as [[P1 m1] [[p1 len1]|e|u|]] eqn:E.
    + destruct (parse_op_owned _ _ _ _ _ _ _ _ _ H E) as [H1|[C _]]; try discriminate.
      apply IH. exact H1.
    + intros [= <- <- <-] _ _.
      destruct (parse_op_owned _ _ _ _ _ _ _ _ _ H E) as [H1|[C H1]]; try discriminate; [left; exact H1|].
      right. injection C as ->. split; [reflexivity|exact H1].
    + intros [= <- <- <-] HU _. exfalso. apply (HU u). reflexivity.
    + intros [= <- <- <-] _ HO. congruence.
Qed.

Lemma payload_alloc_owned leak P own n m' r :
  owned leak P own None -> mem_alloc (pm P) n = (m', r) -> owned leak (mkpools (ps P) m') own r.
Proof.
  intros [HS HM] E. split; cbn [ps pm]; [exact HS|].
  pose proof (holds_alloc _ _ _ _ _ _ HM E) as H. destruct r as [q|]; [|exact H].
  apply (holds_perm _ _ _ _ H). cbn [pl_list app]. apply Permutation_middle.
Qed.

Lemma parse_payload_owned leak P m p len P' m' r :
  mowned leak P m -> mm_pl m = None -> mparse_payload P m p len = (P', m', r) -> mowned leak P' m'.
Proof.
  intros H Hpl. unfold mparse_payload. destruct (parse_payload p len) as [[|x pl]|e|u|];
    try (intros [= <- <- <-]; exact H).
  destruct (mem_alloc (pm P) _) as [m1 [q|]] eqn:E; intros [= <- <- <-];
    unfold mowned in *; rewrite Hpl in H; pose proof (payload_alloc_owned _ _ _ _ _ _ H E) as H1.
  - exact H1.
  - rewrite Hpl. exact H1.
Qed.

Lemma parse_op_pl sg P m p len P' m' r : mparse_op sg P m p len = (P', m', r) -> mm_pl m' = mm_pl m.
Proof.
  unfold mparse_op. destruct (parse_op_hdr sg p len) as [[[[d l] p1] len1]|e|u|]; try (intros [= <- <- <-]; reflexivity).
  destruct (op_new P l) as [P1 [o|]]; try (intros [= <- <- <-]; reflexivity).
  destruct (bind (rdn p1 l) _) as [[val p2]|e|u|]; intros [= <- <- <-]; reflexivity.
Qed.
Lemma parse_ops_pl sg fuel P m p len P' m' r : mparse_ops sg fuel P m p len = (P', m', r) -> mm_pl m' = mm_pl m.
Proof.
  revert P m p len. induction fuel as [|fuel IH]; intros P m p len; cbn [mparse_ops].
  - intros [= <- <- <-]; reflexivity.
  - destruct (rd p 0) as [b|e|u|]; try (intros [= <- <- <-]; reflexivity).
    destruct (_ || _); try (intros [= <- <- <-]; reflexivity).
    destruct (mparse_op sg P m p len) as [[P1 m1] [[p1 len1]|e|u|]] eqn:E;
      pose proof (parse_op_pl _ _ _ _ _ _ _ _ E) as Hp; try (intros [= <- <- <-]; exact Hp).
    intro H. rewrite (IH _ _ _ _ H). exact Hp.
Qed.

Lemma reset_owned leak P m : mowned leak P m -> mowned leak (fst (mm_reset P m)) mm_create.
Proof. intro H. unfold mm_reset. cbn [fst]. exact (destroy_owned _ _ _ H). Qed.

Lemma destroy_state P m : snd (mm_destroy P m) = mkmmsg msg_zero [] None.
Proof. reflexivity. Qed.

Lemma mm_parse_owned sg leak P m p len P' m' r :
  mowned leak P m -> mm_parse sg P m p len = (P', m', r) ->
  (forall u, r <> UB u) -> r <> OutOfFuel -> step_ok leak P' m' r.
Proof.
  intros H. unfold mm_parse.
  pose proof (reset_owned _ _ _ H) as HR. destruct (mm_reset P m) as [P0 m0] eqn:ER.
  assert (m0 = mm_create) as -> by (unfold mm_reset in ER; injection ER as _ <-; reflexivity).
  cbn [fst] in HR.
  assert (Hdes : forall leak P m, mowned leak P m -> mowned leak (fst (mm_destroy P m)) (snd (mm_destroy P m))).
  { intros lk Q mm Hm. exact (destroy_owned _ _ _ Hm). }
  match goal with |- context [match ?h with Ok _ => _ | _ => _ end] =>
    match type of h with res (msg * list N) => destruct h as [[mh p2]|e|u|] end end.
  - assert (HR' : mowned leak P0 (mkmmsg mh [] None)) by exact HR.
    destruct (mparse_ops sg _ P0 (mkmmsg mh [] None) p2 _) as [[P1 m1] r1] eqn:E.
    pose proof (parse_ops_pl _ _ _ _ _ _ _ _ _ E) as Hpl. cbn [mm_pl] in Hpl.
    pose proof (parse_ops_owned _ _ _ _ _ _ _ _ _ _ HR' E) as Hops.
    destruct r1 as [[p3 len3]|e|u|].
    + destruct (Hops ltac:(congruence) ltac:(congruence)) as [H1|[C _]]; [|discriminate].
      destruct (mparse_payload P1 m1 p3 len3) as [[P2 m2] r2] eqn:F.
      pose proof (parse_payload_owned _ _ _ _ _ _ _ _ H1 Hpl F) as H2.
      destruct r2 as [[]|e|u|]; cbn [mm_destroy].
      * intros [= <- <- <-] _ _. left. exact H2.
      * intros [= <- <- <-] _ _. left. exact (Hdes _ _ _ H2).
      * intros [= <- <- <-] _ _. left. exact (Hdes _ _ _ H2).
      * intros [= <- <- <-] _ _. left. exact (Hdes _ _ _ H2).
    + cbn [mm_destroy]. intros [= <- <- <-] _ _.
      destruct (Hops ltac:(congruence) ltac:(congruence)) as [H1|[C [q H1]]].
      * left. exact (Hdes _ _ _ H1).
      * injection C as ->. right. split; [reflexivity|]. exists q. exact (Hdes _ _ _ H1).
    + cbn [mm_destroy]. intros [= <- <- <-] HU _. exfalso. apply (HU u). reflexivity.
    + cbn [mm_destroy]. intros [= <- <- <-] _ HO. congruence.
  - cbn [mm_destroy]. intros [= <- <- <-] _ _. left. exact (Hdes _ _ _ HR).
  - cbn [mm_destroy]. intros [= <- <- <-] HU _. left. exact (Hdes _ _ _ HR).
  - cbn [mm_destroy]. intros [= <- <- <-] HU _. left. exact (Hdes _ _ _ HR).
Qed.

Lemma clear_owned leak P m : mowned leak P m ->
  mowned leak (fst (mm_clear_payload P m)) (snd (mm_clear_payload P m)).
Proof.
  intros [HS HM]. unfold mm_clear_payload, mowned. cbn [fst snd mm_own mm_pl].
  destruct (mm_pl m) as [q|]; [|split; assumption].
  split; cbn [ps pm pl_list app] in *; [exact HS|].
  apply holds_free. apply (holds_perm _ _ _ _ HM). symmetry. apply Permutation_middle.
Qed.

Lemma run_owned leak P m c P' m' r :
  mowned leak P m -> mm_run (P, m) c = (P', m', r) -> defined r -> step_ok leak P' m' r.
Proof.
  intros H E [HU HO]. destruct c as [sg p len|num val|pl| |]; cbn [mm_run] in E.
  - exact (mm_parse_owned _ _ _ _ _ _ _ _ _ H E HU HO).
  - unfold mm_add_op in E. destruct (op_new P (lenN val)) as [P1 [o|]] eqn:F; injection E as <- <- <-;
      pose proof (op_new_owned _ _ _ _ _ _ _ H F) as H1; cbn beta iota in H1.
    + left. exact H1.
    + destruct H1 as [H1|[q H1]]; [left; exact H1|right; eauto].
  - unfold mm_set_payload in E. pose proof (clear_owned _ _ _ H) as H0.
    destruct (mm_clear_payload P m) as [P1 m1] eqn:EC. cbn [fst snd] in H0.
    assert (Hpl : mm_pl m1 = None) by (unfold mm_clear_payload in EC; injection EC as _ <-; reflexivity).
    destruct (_ =? _); [injection E as <- <- <-; left; exact H0|].
    unfold mowned in H0. rewrite Hpl in H0.
    destruct (mem_alloc (pm P1) (lenN pl)) as [m2 [q|]] eqn:F; injection E as <- <- <-;
      pose proof (payload_alloc_owned _ _ _ _ _ _ H0 F) as H1; left; unfold mowned.
    + exact H1.
    + rewrite Hpl. exact H1.
  - pose proof (clear_owned _ _ _ H) as H0. injection E as <- <- <-. left. exact H0.
  - pose proof (reset_owned _ _ _ H) as H0. injection E as <- <- <-. left. exact H0.
Qed.

Lemma runs_owned leak st l st' rs :
  mowned leak (fst st) (snd st) -> mm_runs st l = (st', rs) -> Forall defined rs ->
  exists leak', mowned (leak' ++ leak) (fst st') (snd st') /\ (length leak' <= nomem rs)%nat.
Proof.
  revert leak st st' rs. induction l as [|c l IH]; intros leak st st' rs H; cbn [mm_runs].
  - intros [= <- <-] _. exists []. split; [exact H|cbn; auto with arith].
  - destruct (mm_run st c) as [st1 r] eqn:E. destruct (mm_runs st1 l) as [st2 rs'] eqn:F.
    intros [= <- <-] HD. inversion HD as [|? ? Hd HD']; subst. destruct st as [P m], st1 as [P1 m1].
    destruct (run_owned _ _ _ _ _ _ _ H E Hd) as [H1|[-> [q H1]]].
    + destruct (IH leak (P1, m1) _ _ H1 F HD') as (lk & Hl & Hn). exists lk. split; [exact Hl|].
      unfold nomem in *. cbn [filter]. destruct r as [[]|[]|u|]; cbn [length]; lia.
    + destruct (IH (q :: leak) (P1, m1) _ _ H1 F HD') as (lk & Hl & Hn). exists (lk ++ [q]).
      rewrite <- app_assoc. cbn [app]. split; [exact Hl|]. rewrite app_length. unfold nomem in *. cbn [filter length]. lia.
Qed.

End Own.

(** ** Erasure: the pools only decide whether a call fails with ENOMEM *)

Lemma op_new_dec P n : (exists P', op_new P n = (P', None)) \/ (exists P' o, op_new P n = (P', Some o)).
Proof. destruct (op_new P n) as [P' [o|]]; eauto. Qed.

Definition erase_rel (m' : mmsg) (r : res (list N * N)) (pure : res (list op * list N * N)) (base : msg) : Prop :=
  r = Err ENOMEM \/
  match pure with
  | Ok (l, p, n) => r = Ok (p, n) /\ mm_msg m' = with_ops base l
  | Err e => r = Err e
  | UB u => r = UB u
  | OutOfFuel => r = OutOfFuel
  end.

Lemma mparse_op_erase sg P m p len P' m' r :
  mparse_op sg P m p len = (P', m', r) ->
  erase_rel m' r (parse_op sg (m_ops (mm_msg m)) p len) (mm_msg m).
Proof.
  unfold mparse_op, parse_op, erase_rel. destruct (parse_op_hdr sg p len) as [[[[d l] p1] len1]|e|u|]; cbn [bind].
  2,3,4: intros [= <- <- <-]; auto.
  destruct (op_new P l) as [P1 [o|]]; [|intros [= <- <- <-]; auto].
  destruct (rdn p1 l) as [val|e|u|]; cbn [bind]; [|intros [= <- <- <-]; auto..].
  destruct (adv p1 l) as [p2|e|u|]; cbn [bind]; intros [= <- <- <-]; auto.
Qed.

Lemma with_ops_twice m l1 l2 : with_ops (with_ops m l1) l2 = with_ops m l2.
Proof. reflexivity. Qed.
Lemma with_ops_same m : with_ops m (m_ops m) = m.
Proof. destruct m; reflexivity. Qed.

Lemma mparse_ops_erase sg fuel P m p len P' m' r :
  mparse_ops sg fuel P m p len = (P', m', r) ->
  erase_rel m' r (parse_ops sg fuel (m_ops (mm_msg m)) p len) (mm_msg m).
Proof.
  revert P m p len. induction fuel as [|fuel IH]; intros P m p len; cbn [mparse_ops parse_ops].
  - intros [= <- <- <-]. right. reflexivity.
  - destruct (rd p 0) as [b|e|u|]; cbn [bind]; [|intros [= <- <- <-]; right; reflexivity..].
    destruct (_ || _).
    + intros [= <- <- <-]. right. split; [reflexivity|]. symmetry. apply with_ops_same.
    + destruct (mparse_op sg P m p len) as [[P1 m1] r1] eqn:E.
      pose proof (mparse_op_erase _ _ _ _ _ _ _ _ E) as [->|H1].
      { intros [= <- <- <-]. left. reflexivity. }
      destruct (parse_op sg (m_ops (mm_msg m)) p len) as [[[l1 p1] len1]|e|u|]; cbn [bind].
      * destruct H1 as [-> Hm1]. intro F. specialize (IH _ _ _ _ F). rewrite Hm1 in IH.
        exact IH.
      * subst r1. intros [= <- <- <-]. right. reflexivity.
      * subst r1. intros [= <- <- <-]. right. reflexivity.
      * subst r1. intros [= <- <- <-]. right. reflexivity.
Qed.

Lemma with_payload_ops m l pl : with_payload (with_ops m l) pl = with_ops (with_payload m pl) l.
Proof. reflexivity. Qed.

Lemma rdn_len p n l : rdn p n = Ok l -> lenN l = n.
Proof.
  unfold rdn. destruct (N.leb_spec n (lenN p)); [|discriminate]. intros [= <-]. rewrite lenN_firstn. lia.
Qed.

Lemma mm_parse_erase sg P m p len P' m' r :
  mm_parse sg P m p len = (P', m', r) ->
  r = Err ENOMEM \/
  match msg_parse sg p len with
  | Ok m0 => r = Ok tt /\ mm_msg m' = m0
  | Err e => r = Err e
  | UB u => r = UB u
  | OutOfFuel => r = OutOfFuel
  end.
Proof.
  unfold mm_parse, msg_parse, msg_parse_raw, mm_reset.
  destruct (parse_hdr p len) as [h|e|u|]; cbn [bind mm_destroy]; [|intros [= <- <- <-]; auto..].
  destruct (adv p 4) as [p1|e|u|]; cbn [bind mm_destroy]; [|intros [= <- <- <-]; auto..].
  destruct (parse_token (h_tkl h) p1 (len - 4)) as [tok|e|u|] eqn:Etok; cbn [bind mm_destroy]; [|intros [= <- <- <-]; auto..].
  destruct (adv p1 (h_tkl h)) as [p2|e|u|]; cbn [bind mm_destroy]; [|intros [= <- <- <-]; auto..].
  cbn [m_token].
  assert (Htok : lenN tok = h_tkl h).
  { revert Etok. unfold parse_token. destruct (_ <? _); [discriminate|]. apply rdn_len. }
  rewrite Htok.
  destruct (mparse_ops sg _ _ _ p2 _) as [[P1 m1] r1] eqn:E.
  pose proof (mparse_ops_erase _ _ _ _ _ _ _ _ _ E) as [->|H1]; cbn [mm_msg m_ops] in *.
  { cbn [mm_destroy]. intros [= <- <- <-]. auto. }
  destruct (parse_ops sg _ [] p2 _) as [[[l p3] len3]|e|u|]; cbn [bind].
  - destruct H1 as [-> Hm1]. unfold mparse_payload.
    destruct (parse_payload p3 len3) as [[|x pl]|e|u|]; cbn [bind mm_destroy].
    + intros [= <- <- <-]. right. rewrite Hm1. unfold with_ops; cbn [m_ver m_type m_class m_detail m_id m_token m_payload].
      destruct (check_ub (mkmsg COAP_VER (h_type h) (h_class h) (h_detail h) (h_id h) tok l [])) as [->| ->]; cbn [bind]; auto.
    + destruct (mem_alloc (pm P1) _) as [m2 [q|]]; intros [= <- <- <-]; [right|left; reflexivity].
      cbn [mm_msg]. rewrite Hm1. unfold with_payload, with_ops; cbn [m_ver m_type m_class m_detail m_id m_token m_payload m_ops].
      destruct (check_ub (mkmsg COAP_VER (h_type h) (h_class h) (h_detail h) (h_id h) tok l (x :: pl))) as [->| ->]; cbn [bind]; auto.
    + intros [= <- <- <-]. auto.
    + intros [= <- <- <-]. auto.
    + intros [= <- <- <-]. auto.
  - subst r1. cbn [mm_destroy]. intros [= <- <- <-]. auto.
  - subst r1. cbn [mm_destroy]. intros [= <- <- <-]. auto.
  - subst r1. cbn [mm_destroy]. intros [= <- <- <-]. auto.
Qed.

(** ** Property-level lemmas *)

Lemma reachable_holds p live : reachable_pool p live ->
  exists p0, holds p0 p live /\ p_buf p0 = p_buf p /\ p_num p0 = p_num p /\ p_len p0 = p_len p.
Proof.
  intros (num & len & addr & p0 & ops & Hc & Hh). exists p0.
  pose proof (hist_inv_run p0 p0 [] ops (hist_inv_init _ _ _ _ Hc)) as H. rewrite Hh in H.
  split; [split; [exact H|]|].
  - exact (pool_bytes_hist _ _ _ _ _ (pool_bytes_create _ _ _ _ _ Hc) Hh).
  - destruct H as (_ & -> & -> & -> & _). auto.
Qed.

Lemma destroy_restores P liveS liveM l st rs :
  reachable_pool (ps P) liveS -> reachable_pool (pm P) liveM -> pools_apart P ->
  mm_runs (P, mm_create) l = (st, rs) -> Forall defined rs ->
  let P' := fst (mm_destroy (fst st) (snd st)) in
  pm P' = pm P /\
  (~ In (Err ENOMEM) rs -> ps P' = ps P) /\
  exists lost, (length lost <= nomem rs)%nat /\
    forall k, k < p_num (ps P) ->
    bit (p_active (ps P')) k = bit (p_active (ps P)) k || existsb (N.eqb k) lost.
Proof.
  intros RS RM Hap Hrun Hdef. cbv zeta.
  destruct (reachable_holds _ _ RS) as (S0 & HS & bS & nS & lS).
  destruct (reachable_holds _ _ RM) as (M0 & HM & bM & nM & lM).
  assert (apart : forall j k, j < p_num S0 -> k < p_num M0 -> addr_of S0 j <> addr_of M0 k).
  { intros j k Hj Hk. unfold addr_of. rewrite bS, lS, bM, lM. apply Hap; lia. }
  assert (H0 : mowned S0 M0 liveS liveM [] (fst (P, mm_create)) (snd (P, mm_create))).
  { split; cbn; assumption. }
  destruct (runs_owned S0 M0 liveS liveM apart [] (P, mm_create) l st rs H0 Hrun Hdef) as (lk & Ho & Hn).
  rewrite app_nil_r in Ho. apply destroy_owned in Ho. destruct Ho as [HS' HM'].
  cbn [map app pl_list] in HS', HM'.
  set (P' := fst (mm_destroy (fst st) (snd st))) in *.
  split; [exact (holds_ext _ _ _ _ HM' HM)|]. split.
  - intro Hno. assert (nomem rs = 0%nat) as Hz.
    { unfold nomem. clear - Hno. induction rs as [|r rs IH]; [reflexivity|]. cbn [filter].
      destruct r as [a|[]|u|]; try (apply IH; intro; apply Hno; right; assumption).
      exfalso. apply Hno. left. reflexivity. }
    destruct lk; [|cbn in Hn; lia]. exact (holds_ext _ _ _ _ HS' HS).
  - assert (Hidx : forall l0, (forall q, In q l0 -> exists k, q = addr_of S0 k) ->
        exists ks, l0 = map (addr_of S0) ks).
    { induction l0 as [|q l0 IH]; intro Hq; [exists []; reflexivity|].
      destruct (IH (fun q' Hq' => Hq q' (or_intror Hq'))) as [ks ->].
      destruct (Hq q (or_introl eq_refl)) as [k ->]. exists (k :: ks). reflexivity. }
    destruct (Hidx lk) as [ks Hks].
    { intros q Hq. destruct (holds_in _ _ _ q HS') as (k & _ & ->); [apply in_or_app; auto|eauto]. }
    exists ks. split; [rewrite Hks, map_length in Hn; exact Hn|].
    intros k Hk. destruct HS as [(_ & _ & _ & Hl0 & _ & _ & Hlive) _].
    destruct HS' as [(Hok & _ & _ & Hl1 & _ & _ & Hlive') _].
    assert (Hlp : 0 < p_len S0) by (destruct Hok; lia).
    assert (Hb : forall p lv, (forall q, In q lv <-> exists k, k < p_num S0 /\ q = addr_of S0 k /\ bit (p_active p) k = true) ->
        (bit (p_active p) k = true <-> In (addr_of S0 k) lv)).
    { intros p lv Hp. rewrite Hp. split; [intro; exists k; repeat split; auto; lia|].
      intros (k' & _ & Ek & Hbk). apply addr_of_inj in Ek; [|exact Hlp]. subst. exact Hbk. }
    apply eq_true_iff_eq. rewrite orb_true_iff, (Hb _ _ Hlive'), (Hb _ _ Hlive), in_app_iff, existsb_exists.
    rewrite Hks, in_map_iff. split.
    + intros [(x & Ex & Hx)|Hin]; [right|left; exact Hin]. apply addr_of_inj in Ex; [|exact Hlp]. subst.
      exists k. split; [exact Hx|apply N.eqb_refl].
    + intros [Hin|(x & Hx & Ex)]; [right; exact Hin|left]. apply N.eqb_eq in Ex. subst. eauto.
Qed.
