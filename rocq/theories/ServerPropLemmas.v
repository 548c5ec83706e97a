(** The lemmas behind the theorems on the server, first part: eviction, requests,
    message IDs, errors. *)
From Verif Require Import BaseLemmas MsgModel MsgSpec MsgLemmas MsgFormatLemmas MsgBlockLemmas
  ClientModel ClientSpec ClientLemmas ClientReplyLemmas ClientPropLemmas ServerModel ServerSpec ServerLemmas
  ServerTraceLemmas.

Lemma server_options_spec C m : server_check_options C m = 0 <-> acceptable (sc_proxy C) m.
Proof. apply (check_options_spec (mkcfg (sc_sg C) (sc_proxy C)) m). Qed.

(** ** Clients without a transaction *)

Lemma lived_prefix h1 h2 : lived (h1 ++ h2) -> lived h1.
Proof. intros H x o y ->. eapply (H x o (y ++ h2)). rewrite <- app_assoc. reflexivity. Qed.

Lemma not_live h c : lived h -> ~ In c (live h) -> last_use c h = None /\ last_id c h = None.
Proof.
  induction h as [|o h IH] using rev_ind; intros Hl Hn; [auto|].
  pose proof (Hl h o [] eq_refl) as Ho. specialize (IH (lived_prefix _ _ Hl)).
  rewrite live_app in Hn. rewrite last_use_app, last_id_app. cbn [fold_left] in *.
  assert (Hd : forall c', client_of o = Some c' -> (forall x, o <> SCreate x) -> (forall x, o <> SDestroy x) -> c' <> c).
  { intros c' E1 E2 E3 ->. destruct o; try discriminate; cbn [live_obs] in Hn; try (exact (Hn (Ho c E1)));
      [eapply E2; reflexivity|eapply E3; reflexivity]. }
  destruct o; cbn [live_obs] in Hn; try (specialize (Hd _ eq_refl ltac:(discriminate) ltac:(discriminate))); 
    cbn [last_use_obs last_id_obs]; try (apply N.eqb_neq in Hd; rewrite Hd; cbn [andb]); auto.
  - cbn [In] in Hn. destruct (N.eqb_spec c0 c); [tauto|]. apply IH. tauto.
  - destruct (N.eqb_spec c0 c); [auto|]. apply IH. intro H. apply Hn. apply in_in_remove; auto.
Qed.

Section App.
Context {A : Type} (P : app A) (E : senv) (C : scfg).

Lemma reach_all v : reachable P E C v -> base v /\ LInv v /\ slots SInv v /\ Forall (stamped E 0 (v_n v)) (v_trace v).
Proof.
  intro H. split; [|split; [|split]].
  - apply (reach_inv P E C (fun _ => True) v) in H; auto. tauto.
  - apply (reach_inv P E C LInv v); auto; [intros; apply LInv_init|intros; eapply LInv_micro; eassumption].
  - apply (reach_inv P E C (slots SInv) v); auto; [intros; apply SInv_init|intros; eapply SInv_micro; eassumption].
  - destruct H as (id & a & evs & Hid & Hev & Hr). apply run_micros in Hr as [s Hm]; [|apply base_init; exact Hid|exact Hev].
    pose proof (micros_trace _ _ _ _ _ _ _ Hm) as Ht. apply micros_stamped in Hm as [_ Hm]. rewrite Ht. exact Hm.
Qed.

Lemma live_slot (v : @srv A) c : base v -> LInv v -> slots SInv v -> In c (live (v_trace v)) ->
  exists i, (i < 8)%nat /\ t_active (tr v i) = true /\ t_client (tr v i) = c /\ SInv (v_trace v) (tr v i).
Proof. intros Hb [_ Hh] HS Hc. apply Hh in Hc as (i & Hi & Ha & Hc). exists i. repeat split; auto; apply HS; auto. Qed.

(** ** Eviction *)

Lemma tidy_no_destroy c t' s c' : tidy c t' s -> c' <> c -> ~ In (SDestroy c') s.
Proof.
  intros (s0 & Hs0 & Hs) Hc Hin. rewrite Forall_forall in Hs0.
  destruct Hs as [(-> & _)|(-> & _)].
  - apply (Hs0 _ Hin).
  - apply in_app_or in Hin as [Hin|[Hin|[]]]; [apply (Hs0 _ Hin)|congruence].
Qed.

(** What happens after the transaction has been found. *)
Lemma rx_step_tail v c b fail v' s r : base v -> rx_step P E C v c b fail v' s r ->
  exists v1 s1 oi s2, got E v c v1 s1 oi /\ s = s1 ++ s2 /\ forall c', c' <> c -> ~ In (SDestroy c') s2.
Proof.
  intros Hb [v1 s1 Hg|v1 s1 i Hg _|v1 s1 i v2 Hg _ Hu|v1 s1 i t' s2 id' a' r' v2 Hg _ Hid Hx Hu].
  - exists v1, s1, None, []. rewrite app_nil_r. auto.
  - exists v1, s1, (Some i), []. rewrite app_nil_r. auto.
  - exists v1, s1, (Some i), [SDestroy c]. split; [exact Hg|]. split; [reflexivity|]. intros c' Hc [H|[]]. congruence.
  - destruct (got_slot _ _ _ _ _ _ Hb Hg) as (Hi & Ha & Hc & _).
    exists v1, s1, (Some i), s2. split; [exact Hg|]. split; [reflexivity|]. intros c' Hc'.
    eapply tidy_no_destroy; [eapply rx_run_tidy; eassumption|congruence].
Qed.

Lemma last_use_in c h u : last_use c h = Some u -> In (SUse c u) h.
Proof.
  induction h as [|o h IH] using rev_ind; [discriminate|]. rewrite last_use_app. cbn [fold_left].
  intro H. apply in_or_app.
  destruct o; cbn [last_use_obs] in H; try (left; auto; fail).
  - destruct (N.eqb_spec c0 c) as [->|]; [injection H as ->; right; left; reflexivity|left; auto].
  - destruct (N.eqb_spec c0 c); [discriminate|left; auto].
Qed.

Lemma live_count (v : @srv A) : base v -> LInv v -> (length (live (v_trace v)) = 8%nat <-> forall j, (j < 8)%nat -> t_active (tr v j) = true).
Proof.
  intros Hb [Hl Hh]. pose proof (lived_bounds _ Hl) as [Hn Hle].
  set (cl := map t_client (filter t_active (v_tr v))).
  assert (Hcl : forall c, In c cl <-> In c (live (v_trace v))).
  { intro c. rewrite Hh, has_slots by exact Hb. unfold cl. rewrite in_map_iff. split.
    - intros (t & <- & Ht). apply filter_In in Ht as [H1 H2]. eauto.
    - intros (t & Ht & Ha & Hc). exists t. split; [exact Hc|]. apply filter_In. auto. }
  assert (Hnd : forall l (Q : nat -> trans), (forall i j, (i < length l)%nat -> (j < length l)%nat ->
       t_active (nth i l trans_zero) = true -> t_active (nth j l trans_zero) = true ->
       t_client (nth i l trans_zero) = t_client (nth j l trans_zero) -> i = j) -> NoDup (map t_client (filter t_active l))).
  { intros l _. induction l as [|t l IH]; intros Hq; [constructor|]. cbn [filter].
    assert (IH' : NoDup (map t_client (filter t_active l))).
    { apply IH. intros i j Hi Hj Ai Aj Hc. specialize (Hq (S i) (S j)). cbn in Hq. assert (S i = S j) by (apply Hq; auto; lia). lia. }
    destruct (t_active t) eqn:Et; [|exact IH']. cbn [map]. constructor; [|exact IH'].
    intro Hin. apply in_map_iff in Hin as (u & Hu & Hin). apply filter_In in Hin as [Hin Hau].
    apply (In_nth _ _ trans_zero) in Hin as (i & Hi & Hn').
    specialize (Hq 0%nat (S i)). cbn in Hq. rewrite Hn' in Hq. assert (0 = S i)%nat by (apply Hq; auto; lia). lia. }
  specialize (Hnd (v_tr v) (fun _ => trans_zero)).
  assert (Hnd' : NoDup cl). { apply Hnd. rewrite (ba_len _ Hb). apply (ba_uniq _ Hb). }
  assert (Hlen : length (live (v_trace v)) = length cl).
  { apply Nat.le_antisymm; apply NoDup_incl_length; auto; intros c Hc; apply Hcl; exact Hc. }
  rewrite Hlen. unfold cl. rewrite map_length. split.
  - intros Hf j Hj. unfold tr. pose proof (ba_len _ Hb) as H8.
    assert (forall l, length (filter t_active l) = length l -> forall t, In t l -> t_active t = true) as Hall.
    { clear. induction l as [|t l IH]; [intros _ t []|]. cbn [filter length]. destruct (t_active t) eqn:Et; cbn [length].
      - intros H u [<-|Hu]; [exact Et|apply IH; [lia|exact Hu]].
      - intro H. assert (length (filter t_active l) <= length l)%nat.
        { clear. induction l as [|t l IH]; cbn; [lia|]. destruct (t_active t); cbn; lia. } lia. }
    apply (Hall (v_tr v)); [congruence|]. apply nth_In. lia.
  - intro Ha. rewrite <- (ba_len _ Hb). clear Hlen Hnd Hnd' Hcl cl.
    assert (H : forall t, In t (v_tr v) -> t_active t = true).
    { intros t Ht. apply (In_nth _ _ trans_zero) in Ht as (i & Hi & <-). apply Ha. rewrite (ba_len _ Hb) in Hi. exact Hi. }
    clear - H. induction (v_tr v) as [|t l IH]; [reflexivity|]. cbn [filter]. rewrite (H t) by (left; reflexivity). cbn [length].
    rewrite IH; [reflexivity|]. intros u Hu. apply H. right. exact Hu.
Qed.

Lemma evicts v c b fail v' r s :
  (forall n, se_time E n <> 0) ->
  step P E C v (EvRx c b fail) v' r s ->
  (length (live (v_trace v)) = 8%nat -> ~ In c (live (v_trace v)) ->
   exists c0 u0 s', s = SDestroy c0 :: s' /\ In c0 (live (v_trace v)) /\ last_use c0 (v_trace v) = Some u0 /\
     (forall c1, In c1 (live (v_trace v)) -> exists u1, last_use c1 (v_trace v) = Some u1 /\ u0 <= u1) /\
     (forall c', c' <> c -> ~ In (SDestroy c') s')) /\
  (length (live (v_trace v)) <> 8%nat \/ In c (live (v_trace v)) -> forall c', c' <> c -> ~ In (SDestroy c') s).
Proof.
  intros Htime Hst. pose proof Hst as (Hre & _). apply reach_all in Hre as (_ & HL & HS & Hsta).
  apply step_in_rx in Hst as [Hb Hst]. pose proof (live_count v Hb HL) as Hcnt. pose proof HL as [Hl Hh].
  apply rx_step_tail in Hst as (v1 & s1 & oi & s2 & Hg & -> & Htail); [|exact Hb].
  assert (Hnot : (forall j, (j < 8)%nat -> t_active (tr v j) = true -> t_client (tr v j) <> c) -> ~ In c (live (v_trace v))).
  { intros H Hc. apply Hh in Hc as (i & Hi & Ha & Hc). apply (H i); auto. }
  destruct Hg as [i Hi Ha Hc|i now v1 Hi Ha Hn Hu|i v1 Hi Ha Hn Hu|v0 v1 s' oi' i Hi Ha Hn Hu0 Hr].
  - split; [|intros _; exact Htail]. intros _ H. exfalso. apply H. apply Hh. exists i. auto.
  - split.
    + intros H _. rewrite (proj1 Hcnt H i Hi) in Ha. discriminate.
    + intros _ c' Hc' Hin. apply in_app_or in Hin as [Hin|Hin]; [|eapply Htail; eassumption].
      destruct Hin as [Hin|[Hin|[]]]; discriminate.
  - split.
    + intros H _. rewrite (proj1 Hcnt H i Hi) in Ha. discriminate.
    + intros _. exact Htail.
  - split.
    2: { intros [H|H]; [exfalso; apply H, Hcnt; exact Ha|]. exfalso. eapply Hnot; [|exact H]. intros j Hj _. apply Hn. exact Hj. }
    intros _ _. exists (t_client (tr v i)), (t_last_use (tr v i)), (s' ++ s2).
    split; [reflexivity|]. split; [apply Hh; exists i; auto|].
    split; [apply (si_use _ _ (HS i Hi (Ha i Hi)))|].
    assert (Hz : forall j, (j < 8)%nat -> t_last_use (tr v j) <> 0).
    { intros j Hj. pose proof (si_use _ _ (HS j Hj (Ha j Hj))) as Hju. apply last_use_in in Hju.
      rewrite Forall_forall in Hsta. apply Hsta in Hju as (k & _ & ->). apply Htime. }
    pose proof (find_oldest_min (v_tr v) 0 0 0 (v_tr v) eq_refl) as Hmin. rewrite (ba_len _ Hb) in Hmin.
    specialize (Hmin Ha Hz). destruct Hmin as [_ Hmin].
    { left. repeat split; auto. intro H0. pose proof (ba_len _ Hb) as H8. rewrite H0 in H8. discriminate. }
    split.
    + intros c1 Hc1. apply Hh in Hc1 as (j & Hj & Aj & <-). exists (t_last_use (tr v j)).
      split; [apply (si_use _ _ (HS j Hj Aj))|]. apply Hmin. exact Hj.
    + intros c' Hc' Hin. apply in_app_or in Hin as [Hin|Hin]; [|eapply Htail; eassumption].
      destruct Hr as [(_ & now & -> & _)|(_ & -> & _)]; [destruct Hin as [Hin|[Hin|[]]]; discriminate|destruct Hin].
Qed.


Lemma marked_app s1 s2 : marked C s1 -> marked C s2 -> marked C (s1 ++ s2).
Proof. intros H1 H2. induction H1; cbn [List.app]; try (econstructor; eassumption); assumption. Qed.

Ltac marks := repeat first [apply mk_nil | apply mk_create | apply mk_send | apply mk_other; [exact I|]].

Lemma blk_marked c l : Forall (blk_obs c) l -> marked C l.
Proof. induction 1 as [|o l [[b ->]|[b ->]] Hl IH]; [apply mk_nil| |]; apply mk_other; auto; exact I. Qed.
Lemma answered_marked t a m t' l a' r : answered P C t a m t' l a' r -> marked C l.
Proof.
  intro H. apply answered_fine in H as (_ & _ & [H|(l' & -> & H)]); [eapply blk_marked; exact H|].
  apply mk_other; [exact I|eapply blk_marked; exact H].
Qed.
Lemma msg_run_marked t id a m t' s id' a' r : msg_run P C t id a m t' s id' a' r -> marked C s.
Proof.
  intros [Hm Ht|now Hm Ht Hs|e Hm Ht Hs|b now Hm Ht Hs Hb|b Hm Ht Hs Hb|t1 s1 r1 Hm Ht Hs Hb [(-> & -> & ->)|(-> & -> & -> & He)]|Hm Ht|e Hm Ht|Hm|s1 Ht Hc Hm [->|[now ->]]|t1 s1 id1 a1 r1 Ht Hc Hm Hr];
    try (marks; fail).
  assert (Hack : forall t m t' s, acked C t m t' s -> marked C s) by (intros ? ? ? ? []; marks).
  destruct Hr as [e Hc' Hs|u1 x1 u2 x2 a2 e H1 H2|u1 x1 u2 x2 a2 r2 H1 H2 Hn1 Hn2|u1 x1 u2 x2 a2 resp x3 id2 i u3 x4 r3 H1 H2 H3 Hi2 Hi H4].
  - marks.
  - apply marked_app; [eapply Hack; exact H1|]. apply marked_app; [eapply answered_marked; exact H2|]. marks.
  - apply marked_app; [eapply Hack; exact H1|]. eapply answered_marked; exact H2.
  - apply marked_app; [eapply Hack; exact H1|]. apply marked_app; [eapply answered_marked; exact H2|].
    apply marked_app; [destruct H3; marks|]. destruct H4; marks.
Qed.

Lemma marked_micro ub v v' s : micro P E C ub v v' s -> marked C s.
Proof.
  intros [i v2 Hi Ha Hu|i c now v2 Hi Ha Hn Hu|i v2 Hi Ha Hu|i d t' s' id' a' r v2 Hi Ha Hd Hdl Hid' Hr Hfi Hu|i t' s' r v2 Hi Ha Hm Hr Hfi Hu];
    try (marks; fail).
  - destruct Hr as [r1 Hp Hn1 Hn2|e s1 Hp Hs|m now t1 s1 id1 a1 r1 Hp W Hr].
    + apply mk_unread; [|marks]. intros m [_ Hm]. congruence.
    + apply mk_unread; [intros m [_ Hm]; congruence|]. apply marked_app; [|marks].
      destruct Hs as [(_ & _ & _ & [->|[now ->]])|(_ & ->)]; marks.
    + apply (mk_recv _ _ _ m); [split; assumption|]. eapply msg_run_marked; exact Hr.
  - destruct Hr; marks.
Qed.

Lemma uses_marked id a evs v r :
  id <= 65535 -> Forall sev_ok evs -> server_run P E C (server_init id a) evs = (v, r) ->
  marked C (v_trace v) /\ forall c t, In (SUse c t) (v_trace v) -> exists n, t = se_time E n.
Proof.
  intros Hid Hev Hr. split.
  - assert (base v /\ marked C (v_trace v)) as [_ H]; [|exact H].
    apply (run_inv P E C (fun v => marked C (v_trace v))) in Hr; auto; [apply mk_nil|].
    intros ub v1 v2 s _ H1 Hm. rewrite (micro_trace _ _ _ _ _ _ _ Hm). apply marked_app; [exact H1|eapply marked_micro; exact Hm].
  - apply run_micros in Hr as [s Hm]; [|apply base_init; exact Hid|exact Hev].
    pose proof (micros_trace _ _ _ _ _ _ _ Hm) as Ht. apply micros_stamped in Hm as [_ Hm]. rewrite Ht.
    intros c t Hin. cbn [server_init v_trace List.app] in Hin. rewrite Forall_forall in Hm. apply Hm in Hin as (k & _ & ->). eauto.
Qed.

(** ** Requests *)

Definition opening (c : N) (s : list sobs) : Prop :=
  exists u, s = [SCreate c; SUse c u] \/ exists c0, c0 <> c /\ s = [SDestroy c0; SCreate c; SUse c u].

Definition outcome (r : res unit) : option (res unit) :=
  match r with UB u => Some (UB u) | OutOfFuel => Some OutOfFuel | _ => None end.

Lemma rx_cut_short d : lenN d <= 1152 -> rx_cut d = d.
Proof. intro H. unfold rx_cut, MAX_BUF_LEN. apply firstn_all2. unfold lenN in H. lia. Qed.

(** A message is received: the transaction it is received in, and what is done. *)
Lemma rx_received v c d m v' r s :
  step P E C v (EvRx c d None) v' r s -> reads C d m -> In (SRecv c d) s ->
  exists s0 t0 now s1 t' id' a' rr,
    s = s0 ++ SRecv c d :: SUse c now :: s1 /\
    (s0 = [] /\ In c (live (v_trace v)) /\ In t0 (v_tr v) /\ t_active t0 = true /\ t_client t0 = c /\ SInv (v_trace v) t0 \/
     opening c s0 /\ ~ In c (live (v_trace v)) /\ exists u, t0 = fresh_trans c u) /\
    msg_run P C (t_with_last_use t0 now) (v_id v) (v_app v) m t' s1 id' a' rr /\
    r = outcome rr /\ pwf m /\ (exists i, (i < 8)%nat /\ tr v' i = t') /\ v_app v' = a'.
Proof.
  intros Hst [Hlen Hp] Hin. pose proof Hst as (Hre & He & _). cbn in He.
  apply reach_all in Hre as (Hb & HL & HS & _). pose proof HL as [Hl Hh].
  apply step_in_rx in Hst as [_ Hst].
  destruct Hst as [v1 s1 Hg|v1 s1 i Hg Hf|v1 s1 i v2 Hg Hf Hu|v1 s1 i t' s2 id' a' r' v2 Hg _ Hid Hx Hu]; try congruence.
  - exfalso. inversion Hg as [| |i v1' H1 H2 H3 H4|v0 v1' s' oi' i H1 H2 H3 H4 Hr]; subst; [destruct Hin|].
    destruct Hr as [(Ho & _)|(_ & -> & _)]; [discriminate|]. destruct Hin as [Hin|[]]. discriminate.
  - rewrite rx_cut_short in Hx by exact Hlen.
    pose proof (got_slot _ _ _ _ _ _ Hb Hg) as (Hi & Ha & Hc & Hwhich & Happ & Hvid). rewrite Hvid, Happ in Hx.
    pose proof (micros_base _ _ _ _ _ _ _ Hb (got_micros P E C _ _ _ _ _ Hb Hg)) as Hb1.
    assert (Ht' : tr v2 i = t') by (eapply up_tr; [rewrite (ba_len _ Hb1); exact Hi|exact Hu]).
    destruct Hx as [r1 Hp' Hn1 Hn2|e s3 Hp' Hs|m' now t1 s3 id1 a1 r1 Hp' W Hr]; try congruence.
    rewrite Hp in Hp'. injection Hp' as <-. rewrite Hc.
    exists s1, (tr v1 i), now, s3, t1, id1, a1, r1. split; [reflexivity|]. split.
    + inversion Hg as [i' H1 H2 H3|i' u v1' H1 H2 H3 H4| |v0 v1' s' oi' i' H1 H2 H3 H4 Hr']; subst.
      * left. split; [reflexivity|]. split; [apply Hh; exists i; auto|].
        split; [unfold tr; apply nth_In; rewrite (ba_len _ Hb); exact Hi|]. repeat split; auto; apply HS; auto.
      * right. split; [exists u; auto|]. split.
        -- intro Hl'. apply Hh in Hl' as (j & Hj & Aj & Cj). apply (H3 j); auto.
        -- exists u. eapply up_tr; [rewrite (ba_len _ Hb); exact Hi|exact H4].
      * destruct Hr' as [(Ho & u & -> & Hu')|(Ho & _)]; [|discriminate]. injection Ho as <-.
        right. split; [exists u; right; eexists; split; [|reflexivity]; apply H3; exact Hi|]. split.
        -- intro Hl'. apply Hh in Hl' as (j & Hj & Aj & Cj). apply (H3 j); auto.
        -- exists u. eapply up_tr; [rewrite (up_len _ _ _ _ _ _ _ _ H4), (ba_len _ Hb); exact Hi|exact Hu'].
    + split; [exact Hr|]. split; [destruct r1; reflexivity|]. split; [exact W|]. split; [exists i; auto|].
      eapply up_app; exact Hu.
Qed.

Lemma fresh_no_match (v : @srv A) c m t0 now :
  fresh_id c (m_id m) (v_trace v) -> lived (v_trace v) ->
  (In c (live (v_trace v)) /\ t_client t0 = c /\ SInv (v_trace v) t0 \/
   ~ In c (live (v_trace v)) /\ exists u, t0 = fresh_trans c u) ->
  match_req (t_with_last_use t0 now) m = false.
Proof.
  intros Hf Hl Hw. unfold fresh_id in Hf. unfold match_req. cbn [t_with_last_use t_req].
  destruct Hw as [(_ & Hc & HI)|(Hn & u & ->)].
  - rewrite <- Hc, (si_id _ _ HI) in Hf. destruct (N.eqb_spec (m_id (t_req t0)) (m_id m)); [congruence|].
    apply andb_false_r.
  - rewrite (proj2 (not_live _ _ Hl Hn)) in Hf. change (m_id (t_req (fresh_trans c u))) with 0. destruct (N.eqb_spec 0 (m_id m)); [congruence|]. apply andb_false_r.
Qed.

(** A fresh message that is a request or at least not an acknowledgement or reset. *)
Lemma rx_fresh (v : @srv A) c d m v' r s :
  step P E C v (EvRx c d None) v' r s -> reads C d m -> In (SRecv c d) s ->
  m_type m = T_CON \/ m_type m = T_NON -> fresh_id c (m_id m) (v_trace v) ->
  exists s0 t now s1,
    s = s0 ++ SRecv c d :: SUse c now :: s1 /\ (s0 = [] \/ opening c s0) /\ t_client t = c /\ pwf m /\
    ((forall x, In x (v_tr v) -> t_active x = true -> t_client x = c -> t_type x = TRegular) -> t_type t = TRegular) /\
    (m_class m = 0 /\ (exists t' id' a' rr, req_run P C t (v_id v) (v_app v) m t' s1 id' a' rr /\ r = outcome rr) \/
     m_class m <> 0 /\ r = None /\
       (m_type m = T_NON /\ s1 = [SDestroy c] \/
        m_type m = T_CON /\ (s1 = [SSend c (empty_bytes T_RST (m_id m)) false; SDestroy c] \/
          exists now, s1 = [SSend c (empty_bytes T_RST (m_id m)) true; SUse c now; SDestroy c]))).
Proof.
  intros Hst Hrd Hin Hty Hf. pose proof Hst as (Hre & _). apply reach_all in Hre as (_ & [Hl _] & _).
  apply (rx_received _ _ _ m) in Hst as (s0 & t0 & now & s1 & t' & id' & a' & rr & -> & Hw & Hr & -> & W & _); auto.
  assert (Hnm : match_req (t_with_last_use t0 now) m = false).
  { eapply fresh_no_match; [exact Hf|exact Hl|]. destruct Hw as [(_ & H1 & _ & _ & H2 & H3)|(_ & H1 & H2)]; auto. }
  assert (Hc : t_client (t_with_last_use t0 now) = c).
  { destruct Hw as [(_ & _ & _ & _ & H & _)|(_ & _ & u & ->)]; [exact H|reflexivity]. }
  exists s0, (t_with_last_use t0 now), now, s1. split; [reflexivity|].
  split; [destruct Hw as [(H & _)|(H & _)]; auto|]. split; [exact Hc|]. split; [exact W|]. split.
  { intro Hreg. destruct Hw as [(_ & _ & H1 & H2 & H3 & _)|(_ & _ & u & ->)]; [apply (Hreg t0); auto|reflexivity]. }
  assert (Hx : forall t, m_type m = t -> t = T_ACK \/ t = T_RST -> False) by (intros t <- [H|H]; destruct Hty as [H'|H']; rewrite H in H'; discriminate).
  set (t := t_with_last_use t0 now) in *. clearbody t.
  destruct Hr as [Hm Ht|now' Hm Ht Hs|e Hm Ht Hs|b now' Hm Ht Hs Hb|b Hm Ht Hs Hb|t1 s1 r1 Hm Ht Hs Hb _|Hm Ht|e Hm Ht|Hm|s1 Ht Hcl Hm Hs|t1 s1 id1 a1 r1 Ht Hcl Hm Hr];
    try congruence; try (exfalso; destruct Ht as [Ht|Ht]; eapply Hx; eauto; fail).
  - destruct Hm as [(H1 & _)|(H1 & H2 & _)]; [exfalso; destruct H1 as [H1|H1]; eapply Hx; eauto|].
    right. split; [exact H2|]. split; [reflexivity|]. left. rewrite Hc. auto.
  - right. split; [exact Hcl|]. split; [reflexivity|]. right. split; [exact Ht|]. rewrite Hc in Hs. exact Hs.
  - left. split; [exact Hcl|]. eauto 10.
Qed.


(** ** Responses *)

Lemma sends_app s1 s2 : sends (s1 ++ s2) = sends s1 ++ sends s2.
Proof. induction s1 as [|o s1 IH]; [reflexivity|]. destruct o; cbn; rewrite ?IH; reflexivity. Qed.
Lemma new_ids_app s1 s2 : new_ids (s1 ++ s2) = new_ids s1 ++ new_ids s2.
Proof. induction s1 as [|o s1 IH]; [reflexivity|]. destruct o; cbn; rewrite ?IH; reflexivity. Qed.
Lemma handled_app s1 s2 : handled (s1 ++ s2) = handled s1 ++ handled s2.
Proof. induction s1 as [|o s1 IH]; [reflexivity|]. destruct o; cbn; rewrite ?IH; reflexivity. Qed.
Lemma calls_app s1 s2 : calls (s1 ++ s2) = calls s1 ++ calls s2.
Proof. induction s1 as [|o s1 IH]; [reflexivity|]. destruct o; cbn; rewrite ?IH; reflexivity. Qed.

Lemma opening_nothing c s : s = [] \/ opening c s -> sends s = [] /\ new_ids s = [] /\ handled s = [] /\ calls s = [] /\ ~ In (SDestroy c) s.
Proof.
  intros [->|(u & [->|(c0 & Hc & ->)])]; cbn; repeat split; auto; try tauto.
  - intros [H|[H|[]]]; discriminate.
  - intros [H|[H|[H|[]]]]; congruence.
Qed.

Lemma blk_quiet c l : Forall (blk_obs c) l -> sends l = [] /\ new_ids l = [] /\ handled l = [] /\ ~ In (SDestroy c) l.
Proof.
  induction 1 as [|o l [[b ->]|[b ->]] Hl IH]; cbn; repeat split; try tauto; intros [H|H]; [discriminate|tauto|discriminate|tauto].
Qed.
Lemma answered_quiet t a m t' l a' r : answered P C t a m t' l a' r ->
  sends l = [] /\ new_ids l = [] /\ (handled l = [] \/ handled l = [(t_client t, m)]) /\ ~ In (SDestroy (t_client t)) l.
Proof.
  intro H. apply answered_fine in H as (_ & _ & [H|(l' & -> & H)]); apply blk_quiet in H as (H1 & H2 & H3 & H4); cbn.
  - auto.
  - rewrite H3. split; [exact H1|]. split; [exact H2|]. split; [auto|]. intros [H|H]; [discriminate|auto].
Qed.

Lemma complete_fields resp i tok ty : m_id (complete resp i tok ty) = i /\ m_token (complete resp i tok ty) = tok.
Proof. split; reflexivity. Qed.

Lemma response_head resp i m ty b :
  msg_format (complete resp i (m_token m) ty) MAX_BUF_LEN = Ok b -> i <= 65535 -> pwf m -> ty < 4 ->
  dgram_type b = ty /\ dgram_id b = i /\ dgram_token b = m_token m.
Proof.
  intros Hb Hi W Ht. pose proof (format_type _ _ _ Hb) as H1. rewrite complete_type in H1.
  pose proof (format_id_token _ _ _ Hb) as H2. destruct (complete_fields resp i (m_token m) ty) as [E1 E2]. rewrite E1, E2 in H2.
  destruct (H2 Hi (pw_tkl _ W)). split; [|auto]. rewrite H1. apply N.mod_small. exact Ht.
Qed.

(** What is sent for a request, [b] being the response. *)
Definition responds (c : N) (m : msg) (s : list sobs) : Prop :=
  (m_type m = T_NON ->
     sends s = [] /\ In (SDestroy c) s \/
     exists b, sends s = [(c, b)] /\ dgram_type b = T_NON /\ dgram_token b = m_token m /\ new_ids s = [dgram_id b]) /\
  (m_type m = T_CON -> sepb C m = false ->
     sends s = [] /\ In (SDestroy c) s \/
     exists b, sends s = [(c, b)] /\ dgram_type b = T_ACK /\ dgram_token b = m_token m /\ dgram_id b = m_id m /\ new_ids s = []) /\
  (m_type m = T_CON -> sepb C m = true ->
     sends s = [(c, ack_dgram (m_id m))] /\ In (SDestroy c) s \/
     exists b, sends s = [(c, ack_dgram (m_id m)); (c, b)] /\ dgram_type b = T_CON /\ dgram_token b = m_token m /\
       new_ids s = [dgram_id b]).

Lemma req_run_responds t id a m t' s id' a' r :
  req_run P C t id a m t' s id' a' r -> pwf m -> m_type m = T_CON \/ m_type m = T_NON -> fine false r ->
  responds (t_client t) m s.
Proof.
  intros Hr W Hty Hf. unfold responds.
  change ack_dgram with (empty_bytes T_ACK).
  assert (Hack : forall t1 s1, acked C (blank t) m t1 s1 ->
     t_client t1 = t_client t /\ new_ids s1 = [] /\
     (sends s1 = [] /\ (m_type m <> T_CON \/ sepb C m = false) \/
      sends s1 = [(t_client t, empty_bytes T_ACK (m_id m))] /\ m_type m = T_CON /\ sepb C m = true)).
  { intros t1 s1 []; cbn; auto 10. }
  destruct Hr as [e Hc' Hs|u1 x1 u2 x2 a2 e H1 H2|u1 x1 u2 x2 a2 r2 H1 H2 Hn1 Hn2|u1 x1 u2 x2 a2 resp x3 id2 i u3 x4 r3 H1 H2 H3 Hi2 Hi H4].
  - rewrite Hc', Hs. split; [discriminate|]. split; [discriminate|]. intros _ _. left. cbn. auto.
  - destruct (Hack _ _ H1) as (Hc & Hn & Hs). apply answered_quiet in H2 as (Q1 & Q2 & _ & _).
    assert (Hd : In (SDestroy (t_client t)) (x1 ++ x2 ++ [SDestroy (t_client t)])).
    { apply in_or_app. right. apply in_or_app. right. left. reflexivity. }
    rewrite !sends_app, Q1. cbn [sends List.app]. rewrite app_nil_r.
    destruct Hs as [(-> & Hm)|(-> & Hm1 & Hm2)].
    + split; [auto|]. split; [auto|]. intros E1 E2. destruct Hm; congruence.
    + rewrite Hm1, Hm2. split; [discriminate|]. split; [discriminate|]. auto.
  - exfalso. revert Hf. apply fine_false_bind; assumption.
  - destruct (Hack _ _ H1) as (Hc & Hn & Hs). pose proof (answered_fine _ _ _ _ _ _ _ _ _ H2) as (Hcore & _).
    apply answered_quiet in H2 as (Q1 & Q2 & _ & _).
    assert (Hc2 : t_client u2 = t_client t) by (rewrite (core_client _ _ Hcore); exact Hc).
    set (c := t_client t) in *.
    assert (Hx4 : (sends x4 = [] /\ In (SDestroy c) x4 \/
       exists b, sends x4 = [(c, b)] /\ dgram_type b = resp_type C m /\ dgram_token b = m_token m /\ dgram_id b = i) /\ new_ids x4 = []).
    { assert (Hty4 : resp_type C m < 4) by (unfold resp_type; destruct (_ =? _); [destruct (sepb C m)|]; reflexivity).
      destruct H4 as [e He|r' He Hn1 Hn2|b e He|b now He|b now q He Ht' Hq|b now q rn He Ht' Hq|b now rn e He Ht']; rewrite ?Hc2.
      - cbn. auto.
      - exfalso. revert Hf. apply fine_false_bind; assumption.
      - split; [|reflexivity]. right. exists b. split; [reflexivity|]. eapply response_head in He; tauto.
      - split; [|reflexivity]. right. exists b. split; [reflexivity|]. eapply response_head in He; tauto.
      - split; [|reflexivity]. right. exists b. split; [reflexivity|]. eapply response_head in He; tauto.
      - split; [|reflexivity]. right. exists b. split; [reflexivity|]. eapply response_head in He; tauto.
      - split; [|reflexivity]. right. exists b. split; [reflexivity|]. eapply response_head in He; tauto. }
    destruct Hx4 as [Hx4 Hn4].
    assert (Hx3 : sends x3 = [] /\ (m_type m = T_CON -> sepb C m = false -> new_ids x3 = [] /\ i = m_id m) /\
                  (m_type m <> T_CON \/ sepb C m = true -> new_ids x3 = [i])).
    { destruct H3 as [E1 E2|id3 E1 E2]; cbn.
      - split; [reflexivity|]. split; [auto|]. intros [H|H]; congruence.
      - split; [reflexivity|]. split; [intros H1' H2'; destruct E1; congruence|auto]. }
    destruct Hx3 as (S3 & N3a & N3b).
    rewrite !sends_app, !new_ids_app, Q1, Q2, S3, Hn, Hn4. cbn [List.app]. rewrite app_nil_r.
    assert (Hd : forall l, In (SDestroy c) x4 -> In (SDestroy c) (l ++ x2 ++ x3 ++ x4)).
    { intros l H. repeat (apply in_or_app; right). exact H. }
    unfold resp_type in Hx4.
    split; [|split].
    + intro E1. rewrite E1 in *. destruct Hs as [(-> & _)|(_ & H & _)]; [|discriminate]. cbn [List.app].
      destruct Hx4 as [(-> & H)|(b & -> & Hb1 & Hb2 & Hb3)]; [left; auto|]. right. exists b.
      split; [reflexivity|]. split; [exact Hb1|]. split; [exact Hb2|]. rewrite Hb3. apply N3b. left. discriminate.
    + intros E1 E2. rewrite E1, E2 in *. destruct Hs as [(-> & _)|(_ & _ & H)]; [|discriminate]. cbn [List.app].
      destruct (N3a eq_refl eq_refl) as [N3 ->].
      destruct Hx4 as [(-> & H)|(b & -> & Hb1 & Hb2 & Hb3)]; [left; auto|]. right. exists b. auto 10.
    + intros E1 E2. rewrite E1, E2 in *. destruct Hs as [(_ & [H|H])|(-> & _)]; [congruence|discriminate|]. cbn [List.app].
      destruct Hx4 as [(-> & H)|(b & -> & Hb1 & Hb2 & Hb3)]; [left; auto|]. right. exists b.
      split; [reflexivity|]. split; [exact Hb1|]. split; [exact Hb2|]. rewrite Hb3. apply N3b. auto.
Qed.

Lemma outcome_fine r : outcome r = None -> fine false r.
Proof. destruct r as [x|e|u|]; intro H; try discriminate; right; [left|right]; eauto. Qed.

Lemma fresh_responds (v : @srv A) c d m v' s :
  step P E C v (EvRx c d None) v' None s -> reads C d m -> In (SRecv c d) s ->
  m_type m = T_CON \/ m_type m = T_NON -> m_class m = 0 -> fresh_id c (m_id m) (v_trace v) ->
  responds c m s.
Proof.
  intros Hst Hrd Hin Hty Hcl Hf.
  apply (rx_fresh _ _ _ m) in Hst as (s0 & t & now & s1 & -> & Hs0 & Hc & W & _ & [(_ & t' & id' & a' & rr & Hr & Ho)|(H & _)]); auto;
    [|contradiction].
  apply req_run_responds in Hr; [|exact W|exact Hty|apply outcome_fine; congruence]. rewrite Hc in Hr.
  apply opening_nothing in Hs0 as (S0 & N0 & _). unfold responds in *.
  rewrite sends_app, new_ids_app, S0, N0. cbn [List.app sends new_ids].
  assert (Hd : In (SDestroy c) s1 -> In (SDestroy c) (s0 ++ SRecv c d :: SUse c now :: s1)).
  { intro H. apply in_or_app. right. right. right. exact H. }
  destruct Hr as (R1 & R2 & R3). split; [|split].
  - intro H. destruct (R1 H) as [[H1 H2]|H1]; auto.
  - intros H H'. destruct (R2 H H') as [[H1 H2]|H1]; auto.
  - intros H H'. destruct (R3 H H') as [[H1 H2]|H1]; auto.
Qed.

(** ** Paths *)

Lemma cstr_no_zero l : ~ In 0 l -> cstr l = l.
Proof.
  induction l as [|x l IH]; intro H; [reflexivity|]. cbn. destruct (N.eqb_spec x 0) as [->|Hx]; [exfalso; apply H; left; reflexivity|].
  rewrite IH; [reflexivity|]. intro H'. apply H. right. exact H'.
Qed.
Lemma cstr_pad l n : ~ In 0 l -> cstr (l ++ repeat 0 (S n)) = l.
Proof.
  induction l as [|x l IH]; intro H; [reflexivity|]. cbn [List.app cstr].
  destruct (N.eqb_spec x 0) as [->|Hx]; [exfalso; apply H; left; reflexivity|].
  rewrite IH; [reflexivity|]. intro H'. apply H. right. exact H'.
Qed.

Lemma sepb_registered m :
  ~ In 0 (req_path m) -> lenN (req_path m) <= 255 -> (forall p, In p (sc_sep C) -> ~ In 0 p) ->
  (sepb C m = true <-> registered C m).
Proof.
  intros Hz Hl Hp. unfold sepb, get_resp_type, path_buf.
  rewrite uri_path_spec by (unfold URI_PATH_MAX_LEN; lia). cbn [bind fst]. unfold URI_PATH_MAX_LEN.
  fold (req_path m). change (256 - 1) with 255.
  rewrite firstn_all2 by (unfold lenN in Hl; lia).
  destruct (N.to_nat (256 - lenN (req_path m))) as [|n] eqn:En; [lia|].
  unfold registered. revert Hp. induction (sc_sep C) as [|p l IH]; intro Hp; cbn [path_list_match In].
  - split; [discriminate|intros []].
  - unfold cstr_eqb at 1. rewrite (cstr_no_zero p) by (apply Hp; left; reflexivity). rewrite cstr_pad by exact Hz.
    destruct (bytes_eqb p (req_path m)) eqn:Ep.
    + apply bytes_eqb_eq in Ep. split; auto.
    + rewrite IH by (intros q Hq; apply Hp; right; exact Hq). split; [auto|]. intros [->|H]; [|exact H].
      exfalso. assert (bytes_eqb (req_path m) (req_path m) = true) by (apply bytes_eqb_eq; reflexivity). congruence.
Qed.


Lemma replies (v : @srv A) c d m v' s :
  step P E C v (EvRx c d None) v' None s -> reads C d m -> In (SRecv c d) s ->
  m_type m = T_CON \/ m_type m = T_NON -> m_class m = 0 -> fresh_id c (m_id m) (v_trace v) ->
  replied c m s.
Proof.
  intros Hst Hrd Hin Hty Hcl Hf. destruct (fresh_responds _ _ _ _ _ _ Hst Hrd Hin Hty Hcl Hf) as (R1 & R2 & R3).
  destruct Hty as [Hty|Hty].
  - destruct (sepb C m) eqn:Es.
    + destruct (R3 Hty eq_refl) as [(H1 & H2)|(b & H1 & H2 & H3 & H4)]; [eapply rp_ack|eapply rp_separate]; eassumption.
    + destruct (R2 Hty eq_refl) as [(H1 & H2)|(b & H1 & H2 & H3 & H4 & H5)]; [eapply rp_nothing|eapply rp_piggybacked]; eassumption.
  - destruct (R1 Hty) as [(H1 & H2)|(b & H1 & H2 & H3 & H4)]; [eapply rp_nothing|eapply rp_non]; eassumption.
Qed.

Lemma separate_iff (v : @srv A) c d m v' s :
  step P E C v (EvRx c d None) v' None s -> reads C d m -> In (SRecv c d) s ->
  m_type m = T_CON -> m_class m = 0 -> fresh_id c (m_id m) (v_trace v) ->
  ~ In 0 (req_path m) -> lenN (req_path m) <= 255 -> (forall p, In p (sc_sep C) -> ~ In 0 p) ->
  (registered C m ->
     sends s = [(c, ack_dgram (m_id m))] /\ In (SDestroy c) s \/
     exists b, sends s = [(c, ack_dgram (m_id m)); (c, b)] /\ dgram_type b = T_CON /\ dgram_token b = m_token m) /\
  (~ registered C m ->
     sends s = [] /\ In (SDestroy c) s \/
     exists b, sends s = [(c, b)] /\ dgram_type b = T_ACK /\ dgram_token b = m_token m /\ dgram_id b = m_id m).
Proof.
  intros Hst Hrd Hin Hty Hcl Hf N1 N2 N3. destruct (fresh_responds _ _ _ _ _ _ Hst Hrd Hin (or_introl Hty) Hcl Hf) as (_ & R2 & R3).
  pose proof (sepb_registered m N1 N2 N3) as Hs. destruct (sepb C m).
  - split; [intros _|intro H; exfalso; apply H, Hs; reflexivity].
    destruct (R3 Hty eq_refl) as [H|(b & H1 & H2 & H3 & _)]; [left; exact H|right; eauto].
  - split; [intro H; apply Hs in H; discriminate|intros _].
    destruct (R2 Hty eq_refl) as [H|(b & H1 & H2 & H3 & H4 & _)]; [left; exact H|right; eauto 10].
Qed.

End App.
