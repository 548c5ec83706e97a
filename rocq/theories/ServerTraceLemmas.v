(** Histories of the server: transactions, uses, message IDs. *)
From Verif Require Import BaseLemmas MsgModel MsgSpec MsgLemmas MsgFormatLemmas MsgBlockLemmas
  ClientModel ClientSpec ClientLemmas ClientReplyLemmas ServerModel ServerSpec ServerLemmas.

(** Observations within the transaction of [c]. *)
Definition inner (c : N) (o : sobs) : Prop :=
  match o with
  | SCreate _ | SDestroy _ => False
  | SNewId _ => True
  | _ => client_of o = Some c
  end.

(** A slot that was active with client [c] is now [t'] and [s] was observed. *)
Definition tidy (c : N) (t' : trans) (s : list sobs) : Prop :=
  exists s0, Forall (inner c) s0 /\
    (s = s0 /\ t_active t' = true /\ t_client t' = c \/ s = s0 ++ [SDestroy c] /\ t' = trans_zero).

Lemma tidy_app c t' s1 s2 : Forall (inner c) s1 -> tidy c t' s2 -> tidy c t' (s1 ++ s2).
Proof.
  intros H (s0 & H0 & [(-> & Ha)|(-> & Ha)]).
  - exists (s1 ++ s0). split; [apply Forall_app; auto|]. left. auto.
  - exists (s1 ++ s0). split; [apply Forall_app; auto|]. right. rewrite app_assoc. auto.
Qed.
Lemma tidy_end c s : Forall (inner c) s -> tidy c trans_zero (s ++ [SDestroy c]).
Proof. intro H. exists s. auto. Qed.
Lemma tidy_live c t s : Forall (inner c) s -> t_active t = true -> t_client t = c -> tidy c t s.
Proof. intros H Ha Hc. exists s. auto. Qed.

Ltac inners := repeat (first [apply Forall_nil | apply Forall_cons; [first [reflexivity|exact I]|]]).

Section App.
Context {A : Type} (P : app A) (E : senv) (C : scfg).

Lemma blk_inner c l : Forall (blk_obs c) l -> Forall (inner c) l.
Proof. intro H. eapply Forall_impl; [|exact H]. intros o [[b ->]|[b ->]]; reflexivity. Qed.

Lemma answered_inner t a m t' l a' r : answered P C t a m t' l a' r -> Forall (inner (t_client t)) l.
Proof.
  intro H. apply answered_fine in H as (_ & _ & [H|(l' & -> & H)]).
  - apply blk_inner. exact H.
  - constructor; [reflexivity|]. apply blk_inner. exact H.
Qed.
Lemma acked_inner t m t' l : acked C t m t' l -> Forall (inner (t_client t)) l.
Proof. intros []; inners. Qed.
Lemma ident_inner c m id s id' i : ident C m id s id' i -> Forall (inner c) s.
Proof. intros []; inners. Qed.

Lemma sent_off_tidy t m rm t' s r : t_active t = true -> sent_off t m rm t' s r -> tidy (t_client t) t' s.
Proof.
  intros Ha [e He|r' He H1 H2|b e He|b now He|b now q He Ht Hq|b now q rn He Ht Hq|b now rn e He Ht].
  - apply (tidy_end _ []). inners.
  - apply tidy_live; auto; inners.
  - apply (tidy_end _ [SSend (t_client t) b false]). inners.
  - apply (tidy_end _ [SSend (t_client t) b true; SUse (t_client t) now]). inners.
  - apply tidy_live; auto; inners.
  - apply tidy_live; auto; inners.
  - apply (tidy_end _ [SSend (t_client t) b true; SUse (t_client t) now; SArm (t_client t) 2 ((rn mod 1000) * 1000000) false]).
    inners.
Qed.

Lemma req_run_tidy t id a m t' s id' a' r :
  t_active t = true -> req_run P C t id a m t' s id' a' r -> tidy (t_client t) t' s.
Proof.
  intros Ha [e Hc Hs|t1 s1 t2 s2 a2 e H1 H2|t1 s1 t2 s2 a2 r2 H1 H2 _ _|t1 s1 t2 s2 a2 resp s3 id2 i t3 s4 r3 H1 H2 H3 _ _ H4].
  - apply (tidy_end _ [SSend (t_client t) (empty_bytes T_ACK (m_id m)) false]). inners.
  - pose proof (acked_inner _ _ _ _ H1) as I1. pose proof (answered_inner _ _ _ _ _ _ _ H2) as I2.
    rewrite (acked_client _ _ _ _ _ H1) in I2. rewrite app_assoc. apply tidy_end. apply Forall_app. auto.
  - pose proof (acked_inner _ _ _ _ H1) as I1. pose proof (answered_inner _ _ _ _ _ _ _ H2) as I2.
    rewrite (acked_client _ _ _ _ _ H1) in I2. apply answered_fine in H2 as (H2 & _).
    apply tidy_live; [apply Forall_app; auto| |].
    + rewrite (core_active _ _ H2). destruct H1; exact Ha.
    + rewrite (core_client _ _ H2). destruct H1; reflexivity.
  - pose proof (acked_inner _ _ _ _ H1) as I1. pose proof (answered_inner _ _ _ _ _ _ _ H2) as I2.
    rewrite (acked_client _ _ _ _ _ H1) in I2. apply answered_fine in H2 as (H2 & _).
    assert (Ha2 : t_active t2 = true) by (rewrite (core_active _ _ H2); destruct H1; exact Ha).
    assert (Hc2 : t_client t2 = t_client t) by (rewrite (core_client _ _ H2); destruct H1; reflexivity).
    apply sent_off_tidy in H4; [|exact Ha2]. rewrite Hc2 in H4.
    rewrite !app_assoc. apply tidy_app; [|exact H4]. rewrite <- !app_assoc.
    apply Forall_app. split; [exact I1|]. apply Forall_app. split; [exact I2|]. eapply ident_inner; exact H3.
Qed.

Lemma msg_run_tidy t id a m t' s id' a' r :
  t_active t = true -> msg_run P C t id a m t' s id' a' r -> tidy (t_client t) t' s.
Proof.
  intros Ha [Hm Ht|now Hm Ht Hs|e Hm Ht Hs|b now Hm Ht Hs Hf|b Hm Ht Hs Hf|t1 s1 r1 Hm Ht Hs Hf [(-> & -> & _)|(-> & -> & _)]|Hm Ht|e Hm Ht|Hm|s1 Ht Hc Hm [->|[now ->]]|t1 s1 id1 a1 r1 Ht Hc Hm Hr].
  - apply tidy_live; auto.
  - apply tidy_live; auto; inners.
  - apply (tidy_end _ [SSend (t_client t) (empty_bytes T_ACK (m_id m)) false]). inners.
  - apply tidy_live; auto; inners.
  - apply (tidy_end _ [SSend (t_client t) b false]). inners.
  - apply (tidy_end _ []). inners.
  - apply tidy_live; auto.
  - apply tidy_live; auto; inners.
  - apply (tidy_end _ [SStop (t_client t) false]). inners.
  - apply (tidy_end _ []). inners.
  - apply (tidy_end _ [SSend (t_client t) (empty_bytes T_RST (m_id m)) false]). inners.
  - apply (tidy_end _ [SSend (t_client t) (empty_bytes T_RST (m_id m)) true; SUse (t_client t) now]). inners.
  - eapply req_run_tidy; eassumption.
Qed.

Lemma rx_run_tidy t id a d t' s id' a' r :
  t_active t = true -> rx_run P C t id a d t' s id' a' r -> tidy (t_client t) t' s.
Proof.
  intros Ha [r1 Hp _ _|e s1 Hp Hs|m now t1 s1 id1 a1 r1 Hp W Hr].
  - apply tidy_live; auto; inners.
  - rewrite app_comm_cons. apply tidy_end. constructor; [reflexivity|].
    destruct Hs as [(_ & _ & _ & [->|[now ->]])|(_ & ->)]; inners.
  - apply (msg_run_tidy (t_with_last_use t now)) in Hr; [|exact Ha].
    apply (tidy_app _ _ [_; _]); [inners|exact Hr].
Qed.

Lemma tm_run_tidy t t' s r : t_active t = true -> tm_run t t' s r -> tidy (t_client t) t' s.
Proof.
  intros Ha [Hl|e Hl Hn|Hl|b now Hl Hf|b e Hl Hf|Hl Hf].
  - apply (tidy_end _ [STimer (t_client t)]). inners.
  - apply tidy_live; auto; inners.
  - apply (tidy_end _ [STimer (t_client t); SArm (t_client t) (t_sec (trans_double_timeout t)) (t_nsec (trans_double_timeout t)) false]). inners.
  - apply tidy_live; auto; inners.
  - apply tidy_live; auto; inners.
  - apply tidy_live; auto; inners.
Qed.

(** Every micro step is of one of these kinds. *)
Inductive kind (v v' : @srv A) : list sobs -> Prop :=
| ki_in i t' s id' a' : (i < 8)%nat -> t_active (tr v i) = true -> tidy (t_client (tr v i)) t' s ->
    up E v i t' s id' a' v' -> kind v v' s
| ki_create i c now : (i < 8)%nat -> t_active (tr v i) = false ->
    (forall j, (j < 8)%nat -> t_active (tr v j) = true -> t_client (tr v j) <> c) ->
    up E v i (fresh_trans c now) [SCreate c; SUse c now] (v_id v) (v_app v) v' ->
    kind v v' [SCreate c; SUse c now]
| ki_none i : (i < 8)%nat -> t_active (tr v i) = false ->
    up E v i trans_zero [] (v_id v) (v_app v) v' -> kind v v' [].

Lemma micro_kind ub v v' s : micro P E C ub v v' s -> kind v v' s.
Proof.
  intros [i v2 Hi Ha Hu|i c now v2 Hi Ha Hn Hu|i v2 Hi Ha Hu|i d t' s' id' a' r v2 Hi Ha Hd Hdl Hid' Hr Hfi Hu|i t' s' r v2 Hi Ha Hm Hr Hfi Hu].
  - eapply ki_in; [exact Hi|exact Ha|apply (tidy_end _ []); inners|exact Hu].
  - eapply ki_create; eassumption.
  - eapply ki_none; eassumption.
  - eapply ki_in; [exact Hi|exact Ha|eapply rx_run_tidy; eassumption|exact Hu].
  - eapply ki_in; [exact Hi|exact Ha|eapply tm_run_tidy; eassumption|exact Hu].
Qed.

(** ** Transactions in the history *)

Definition has (v : @srv A) (c : N) : Prop := exists i, (i < 8)%nat /\ t_active (tr v i) = true /\ t_client (tr v i) = c.

Lemma live_app tr1 tr2 : live (tr1 ++ tr2) = fold_left live_obs tr2 (live tr1).
Proof. apply fold_left_app. Qed.

Lemma live_inner c l s : Forall (inner c) s -> fold_left live_obs s l = l.
Proof. induction 1 as [|o s Ho Hs IH]; [reflexivity|]. cbn [fold_left]. destruct o; try exact IH; destruct Ho. Qed.

Lemma lived_nil : lived [].
Proof. intros tr1 o tr2 H. destruct tr1; discriminate. Qed.

Lemma lived_snoc tr o : lived tr ->
  match o with
  | SCreate c => ~ In c (live tr) /\ (length (live tr) < 8)%nat
  | SNewId _ => True
  | _ => forall c, client_of o = Some c -> In c (live tr)
  end -> lived (tr ++ [o]).
Proof.
  intros H Ho tr1 o' tr2 E'. destruct (snoc_split _ _ _ _ _ E') as [(-> & -> & ->)|(tr3 & -> & ->)].
  - exact Ho.
  - eapply H. reflexivity.
Qed.

Lemma lived_inner tr c s : lived tr -> In c (live tr) -> Forall (inner c) s -> lived (tr ++ s).
Proof.
  intros H Hin Hs. revert tr H Hin. induction Hs as [|o s Ho Hs IH]; intros tr H Hin.
  - rewrite app_nil_r. exact H.
  - change (o :: s) with ([o] ++ s). rewrite app_assoc. apply IH.
    + apply lived_snoc; [exact H|]. destruct o; auto; cbn in Ho; try (injection Ho as ->; intros c' [= <-]; exact Hin);
        destruct Ho.
    + rewrite live_app. cbn [fold_left]. destruct o; try exact Hin; destruct Ho.
Qed.

Lemma live_remove_NoDup c l : NoDup l -> NoDup (remove N.eq_dec c l).
Proof.
  induction 1 as [|x l Hx Hl IH]; cbn; [constructor|]. destruct (N.eq_dec c x); [exact IH|].
  constructor; [|exact IH]. intro H. apply in_remove in H. tauto.
Qed.
Lemma remove_length_le {B} (dec : forall x y : B, {x = y} + {x <> y}) x l : (length (remove dec x l) <= length l)%nat.
Proof. induction l as [|y l IH]; cbn; [lia|]. destruct (dec x y); cbn; lia. Qed.

Lemma lived_bounds tr : lived tr -> NoDup (live tr) /\ (length (live tr) <= 8)%nat.
Proof.
  induction tr as [|o tr IH] using rev_ind; intro H; [split; [constructor|cbn; lia]|].
  assert (H' : lived tr). { intros tr1 o' tr2 ->. eapply (H tr1 o' (tr2 ++ [o])). rewrite <- app_assoc. reflexivity. }
  specialize (IH H') as [IH1 IH2]. specialize (H tr o [] eq_refl). rewrite live_app. cbn [fold_left].
  destruct o; cbn [live_obs]; auto.
  - destruct H as [Hn Hl]. split; [constructor; auto|cbn; lia].
  - split; [apply live_remove_NoDup; exact IH1|]. pose proof (remove_length_le N.eq_dec c (live tr)). lia.
Qed.

Definition LInv (v : @srv A) : Prop := lived (v_trace v) /\ forall c, In c (live (v_trace v)) <-> has v c.

Lemma has_bound v l : base v -> NoDup l -> (forall c, In c l -> has v c) -> (length l <= 8)%nat.
Proof.
  intros [Hl _ _] Hn Hin. rewrite <- Hl. rewrite <- (map_length t_client).
  apply NoDup_incl_length; [exact Hn|]. intros c Hc. destruct (Hin c Hc) as (i & Hi & Ha & <-).
  unfold tr. apply in_map. apply nth_In. lia.
Qed.

Lemma up_has_in v v' i t' s id' a' : base v -> (i < 8)%nat -> t_active (tr v i) = true ->
  up E v i t' s id' a' v' -> t_active t' = true -> t_client t' = t_client (tr v i) -> forall c, has v' c <-> has v c.
Proof.
  intros Hb Hi Ha Hu Ha' Hc c. assert (Ht : tr v' i = t') by (eapply up_tr; [rewrite (ba_len _ Hb); exact Hi|exact Hu]).
  split; intros (j & Hj & Aj & Cj); exists j; (split; [exact Hj|]); destruct (Nat.eq_dec i j) as [<-|Hij].
  - rewrite Ht in Cj. rewrite <- Hc. auto.
  - rewrite (up_other _ _ _ _ _ _ _ _ _ Hu Hij) in *. auto.
  - rewrite Ht, Hc. auto.
  - rewrite (up_other _ _ _ _ _ _ _ _ _ Hu Hij). auto.
Qed.
Lemma up_has_out v v' i s id' a' : base v -> (i < 8)%nat -> t_active (tr v i) = true ->
  up E v i trans_zero s id' a' v' -> forall c, has v' c <-> has v c /\ c <> t_client (tr v i).
Proof.
  intros Hb Hi Ha Hu c. assert (Ht : tr v' i = trans_zero) by (eapply up_tr; [rewrite (ba_len _ Hb); exact Hi|exact Hu]).
  split.
  - intros (j & Hj & Aj & Cj). destruct (Nat.eq_dec i j) as [<-|Hij]; [rewrite Ht in Aj; discriminate|].
    rewrite (up_other _ _ _ _ _ _ _ _ _ Hu Hij) in *. split; [exists j; auto|].
    intros ->. apply Hij. apply (ba_uniq _ Hb); auto.
  - intros [(j & Hj & Aj & Cj) Hn]. exists j. split; [exact Hj|].
    destruct (Nat.eq_dec i j) as [<-|Hij]; [congruence|]. rewrite (up_other _ _ _ _ _ _ _ _ _ Hu Hij). auto.
Qed.
Lemma up_has_new v v' i c now s id' a' : base v -> (i < 8)%nat -> t_active (tr v i) = false ->
  up E v i (fresh_trans c now) s id' a' v' -> forall c', has v' c' <-> has v c' \/ c' = c.
Proof.
  intros Hb Hi Ha Hu c'. assert (Ht : tr v' i = fresh_trans c now) by (eapply up_tr; [rewrite (ba_len _ Hb); exact Hi|exact Hu]).
  split.
  - intros (j & Hj & Aj & Cj). destruct (Nat.eq_dec i j) as [<-|Hij]; [rewrite Ht in Cj; right; symmetry; exact Cj|].
    rewrite (up_other _ _ _ _ _ _ _ _ _ Hu Hij) in *. left. exists j; auto.
  - intros [(j & Hj & Aj & Cj)| ->].
    + exists j. split; [exact Hj|]. destruct (Nat.eq_dec i j) as [<-|Hij]; [congruence|].
      rewrite (up_other _ _ _ _ _ _ _ _ _ Hu Hij). auto.
    + exists i. rewrite Ht. auto.
Qed.

Lemma LInv_micro ub v v' s : base v -> LInv v -> micro P E C ub v v' s -> LInv v'.
Proof.
  intros Hb [Hl Hh] Hm. pose proof (micro_base _ _ _ _ _ _ _ Hb Hm) as Hb'.
  apply micro_kind in Hm. destruct Hm as [i t' s id' a' Hi Ha (s0 & Hs0 & Hs) Hu|i c now Hi Ha Hn Hu|i Hi Ha Hu];
    unfold LInv; rewrite (up_trace _ _ _ _ _ _ _ _ Hu).
  - set (c := t_client (tr v i)) in *. assert (Hc : In c (live (v_trace v))) by (apply Hh; exists i; auto).
    assert (Hl0 : lived (v_trace v ++ s0)) by (eapply lived_inner; eassumption).
    assert (Hv0 : live (v_trace v ++ s0) = live (v_trace v)) by (rewrite live_app; eapply live_inner; exact Hs0).
    destruct Hs as [(-> & Ha' & Hc')|(-> & ->)].
    + split; [exact Hl0|]. intro c'. rewrite Hv0, Hh. symmetry. eapply up_has_in; eassumption.
    + rewrite app_assoc. split.
      * apply lived_snoc; [exact Hl0|]. intros c' [= <-]. rewrite Hv0. exact Hc.
      * intro c'. rewrite live_app. cbn [fold_left live_obs]. rewrite Hv0.
        rewrite (up_has_out _ _ _ _ _ _ Hb Hi Ha Hu). rewrite <- Hh.
        split; [intro H; apply in_remove in H; exact H|intros [H1 H2]; apply in_in_remove; auto].
  - assert (Hnc : ~ In c (live (v_trace v))). { intro H. apply Hh in H as (j & Hj & Aj & Cj). apply (Hn j); auto. }
    change [SCreate c; SUse c now] with ([SCreate c] ++ [SUse c now]). rewrite app_assoc.
    assert (Hl1 : lived (v_trace v ++ [SCreate c])).
    { apply lived_snoc; [exact Hl|]. split; [exact Hnc|].
      assert (NoDup (c :: live (v_trace v))) as Hnd by (constructor; [exact Hnc|apply lived_bounds; exact Hl]).
      apply (has_bound v' _ Hb') in Hnd; [cbn in Hnd; lia|].
      intros c' Hc'. apply (up_has_new _ _ _ _ _ _ _ _ Hb Hi Ha Hu). cbn in Hc'. rewrite Hh in Hc'. intuition. }
    split.
    + apply lived_snoc; [exact Hl1|]. intros c' [= <-]. rewrite live_app. cbn. auto.
    + intro c'. rewrite !live_app. cbn [fold_left live_obs In]. rewrite Hh.
      rewrite (up_has_new _ _ _ _ _ _ _ _ Hb Hi Ha Hu). intuition.
  - rewrite app_nil_r. split; [exact Hl|]. intro c. rewrite Hh.
    assert (Ht : tr v' i = trans_zero) by (eapply up_tr; [rewrite (ba_len _ Hb); exact Hi|exact Hu]).
    split; intros (j & Hj & Aj & Cj); exists j; (split; [exact Hj|]); destruct (Nat.eq_dec i j) as [<-|Hij].
    + congruence.
    + rewrite (up_other _ _ _ _ _ _ _ _ _ Hu Hij). auto.
    + rewrite Ht in Aj. discriminate.
    + rewrite (up_other _ _ _ _ _ _ _ _ _ Hu Hij) in *. auto.
Qed.

Lemma LInv_init id a : LInv (server_init id a).
Proof.
  split; [apply lived_nil|]. intro c. cbn [server_init v_trace live fold_left In]. split; [intros []|].
  intros (i & Hi & Ai & _). unfold tr, server_init in Ai. cbn [v_tr] in Ai. rewrite nth_repeat in Ai. discriminate.
Qed.

Lemma has_slots v c : base v -> has v c <-> exists t, In t (v_tr v) /\ t_active t = true /\ t_client t = c.
Proof.
  intro Hb. split.
  - intros (i & Hi & Ha & Hc). exists (tr v i). split; [|auto]. unfold tr. apply nth_In. rewrite (ba_len _ Hb). exact Hi.
  - intros (t & Hin & Ha & Hc). apply (In_nth _ _ trans_zero) in Hin as (i & Hi & Hn). exists i.
    rewrite (ba_len _ Hb) in Hi. unfold tr. rewrite Hn. auto.
Qed.

Lemma one_per_client id a evs v r :
  id <= 65535 -> Forall sev_ok evs -> server_run P E C (server_init id a) evs = (v, r) ->
  lived (v_trace v) /\
  (forall tr1 tr2, v_trace v = tr1 ++ tr2 -> NoDup (live tr1) /\ (length (live tr1) <= 8)%nat) /\
  length (v_tr v) = 8%nat /\
  (forall c, In c (live (v_trace v)) <-> exists t, In t (v_tr v) /\ t_active t = true /\ t_client t = c) /\
  (forall i j t u, nth_error (v_tr v) i = Some t -> nth_error (v_tr v) j = Some u ->
     t_active t = true -> t_active u = true -> t_client t = t_client u -> i = j).
Proof.
  intros Hid Hev Hr. apply (run_inv P E C LInv) in Hr as [Hb [Hl Hh]]; auto; [|apply LInv_init|apply LInv_micro].
  split; [exact Hl|]. split; [|split; [apply Hb|split]].
  - intros tr1 tr2 Htr. apply lived_bounds. intros x o y ->. eapply (Hl x o (y ++ tr2)). rewrite Htr, <- app_assoc. reflexivity.
  - intro c. rewrite Hh. apply has_slots. exact Hb.
  - intros i j t u Hi Hj Ht Hu Hc.
    assert (Li : (i < 8)%nat) by (rewrite <- (ba_len _ Hb); apply nth_error_Some; congruence).
    assert (Lj : (j < 8)%nat) by (rewrite <- (ba_len _ Hb); apply nth_error_Some; congruence).
    apply (nth_error_nth _ _ trans_zero) in Hi, Hj. apply (ba_uniq _ Hb); unfold tr; rewrite ?Hi, ?Hj; auto.
Qed.

(** Reachable states. *)
Lemma reach_inv (Inv : @srv A -> Prop) v :
  (forall id a, id <= 65535 -> Inv (server_init id a)) ->
  (forall v v' s, base v -> Inv v -> micro P E C false v v' s -> Inv v') ->
  reachable P E C v -> base v /\ Inv v.
Proof.
  intros H0 Hs (id & a & evs & Hid & Hev & Hr). apply run_micros in Hr as [s Hm]; [|apply base_init; exact Hid|exact Hev].
  eapply micros_inv in Hm; [exact Hm|exact Hs|discriminate|apply base_init; exact Hid|apply H0; exact Hid].
Qed.

Lemma step_in v e v' r s : step P E C v e v' r s -> base v /\ micros P E C (match r with None => false | _ => true end) v v' s.
Proof.
  intros (Hre & He & Hst & Htr). destruct (reach_inv (fun _ => True) v) as [Hb _]; auto.
  split; [exact Hb|]. apply step_micros in Hst as [s' Hm]; auto.
  pose proof (micros_trace _ _ _ _ _ _ _ Hm) as Ht. rewrite Htr in Ht. apply app_inv_head in Ht as ->. exact Hm.
Qed.
Lemma step_in_rx v c b fail v' r s : step P E C v (EvRx c b fail) v' r s ->
  base v /\ rx_step P E C v c b fail v' s r.
Proof.
  intros (Hre & He & Hst & Htr). destruct (reach_inv (fun _ => True) v) as [Hb _]; auto.
  split; [exact Hb|]. apply step_rx in Hst as [s' Hm]; auto.
  pose proof (rx_step_micros _ _ _ _ _ _ _ _ _ _ Hb He Hm) as Hms.
  pose proof (micros_trace _ _ _ _ _ _ _ Hms) as Ht. rewrite Htr in Ht. apply app_inv_head in Ht as ->. exact Hm.
Qed.
(** ** Folds that only look at one client *)

(** An invariant of slots: [Q tr t] for every active slot, where [Q] only depends on
    what is observed about its client. *)
Definition slots (Q : list sobs -> trans -> Prop) (v : @srv A) : Prop :=
  forall i, (i < 8)%nat -> t_active (tr v i) = true -> Q (v_trace v) (tr v i).

Definition foreign (c : N) (o : sobs) : Prop := client_of o <> Some c.

Lemma inner_foreign c c' s : c <> c' -> Forall (inner c) s -> Forall (foreign c') s.
Proof.
  intros Hc H. eapply Forall_impl; [|exact H]. intros o Ho. unfold foreign.
  destruct o; cbn in *; try contradiction; congruence.
Qed.

Lemma slots_micro ub (Q : list sobs -> trans -> Prop) v v' s :
  (forall h t s, Q h t -> Forall (foreign (t_client t)) s -> Q (h ++ s) t) ->
  (forall h c now, Q (h ++ [SCreate c; SUse c now]) (fresh_trans c now)) ->
  (forall t d h t' s id a id' a' r, Q h t -> t_active t = true -> t_active t' = true -> bytes_ok d -> lenN d <= 1152 -> id' <= 65535 ->
     rx_run P C t id a d t' s id' a' r -> fine ub r -> Q (h ++ s) t') ->
  (forall t h t' s r, Q h t -> t_active t = true -> t_armed t = true -> t_active t' = true -> tm_run t t' s r -> (ub = true \/ r = Ok tt) -> Q (h ++ s) t') ->
  base v -> slots Q v -> micro P E C ub v v' s -> slots Q v'.
Proof.
  intros Hloc Hnew Hrx Htm Hb HQ Hm j Hj Aj.
  pose proof (micro_kind _ _ _ _ Hm) as Hk.
  assert (Hother : forall i c t' s0 s id' a', (i < 8)%nat -> i <> j -> up E v i t' s id' a' v' ->
     (forall k, (k < 8)%nat -> k <> i -> t_active (tr v k) = true -> t_client (tr v k) <> c) ->
     Forall (inner c) s0 -> (s = s0 \/ s = s0 ++ [SDestroy c] \/ s = SCreate c :: s0) -> Q (v_trace v') (tr v' j)).
  { intros i c t' s0 s1 id' a' Hi Hij Hu Hcl Hs0 Hs. rewrite (up_other _ _ _ _ _ _ _ _ _ Hu Hij) in *.
    rewrite (up_trace _ _ _ _ _ _ _ _ Hu). apply Hloc; [apply HQ; assumption|].
    assert (Hcj : c <> t_client (tr v j)) by (intro; eapply (Hcl j); auto; congruence).
    pose proof (inner_foreign _ _ _ Hcj Hs0) as Hf.
    destruct Hs as [->|[->| ->]]; auto.
    - apply Forall_app. split; [exact Hf|]. constructor; [|constructor]. unfold foreign. cbn. congruence.
    - constructor; [|exact Hf]. unfold foreign. cbn. congruence. }
  destruct Hm as [i v2 Hi Ha Hu|i c now v2 Hi Ha Hn Hu|i v2 Hi Ha Hu|i d t' s' id' a' r v2 Hi Ha Hd Hdl Hid' Hr Hfi Hu|i t' s' r v2 Hi Ha Hm Hr Hfi Hu];
    destruct (Nat.eq_dec i j) as [<-|Hij];
    try (assert (Ht : tr v2 i = trans_zero) by (eapply up_tr; [rewrite (ba_len _ Hb); exact Hi|exact Hu]); rewrite Ht in Aj; discriminate).
  - eapply (Hother i (t_client (tr v i)) _ []); [exact Hi|exact Hij|exact Hu| |constructor|right; left; reflexivity].
    intros k Hk1 Hk2 Hk3 Hk4. apply Hk2. apply (ba_uniq _ Hb); auto.
  - assert (Ht : tr v2 i = fresh_trans c now) by (eapply up_tr; [rewrite (ba_len _ Hb); exact Hi|exact Hu]).
    rewrite Ht, (up_trace _ _ _ _ _ _ _ _ Hu). apply Hnew.
  - eapply (Hother i c _ [SUse c now]); [exact Hi|exact Hij|exact Hu| |inners|right; right; reflexivity].
    intros k Hk1 Hk2 Hk3. apply Hn; assumption.
  - rewrite (up_other _ _ _ _ _ _ _ _ _ Hu Hij) in *. rewrite (up_trace _ _ _ _ _ _ _ _ Hu), app_nil_r. apply HQ; assumption.
  - assert (Ht : tr v2 i = t') by (eapply up_tr; [rewrite (ba_len _ Hb); exact Hi|exact Hu]).
    rewrite Ht in *. rewrite (up_trace _ _ _ _ _ _ _ _ Hu). eapply (Hrx (tr v i) d); [apply HQ|..|exact Hr|exact Hfi]; assumption.
  - destruct (rx_run_tidy _ _ _ _ _ _ _ _ _ Ha Hr) as (s0 & Hs0 & Hs).
    eapply (Hother i (t_client (tr v i)) _ s0); [exact Hi|exact Hij|exact Hu| |exact Hs0|destruct Hs as [(-> & _)|(-> & _)]; auto].
    intros k Hk1 Hk2 Hk3 Hk4. apply Hk2. apply (ba_uniq _ Hb); auto.
  - assert (Ht : tr v2 i = t') by (eapply up_tr; [rewrite (ba_len _ Hb); exact Hi|exact Hu]).
    rewrite Ht in *. rewrite (up_trace _ _ _ _ _ _ _ _ Hu). eapply (Htm (tr v i)); [apply HQ|..|exact Hr|exact Hfi]; assumption.
  - destruct (tm_run_tidy _ _ _ _ Ha Hr) as (s0 & Hs0 & Hs).
    eapply (Hother i (t_client (tr v i)) _ s0); [exact Hi|exact Hij|exact Hu| |exact Hs0|destruct Hs as [(-> & _)|(-> & _)]; auto].
    intros k Hk1 Hk2 Hk3 Hk4. apply Hk2. apply (ba_uniq _ Hb); auto.
Qed.


(** ** What becomes of a transaction that is not destroyed *)

Inductive survive (t : trans) (id : N) (a : A) (m : msg) : trans -> list sobs -> N -> A -> Prop :=
| su_non : match_req t m = true -> m_type m = T_NON -> survive t id a m t [] id a
| su_ack now : match_req t m = true -> m_type m = T_CON -> sepb C m = true ->
    survive t id a m (t_with_last_use t now)
      [SSend (t_client t) (empty_bytes T_ACK (m_id m)) true; SUse (t_client t) now] id a
| su_again b now : match_req t m = true -> m_type m = T_CON -> sepb C m = false ->
    msg_format (t_resp t) MAX_BUF_LEN = Ok b ->
    survive t id a m (t_with_last_use t now) [SSend (t_client t) b true; SUse (t_client t) now] id a
| su_stop : match_resp t m = true -> m_type m = T_ACK \/ m_type m = T_RST ->
    survive t id a m (t_with_armed (t_with_retrans t 0) false) [SStop (t_client t) true] id a
| su_resp t1 s1 t2 s2 a' resp s3 id' i b now q :
    m_type m = T_CON \/ m_type m = T_NON -> m_class m = 0 -> match_req t m = false ->
    acked C (blank t) m t1 s1 -> answered P C t1 a m t2 s2 a' (Ok resp) ->
    ident C m id s3 id' i -> i <= 65535 ->
    msg_format (complete resp i (m_token m) (resp_type C m)) MAX_BUF_LEN = Ok b ->
    resp_type C m <> T_CON -> msg_copy msg_create m = Ok q ->
    survive t id a m (t_with_msgs (t_with_last_use t2 now) q (complete resp i (m_token m) (resp_type C m)))
      (s1 ++ s2 ++ s3 ++ [SSend (t_client t) b true; SUse (t_client t) now]) id' a'
| su_con t1 s1 t2 s2 a' resp s3 id' i b now q rn :
    m_type m = T_CON -> sepb C m = true -> m_class m = 0 -> match_req t m = false ->
    acked C (blank t) m t1 s1 -> answered P C t1 a m t2 s2 a' (Ok resp) ->
    ident C m id s3 id' i -> i <= 65535 ->
    msg_format (complete resp i (m_token m) T_CON) MAX_BUF_LEN = Ok b ->
    msg_copy msg_create m = Ok q ->
    survive t id a m
      (t_with_armed (t_with_timeout (t_with_retrans (t_with_msgs (t_with_last_use t2 now) q
         (complete resp i (m_token m) T_CON)) 0) 2 ((rn mod 1000) * 1000000)) true)
      (s1 ++ s2 ++ s3 ++ [SSend (t_client t) b true; SUse (t_client t) now;
                          SArm (t_client t) 2 ((rn mod 1000) * 1000000) true]) id' a'.

Lemma complete_type resp i tok ty : m_type (complete resp i tok ty) = ty.
Proof. reflexivity. Qed.

Lemma fine_false_ub u : ~ fine false (UB u).
Proof. intros [H|[[x H]|[x H]]]; discriminate. Qed.
Lemma fine_false_bind {B} (r : res B) : (forall x, r <> Ok x) -> (forall e, r <> Err e) -> ~ fine false (let* _ := r in Ok tt).
Proof. intros H1 H2 [H|[[x H]|[x H]]]; [discriminate| |]; destruct r; cbn in H; try discriminate; [eapply H1; eauto|eapply H2; eauto]. Qed.

Lemma msg_run_survive t id a m t' s id' a' r :
  msg_run P C t id a m t' s id' a' r -> t_active t' = true -> fine false r -> survive t id a m t' s id' a'.
Proof.
  intros H Ha Hf.
  destruct H as [Hm Ht|now Hm Ht Hs|e Hm Ht Hs|b now Hm Ht Hs Hb|b Hm Ht Hs Hb|t1 s1 r1 Hm Ht Hs Hb [(-> & -> & ->)|(-> & -> & -> & He)]|Hm Ht|e Hm Ht|Hm|s1 Ht Hc Hm [->|[now ->]]|t1 s1 id1 a1 r1 Ht Hc Hm Hr];
    try discriminate.
  - apply su_non; assumption.
  - apply su_ack; assumption.
  - apply su_again; assumption.
  - exfalso. revert Hf. apply fine_false_bind; [exact Hb|]. intros e Hx. apply (He e). rewrite Hx. reflexivity.
  - apply su_stop; assumption.
  - destruct Hr as [e Hc' Hs|u1 x1 u2 x2 a2 e H1 H2|u1 x1 u2 x2 a2 r2 H1 H2 Hn1 Hn2|u1 x1 u2 x2 a2 resp x3 id2 i u3 x4 r3 H1 H2 H3 Hi2 Hi H4];
      try discriminate.
    { exfalso. revert Hf. apply fine_false_bind; assumption. }
    assert (Hcl : t_client u2 = t_client t).
    { rewrite (core_client _ _ (proj1 (answered_fine _ _ _ _ _ _ _ _ _ H2))). destruct H1; reflexivity. }
    destruct H4 as [e He|r' He Hn1 Hn2|b e He|b now He|b now q He Ht' Hq|b now q rn He Ht' Hq|b now rn e He Ht']; try discriminate.
    + exfalso. revert Hf. apply fine_false_bind; assumption.
    + rewrite complete_type in Ht'. rewrite Hcl. eapply su_resp; eassumption.
    + rewrite complete_type in Ht'. rewrite Hcl. unfold resp_type in Ht', He |- *.
      destruct (N.eqb_spec (m_type m) T_CON) as [Ec|Ec]; [|discriminate Ht'].
      destruct (sepb C m) eqn:Es; [|discriminate Ht']. eapply su_con; eassumption.
Qed.

Lemma rx_run_survive t id a d t' s id' a' r :
  rx_run P C t id a d t' s id' a' r -> t_active t' = true -> fine false r ->
  exists m now s', msg_parse (sc_sg C) (d ++ repeat 0 (N.to_nat (1152 - lenN d))) (lenN d) = Ok m /\ pwf m /\
    s = SRecv (t_client t) d :: SUse (t_client t) now :: s' /\ survive (t_with_last_use t now) id a m t' s' id' a'.
Proof.
  intros [r1 Hp Hn1 Hn2|e s1 Hp Hs|m now t1 s1 id1 a1 r1 Hp W Hr] Ha Hf.
  - exfalso. revert Hf. apply fine_false_bind; assumption.
  - discriminate.
  - exists m, now, s1. split; [exact Hp|]. split; [exact W|]. split; [reflexivity|].
    eapply msg_run_survive; eassumption.
Qed.

(** ** Uses and message IDs *)

Lemma last_use_app c h s : last_use c (h ++ s) = fold_left (last_use_obs c) s (last_use c h).
Proof. apply fold_left_app. Qed.
Lemma last_id_app c h s : last_id c (h ++ s) = fold_left (last_id_obs c) s (last_id c h).
Proof. apply fold_left_app. Qed.

Lemma last_use_foreign c s u : Forall (foreign c) s -> fold_left (last_use_obs c) s u = u.
Proof.
  induction 1 as [|o s Ho Hs IH]; [reflexivity|]. cbn [fold_left].
  replace (last_use_obs c u o) with u; [exact IH|]. unfold foreign in Ho.
  destruct o; cbn in *; try reflexivity; destruct (N.eqb_spec c0 c); congruence.
Qed.
Lemma last_id_foreign c s u : Forall (foreign c) s -> fold_left (last_id_obs c) s u = u.
Proof.
  induction 1 as [|o s Ho Hs IH]; [reflexivity|]. cbn [fold_left].
  replace (last_id_obs c u o) with u; [exact IH|]. unfold foreign in Ho.
  destruct o; cbn in *; try reflexivity; destruct (N.eqb_spec c0 c); cbn [andb]; congruence.
Qed.

(** Observations that are neither receipts, uses, creation nor destruction. *)
Definition mute (o : sobs) : Prop :=
  match o with SRecv _ _ | SUse _ _ | SCreate _ | SDestroy _ => False | _ => True end.
Lemma last_use_mute c s u : Forall mute s -> fold_left (last_use_obs c) s u = u.
Proof. induction 1 as [|o s Ho Hs IH]; [reflexivity|]. cbn [fold_left]. destruct o; cbn; try exact IH; destruct Ho. Qed.
Lemma last_id_mute c s u : Forall mute s -> fold_left (last_id_obs c) s u = u.
Proof. induction 1 as [|o s Ho Hs IH]; [reflexivity|]. cbn [fold_left]. destruct o; cbn; try exact IH; destruct Ho. Qed.

Lemma answered_mute t a m t' l a' r : answered P C t a m t' l a' r -> Forall mute l.
Proof.
  assert (Hb : forall c l, Forall (blk_obs c) l -> Forall mute l).
  { intros c x Hx. eapply Forall_impl; [|exact Hx]. intros o [[b ->]|[b ->]]; exact I. }
  intro H. apply answered_fine in H as (_ & _ & [H|(l' & -> & H)]); [eapply Hb; exact H|].
  constructor; [exact I|eapply Hb; exact H].
Qed.
Lemma ident_mute m id s id' i : ident C m id s id' i -> Forall mute s.
Proof. intros []; repeat constructor. Qed.

Lemma head_id d m past : bytes_ok d -> msg_parse (sc_sg C) (d ++ past) (lenN d) = Ok m ->
  dgram_type d = m_type m /\ dgram_id d = m_id m.
Proof.
  intros Hd Hp. pose proof (parse_head _ _ _ _ Hd Hp) as (H1 & H2 & _).
  split; [exact H1|unfold dgram_id; congruence].
Qed.

(** The request and the response of a transaction. *)
Record SInv (h : list sobs) (t : trans) : Prop := {
  si_use : last_use (t_client t) h = Some (t_last_use t);
  si_id : last_id (t_client t) h = Some (m_id (t_req t));
  si_ver : m_ver (t_req t) = 1 /\ m_ver (t_resp t) = 1;
  si_fmt : exists b, msg_format (t_resp t) MAX_BUF_LEN = Ok b
}.

Lemma SInv_survive h t id a d m now t' s id' a' :
  SInv h t -> bytes_ok d -> msg_parse (sc_sg C) (d ++ repeat 0 (N.to_nat (1152 - lenN d))) (lenN d) = Ok m -> pwf m ->
  survive (t_with_last_use t now) id a m t' s id' a' ->
  SInv (h ++ SRecv (t_client t) d :: SUse (t_client t) now :: s) t'.
Proof.
  intros [Iu Ii [Iv1 Iv2] If] Hd Hp W Hs. destruct (head_id _ _ _ Hd Hp) as [Hty Hid].
  set (c := t_client t) in *.
  assert (Hu0 : forall s, last_use c (h ++ SRecv c d :: SUse c now :: s) = fold_left (last_use_obs c) s (Some now)).
  { intro x. rewrite last_use_app. cbn [fold_left last_use_obs]. rewrite N.eqb_refl. reflexivity. }
  assert (Hi0 : forall s, last_id c (h ++ SRecv c d :: SUse c now :: s) =
    fold_left (last_id_obs c) s (if m_type m <=? 1 then Some (m_id m) else last_id c h)).
  { intro x. rewrite last_id_app. cbn [fold_left last_id_obs]. rewrite N.eqb_refl, Hty, Hid. reflexivity. }
  assert (Hmr : match_req (t_with_last_use t now) m = true -> m_id (t_req t) = m_id m).
  { unfold match_req. intro H. apply andb_true_iff in H as [_ H]. apply N.eqb_eq in H. exact H. }
  assert (Hmt : m_type m = T_CON \/ m_type m = T_NON -> (m_type m <=? 1) = true) by (intros [->| ->]; reflexivity).
  assert (Hresp : forall t1 s1 t2 s2 a1 resp s3 i id1, acked C (blank (t_with_last_use t now)) m t1 s1 ->
     answered P C t1 a m t2 s2 a1 (Ok resp) -> ident C m id s3 id1 i ->
     t_client t2 = c /\ (forall s4, (forall u, fold_left (last_use_obs c) (s1 ++ s2 ++ s3 ++ s4) u =
        fold_left (last_use_obs c) s4 (fold_left (last_use_obs c) s1 u)) /\
       forall u, fold_left (last_id_obs c) (s1 ++ s2 ++ s3 ++ s4) u = fold_left (last_id_obs c) s4 u)).
  { intros t1 s1 t2 s2 a1 resp s3 i id1 H1 H2 H3. split.
    - rewrite (core_client _ _ (proj1 (answered_fine _ _ _ _ _ _ _ _ _ H2))). destruct H1; reflexivity.
    - intro s4. pose proof (answered_mute _ _ _ _ _ _ _ H2) as M2. pose proof (ident_mute _ _ _ _ _ H3) as M3. split; intro u.
      + rewrite !fold_left_app. rewrite (last_use_mute _ _ _ M2), (last_use_mute _ _ _ M3). reflexivity.
      + rewrite !fold_left_app. rewrite (last_id_mute _ _ _ M2), (last_id_mute _ _ _ M3).
        destruct H1; reflexivity. }
  destruct (copy_pwf m W) as (q0 & Hq0 & Hq1 & Hq2).
  destruct Hs as [Hm Ht|now2 Hm Ht Hsep|b now2 Hm Ht Hsep Hb|Hm Ht|t1 s1 t2 s2 a1 resp s3 id1 i b now2 q Ht Hc Hm H1 H2 H3 Hi Hb Hnc Hq|t1 s1 t2 s2 a1 resp s3 id1 i b now2 q rn Ht Hsep Hc Hm H1 H2 H3 Hi Hb Hq].
  - split; cbn [t_client t_with_last_use t_last_use t_req t_resp]; auto.
    + rewrite Hu0. reflexivity.
    + rewrite Hi0, Hmt, (Hmr Hm) by auto. reflexivity.
  - split; cbn [t_client t_with_last_use t_last_use t_req t_resp]; auto.
    + rewrite Hu0. cbn. rewrite N.eqb_refl. reflexivity.
    + rewrite Hi0, Hmt, (Hmr Hm) by auto. reflexivity.
  - split; cbn [t_client t_with_last_use t_last_use t_req t_resp]; auto.
    + rewrite Hu0. cbn. rewrite N.eqb_refl. reflexivity.
    + rewrite Hi0, Hmt, (Hmr Hm) by auto. reflexivity.
  - split; cbn [t_client t_with_last_use t_with_armed t_with_retrans t_last_use t_req t_resp]; auto.
    + rewrite Hu0. reflexivity.
    + rewrite Hi0. replace (m_type m <=? 1) with false by (destruct Ht as [->| ->]; reflexivity). exact Ii.
  - destruct (Hresp _ _ _ _ _ _ _ _ _ H1 H2 H3) as [Hcl Hf]. rewrite Hq0 in Hq. injection Hq as <-.
    split; cbn [t_client t_with_last_use t_with_msgs t_last_use t_req t_resp]; rewrite ?Hcl.
    + rewrite Hu0, (proj1 (Hf _)). cbn. fold c. rewrite N.eqb_refl. reflexivity.
    + rewrite Hi0, (proj2 (Hf _)), Hmt by exact Ht. cbn. congruence.
    + split; [exact Hq2|]. unfold complete. apply (rw_ver _ (proj1 (proj2 (answered_fine _ _ _ _ _ _ _ _ _ H2)) _ eq_refl)).
    + eauto.
  - destruct (Hresp _ _ _ _ _ _ _ _ _ H1 H2 H3) as [Hcl Hf]. rewrite Hq0 in Hq. injection Hq as <-.
    split; cbn [t_client t_with_last_use t_with_msgs t_with_armed t_with_retrans t_with_timeout t_last_use t_req t_resp]; rewrite ?Hcl.
    + rewrite Hu0, (proj1 (Hf _)). cbn. fold c. rewrite N.eqb_refl. reflexivity.
    + rewrite Hi0, (proj2 (Hf _)), Hmt by auto. cbn. congruence.
    + split; [exact Hq2|]. unfold complete. apply (rw_ver _ (proj1 (proj2 (answered_fine _ _ _ _ _ _ _ _ _ H2)) _ eq_refl)).
    + eauto.
Qed.

Lemma SInv_micro v v' s : base v -> slots SInv v -> micro P E C false v v' s -> slots SInv v'.
Proof.
  apply slots_micro.
  - intros h t x [Iu Ii Iv If] Hf. split; auto.
    + rewrite last_use_app, last_use_foreign by exact Hf. exact Iu.
    + rewrite last_id_app, last_id_foreign by exact Hf. exact Ii.
  - intros h c now. split; cbn [fresh_trans t_client t_last_use t_req t_resp]; auto.
    + rewrite last_use_app. cbn. rewrite N.eqb_refl. reflexivity.
    + rewrite last_id_app. cbn. rewrite N.eqb_refl. reflexivity.
    + exists [64; 0; 0; 0]. vm_compute. reflexivity.
  - intros t d h t' x id a id' a' r HI Ha Ha' Hd Hdl Hid Hr Hf.
    apply rx_run_survive in Hr as (m & now & s' & Hp & W & -> & Hs); [|assumption..].
    eapply SInv_survive; eassumption.
  - intros t h t' x r [Iu Ii Iv If] Ha _ Ha' Hr Hf.
    destruct Hr as [Hl|e Hl Hn|Hl|b now Hl Hb|b e Hl Hb|Hl Hb]; try discriminate;
    (split; [rewrite last_use_app; cbn; rewrite ?N.eqb_refl; auto|rewrite last_id_app; cbn; rewrite ?N.eqb_refl; auto|exact Iv|exact If]).
Qed.

Lemma SInv_init id a : slots SInv (server_init id a).
Proof. intros i Hi Ai. unfold tr, server_init in Ai. cbn [v_tr] in Ai. rewrite nth_repeat in Ai. discriminate. Qed.

End App.
