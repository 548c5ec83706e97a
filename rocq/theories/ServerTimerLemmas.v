(** The lemmas behind the theorems on the server, third part: message IDs, errors,
    timers. *)
From Verif Require Import BaseLemmas MsgModel MsgSpec MsgLemmas MsgFormatLemmas MsgBlockLemmas
  ClientModel ClientSpec ClientLemmas ClientReplyLemmas ClientPropLemmas ServerModel ServerSpec ServerLemmas
  ServerTraceLemmas ServerPropLemmas ServerHistLemmas.

(** ** Message IDs *)

Lemma consecutive_snoc i l j : consecutive i l -> next_id (last l i) j -> consecutive i (l ++ [j]).
Proof.
  revert i. induction l as [|x l IH]; intros i; cbn [consecutive List.app].
  - intros _ [H1 H2]. auto.
  - intros (H1 & H2 & H3) Hn. split; [exact H1|]. split; [exact H2|]. apply IH; [exact H3|].
    destruct l as [|y l]; [exact Hn|]. replace (last (y :: l) x) with (last (x :: y :: l) i); [exact Hn|].
    cbn [last]. clear. revert y. induction l as [|z l IH]; intro y; [reflexivity|]. apply IH.
Qed.

(** Runs of IDs without 65535 are strictly increasing. *)
Lemma consecutive_app i l1 l2 : consecutive i (l1 ++ l2) -> consecutive (last l1 i) l2.
Proof.
  revert i. induction l1 as [|x l1 IH]; intros i; [auto|]. cbn [consecutive List.app]. intros (_ & _ & H).
  apply IH in H. destruct l1 as [|y l1]; [exact H|]. replace (last (x :: y :: l1) i) with (last (y :: l1) x); [exact H|].
  cbn [last]. clear. revert y. induction l1 as [|z l IH]; intro y; [reflexivity|]. apply IH.
Qed.
Lemma consecutive_prefix i l1 l2 : consecutive i (l1 ++ l2) -> consecutive i l1.
Proof. revert i. induction l1 as [|x l1 IH]; intros i; cbn; [auto|]. intros (H1 & H2 & H3). auto. Qed.

Lemma consecutive_nth i l k : consecutive i l -> (forall j, In j (i :: removelast l) -> j <> 65535) -> i <= 65535 ->
  (k < length l)%nat -> nth k l 0 = i + N.of_nat k + 1.
Proof.
  revert i k. induction l as [|x l IH]; intros i k; cbn [consecutive length]; [lia|].
  intros (H1 & H2 & H3) Hn Hi Hk.
  assert (x = i + 1) as Hx. { assert (i <> 65535) by (apply Hn; left; reflexivity). apply H1. lia. }
  destruct k as [|k]; cbn [nth]; [lia|]. rewrite (IH x); [lia|exact H3| |lia|lia].
  intros j Hj. apply Hn. right. destruct l as [|y l]; [cbn in Hk; lia|]. exact Hj.
Qed.

Lemma consecutive_bound i l : consecutive i l -> Forall (fun j => j <= 65535) l.
Proof. revert i. induction l as [|x l IH]; intros i; cbn; [constructor|]. intros (_ & H & H3). constructor; eauto. Qed.

Lemma increasing_NoDup i l : consecutive i l -> ~ In 65535 l -> i < 65535 -> NoDup l /\ forall j, In j l -> i < j.
Proof.
  revert i. induction l as [|x l IH]; intros i; cbn [consecutive]; [intros _ _ _; split; [constructor|intros j []]|].
  intros (H1 & H2 & H3) Hn Hi. destruct (IH x) as [Hd Hlt]; auto.
  - intro H. apply Hn. right. exact H.
  - assert (x <> 65535) by (intros ->; apply Hn; left; reflexivity). lia.
  - rewrite H1 in * by lia. split; [constructor; [|exact Hd]|].
    + intro H. apply Hlt in H. lia.
    + intros j [<-|H]; [lia|]. apply Hlt in H. lia.
Qed.

Section App.
Context {A : Type} (P : app A) (E : senv) (C : scfg).

Definition ids_of (id : N) (s : list sobs) (id' : N) : Prop :=
  new_ids s = [] /\ id' = id \/ exists j, new_ids s = [j] /\ id' = j /\ next_id id j.

Lemma sent_off_ids t m rm t' s r : sent_off t m rm t' s r -> new_ids s = [].
Proof. intros []; reflexivity. Qed.

Lemma req_run_ids t id a m t' s id' a' r : req_run P C t id a m t' s id' a' r -> ids_of id s id'.
Proof.
  assert (Hack : forall t m t' s, acked C t m t' s -> new_ids s = []) by (intros ? ? ? ? []; reflexivity).
  intros [e Hc' Hs|u1 x1 u2 x2 a2 e H1 H2|u1 x1 u2 x2 a2 r2 H1 H2 Hn1 Hn2|u1 x1 u2 x2 a2 resp x3 id2 i u3 x4 r3 H1 H2 H3 Hi2 Hi H4].
  - left. auto.
  - left. apply answered_quiet in H2 as (_ & Q & _). rewrite !new_ids_app, (Hack _ _ _ _ H1), Q. auto.
  - left. apply answered_quiet in H2 as (_ & Q & _). rewrite !new_ids_app, (Hack _ _ _ _ H1), Q. auto.
  - apply answered_quiet in H2 as (_ & Q & _). unfold ids_of. rewrite !new_ids_app, (Hack _ _ _ _ H1), Q, (sent_off_ids _ _ _ _ _ _ H4).
    cbn [List.app]. rewrite app_nil_r. destruct H3 as [K1 K2|j K1 K2]; [left; auto|]. right. exists j. auto.
Qed.

Lemma rx_run_ids t id a d t' s id' a' r : rx_run P C t id a d t' s id' a' r -> ids_of id s id'.
Proof.
  intros [r1 Hp Hn1 Hn2|e s1 Hp Hs|m now t1 s1 id1 a1 r1 Hp W Hr].
  - left. auto.
  - left. split; [|reflexivity]. cbn [new_ids]. rewrite new_ids_app.
    destruct Hs as [(_ & _ & _ & [->|[now ->]])|(_ & ->)]; reflexivity.
  - unfold ids_of. cbn [new_ids]. fold (ids_of id s1 id1).
    destruct Hr as [Hm Ht|now' Hm Ht Hs|e Hm Ht Hs|b now' Hm Ht Hs Hb|b Hm Ht Hs Hb|t2 s2 r2 Hm Ht Hs Hb [(-> & -> & ->)|(-> & -> & -> & He)]|Hm Ht|e Hm Ht|Hm|s2 Ht Hc Hm [->|[now' ->]]|t2 s2 id2 a2 r2 Ht Hc Hm Hr];
      try (left; split; reflexivity). eapply req_run_ids; exact Hr.
Qed.

Definition NInv (id0 : N) (v : @srv A) : Prop :=
  consecutive id0 (new_ids (v_trace v)) /\ v_id v = last (new_ids (v_trace v)) id0.

Lemma NInv_micro id0 ub v v' s : NInv id0 v -> micro P E C ub v v' s -> NInv id0 v'.
Proof.
  intros [H1 H2] Hm.
  assert (Hids : exists id', ids_of (v_id v) s id' /\ v_id v' = id').
  { destruct Hm as [k v2 Hk Ha Hu|k c' now v2 Hk Ha Hn Hu|k v2 Hk Ha Hu|k d t' s' id' a' r v2 Hk Ha Hdd Hdl Hid' Hx Hfi Hu|k t' s' r v2 Hk Ha Hm Hx Hfi Hu].
    - exists (v_id v). split; [left; auto|eapply up_id; exact Hu].
    - exists (v_id v). split; [left; auto|eapply up_id; exact Hu].
    - exists (v_id v). split; [left; auto|eapply up_id; exact Hu].
    - exists id'. split; [eapply rx_run_ids; exact Hx|eapply up_id; exact Hu].
    - exists (v_id v). split; [left; split; [destruct Hx; reflexivity|reflexivity]|eapply up_id; exact Hu]. }
  destruct Hids as (id' & Hids & Hv). unfold NInv. rewrite (micro_trace _ _ _ _ _ _ _ Hm), new_ids_app, Hv.
  destruct Hids as [(-> & ->)|(j & -> & -> & Hn)].
  - rewrite app_nil_r. auto.
  - split; [apply consecutive_snoc; [exact H1|rewrite <- H2; exact Hn]|]. rewrite last_last. reflexivity.
Qed.

Lemma ids_consecutive id a evs v r :
  id <= 65535 -> Forall sev_ok evs -> server_run P E C (server_init id a) evs = (v, r) ->
  consecutive id (new_ids (v_trace v)).
Proof.
  intros Hid Hev Hr. apply (run_inv P E C (NInv id)) in Hr; auto.
  - apply Hr.
  - split; reflexivity.
  - intros ub v1 v2 s _ HI Hm. eapply NInv_micro; eassumption.
Qed.

(** Where the IDs of confirmable and non-confirmable messages come from. *)
Definition id_known (l : list N) (b : list N) : Prop :=
  dgram_type b = T_CON \/ dgram_type b = T_NON -> b = [64; 0; 0; 0] \/ In (dgram_id b) l.

Fixpoint sok (l : list N) (s : list sobs) : Prop :=
  match s with
  | [] => True
  | SNewId i :: s => sok (l ++ [i]) s
  | SSend _ b _ :: s => id_known l b /\ sok l s
  | _ :: s => sok l s
  end.

Lemma sok_app l s1 s2 : sok l s1 -> sok (l ++ new_ids s1) s2 -> sok l (s1 ++ s2).
Proof.
  revert l. induction s1 as [|o s1 IH]; intros l; cbn [List.app].
  - cbn [new_ids]. rewrite app_nil_r. auto.
  - destruct o; cbn [sok new_ids]; auto.
    + intros [H1 H2] H3. auto.
    + intros H1 H2. apply IH; [exact H1|]. rewrite <- app_assoc. exact H2.
Qed.
Lemma sok_split l s1 c b ok s2 : sok l (s1 ++ SSend c b ok :: s2) -> id_known (l ++ new_ids s1) b.
Proof.
  revert l. induction s1 as [|o s1 IH]; intros l; cbn [List.app].
  - cbn [sok new_ids]. rewrite app_nil_r. tauto.
  - destruct o; cbn [sok new_ids]; auto.
    + intros [_ H]. auto.
    + intro H. apply IH in H. rewrite <- app_assoc in H. exact H.
Qed.
Lemma sok_quiet l s : Forall (fun o => match o with SSend _ _ _ | SNewId _ => False | _ => True end) s -> sok l s.
Proof. intro H. revert l. induction H as [|o s Ho Hs IH]; intro l; [exact I|]. destruct o; cbn; auto; destruct Ho. Qed.

Definition RInv (h : list sobs) (t : trans) : Prop :=
  forall b, msg_format (t_resp t) MAX_BUF_LEN = Ok b -> id_known (new_ids h) b.

Lemma id_known_mono l l' b : id_known l b -> incl l l' -> id_known l' b.
Proof. intros H Hl Hb. destruct (H Hb) as [H1|H1]; auto. Qed.

Lemma empty_known l t i : t = T_ACK \/ t = T_RST -> id_known l (empty_bytes t i).
Proof. intros [->| ->] [H|H]; vm_compute in H; discriminate. Qed.

Lemma answered_sok l t a m t' x a' r : answered P C t a m t' x a' r -> sok l x.
Proof.
  intro H. apply sok_quiet. apply answered_fine in H as (_ & _ & [H|(x' & -> & H)]).
  - eapply Forall_impl; [|exact H]. intros o [[b ->]|[b ->]]; exact I.
  - constructor; [exact I|]. eapply Forall_impl; [|exact H]. intros o [[b ->]|[b ->]]; exact I.
Qed.
Lemma acked_sok l t m t' s : acked C t m t' s -> sok l s.
Proof. intros []; cbn; auto. split; [apply empty_known; auto|exact I]. Qed.

(** The response formatted, given what it is. *)
Lemma response_known l m id s3 id' i resp b :
  ident C m id s3 id' i -> pwf m -> i <= 65535 ->
  msg_format (complete resp i (m_token m) (resp_type C m)) MAX_BUF_LEN = Ok b ->
  id_known (l ++ new_ids s3) b.
Proof.
  intros Hid W Hi Hb Hty.
  assert (Hrt : resp_type C m < 4) by (unfold resp_type; destruct (_ =? _); [destruct (sepb C m)|]; reflexivity).
  apply response_head in Hb as (H1 & H2 & _); auto. right. rewrite H2.
  destruct Hid as [K1 K2|j K1 K2].
  - exfalso. rewrite H1 in Hty. unfold resp_type in Hty. rewrite K1, K2 in Hty. destruct Hty as [H|H]; vm_compute in H; discriminate.
  - apply in_or_app. right. left. reflexivity.
Qed.

Lemma sent_off_sok l t m rm t' s r : sent_off t m rm t' s r -> (forall b, msg_format rm MAX_BUF_LEN = Ok b -> id_known l b) -> sok l s.
Proof.
  intros [e He|r' He Hn1 Hn2|b e He|b now He|b now q He Ht' Hq|b now q rn He Ht' Hq|b now rn e He Ht'] H; cbn; auto.
Qed.

Lemma rx_run_sok h t id a d t' s id' a' r :
  RInv h t -> rx_run P C t id a d t' s id' a' r -> sok (new_ids h) s.
Proof.
  intros HR [r1 Hp Hn1 Hn2|e s1 Hp Hs|m now t1 s1 id1 a1 r1 Hp W Hr].
  - exact I.
  - cbn [sok]. apply sok_app; [|exact I].
    destruct Hs as [(_ & _ & _ & [->|[now ->]])|(_ & ->)]; cbn; auto; split; auto; apply empty_known; auto.
  - cbn [sok].
    destruct Hr as [Hm Ht|now' Hm Ht Hs|e Hm Ht Hs|b now' Hm Ht Hs Hb|b Hm Ht Hs Hb|t2 s2 r2 Hm Ht Hs Hb [(-> & -> & ->)|(-> & -> & -> & He)]|Hm Ht|e Hm Ht|Hm|s2 Ht Hc Hm [->|[now' ->]]|t2 s2 id2 a2 r2 Ht Hc Hm Hr];
      cbn [sok]; auto; try (split; auto; apply empty_known; auto; fail).
    destruct Hr as [e Hc' Hs|u1 x1 u2 x2 a2 e H1 H2|u1 x1 u2 x2 a2 r2 H1 H2 Hn1 Hn2|u1 x1 u2 x2 a2 resp x3 id2 i u3 x4 r3 H1 H2 H3 Hi2 Hi H4].
    + cbn. split; auto. apply empty_known; auto.
    + apply sok_app; [eapply acked_sok; exact H1|]. apply sok_app; [eapply answered_sok; exact H2|]. exact I.
    + apply sok_app; [eapply acked_sok; exact H1|]. eapply answered_sok; exact H2.
    + apply sok_app; [eapply acked_sok; exact H1|]. apply sok_app; [eapply answered_sok; exact H2|].
      apply sok_app; [destruct H3; exact I|]. eapply sent_off_sok; [exact H4|]. intros b Hb. eapply response_known; eauto.
Qed.

Lemma RInv_micro v v' s : base v -> slots RInv v -> micro P E C false v v' s -> slots RInv v'.
Proof.
  apply (slots_micro P E C false RInv).
  - intros h t x H _ b Hb. eapply id_known_mono; [apply (H b Hb)|]. rewrite new_ids_app. intros y Hy. apply in_or_app. auto.
  - intros h c now b Hb. vm_compute in Hb. injection Hb as <-. intros _. left. reflexivity.
  - intros t d h t' x id a id' a' r HR Ha Ha' Hd Hdl Hid Hx Hf.
    apply rx_run_survive in Hx as (m & now & s1 & Hp & W & -> & Hsu); [|exact Ha'|exact Hf].
    assert (Hkeep : forall t', t_resp t' = t_resp t -> RInv (h ++ SRecv (t_client t) d :: SUse (t_client t) now :: s1) t').
    { intros t2 Ht b Hb. rewrite Ht in Hb. eapply id_known_mono; [apply (HR b Hb)|]. rewrite new_ids_app. intros y Hy. apply in_or_app. auto. }
    destruct Hsu as [Hm Htt|nw Hm Htt Hs|b nw Hm Htt Hs Hb|Hm Htt|t1 x1 t2 x2 a2 resp x3 id2 i b nw q Htt Hcl' Hm H1 H2 H3 Hi Hb Hrt Hq|t1 x1 t2 x2 a2 resp x3 id2 i b nw q rn Htt Hse Hcl' Hm H1 H2 H3 Hi Hb Hq];
      try (apply Hkeep; reflexivity); intros b' Hb'; cbn in Hb'.
    + apply (response_known (new_ids h) _ _ _ _ _ _ _ H3 W Hi) in Hb'. eapply id_known_mono; [exact Hb'|].
      rewrite !new_ids_app. cbn [new_ids]. rewrite !new_ids_app. intros y Hy. apply in_or_app. apply in_app_or in Hy as [Hy|Hy]; [auto|].
      right. apply in_or_app. right. apply in_or_app. right. apply in_or_app. left. exact Hy.
    + assert (Hrt : resp_type C m = T_CON) by (unfold resp_type; rewrite Htt, Hse; reflexivity). rewrite <- Hrt in Hb'.
      apply (response_known (new_ids h) _ _ _ _ _ _ _ H3 W Hi) in Hb'. eapply id_known_mono; [exact Hb'|].
      rewrite !new_ids_app. cbn [new_ids]. rewrite !new_ids_app. intros y Hy. apply in_or_app. apply in_app_or in Hy as [Hy|Hy]; [auto|].
      right. apply in_or_app. right. apply in_or_app. right. apply in_or_app. left. exact Hy.
  - intros t h t' x r HR Ha Hm Ha' Hx Hf b Hb. assert (t_resp t' = t_resp t) as Ht by (destruct Hx; try discriminate; reflexivity).
    rewrite Ht in Hb. eapply id_known_mono; [apply (HR b Hb)|]. rewrite new_ids_app. intros y Hy. apply in_or_app. auto.
Qed.

Lemma RInv_init id (a : A) : slots RInv (server_init id a).
Proof. intros i Hi Ha. exfalso. unfold tr, server_init, v_tr, NUM_TRANS in Ha. do 8 (destruct i as [|i]; [discriminate|]). lia. Qed.

Lemma micro_sok ub v v' s : base v -> slots RInv v -> micro P E C ub v v' s -> sok (new_ids (v_trace v)) s.
Proof.
  intros Hb HR [k v2 Hk Ha Hu|k c' now v2 Hk Ha Hn Hu|k v2 Hk Ha Hu|k d t' s' id' a' r v2 Hk Ha Hdd Hdl Hid' Hx Hfi Hu|k t' s' r v2 Hk Ha Hm Hx Hfi Hu];
    try exact I.
  - eapply rx_run_sok; [apply (HR k Hk Ha)|exact Hx].
  - pose proof (HR k Hk Ha) as HR'. destruct Hx; cbn; auto.
Qed.

Lemma ids_origin id a evs v r :
  id <= 65535 -> Forall sev_ok evs -> server_run P E C (server_init id a) evs = (v, r) ->
  forall tr1 c b ok tr2, v_trace v = tr1 ++ SSend c b ok :: tr2 ->
  dgram_type b = T_CON \/ dgram_type b = T_NON -> b = [64; 0; 0; 0] \/ In (dgram_id b) (new_ids tr1).
Proof.
  intros Hid Hev Hr tr1 c b ok tr2 Htr.
  destruct (run_locate P E C (slots RInv) _ _ _ _ _ (RInv_init id a) RInv_micro Hid Hev Hr _ _ _ Htr)
    as (v1 & v2 & x1 & y1 & y2 & Hb & HR & Hm & -> & ->).
  apply micro_sok in Hm; auto. apply sok_split in Hm. rewrite new_ids_app. exact Hm.
Qed.

(** ** Errors *)

Lemma timers_round l (v : @srv A) i v' r :
  base v -> slots SInv v -> (i + length l <= 8)%nat -> server_timers E v i l = (v', r) ->
  exists s, v_trace v' = v_trace v ++ s /\
    (r = Ok tt /\ timer_round false s \/ exists e, r = Err e /\ timer_round true s).
Proof.
  revert v i. induction l as [|x l IH]; intros v i Hb HS Hi; cbn [server_timers].
  - intros [= <- <-]. exists []. rewrite app_nil_r. split; [reflexivity|]. left. split; [reflexivity|constructor].
  - cbn [length] in Hi. destruct (x && t_active (tr v i) && t_armed (tr v i)) eqn:Ec.
    2: { apply IH; auto. lia. }
    apply andb_true_iff in Ec as [Ec Hm]. apply andb_true_iff in Ec as [_ Ha].
    destruct (trans_handle_ack_timeout E _ i) as [v1 r1] eqn:Et.
    apply timeout_spec in Et as (t' & s & Ht & Hu); [|rewrite (ba_len _ Hb); lia].
    assert (Hmi : r1 = Ok tt -> micro P E C false v v1 s).
    { intros ->. eapply (mi_timer P E C false v i t' s); eauto. lia. }
    destruct (si_fmt _ _ (HS i ltac:(lia) Ha)) as [b0 Hb0].
    assert (Hgo : r1 = Ok tt -> (forall bb s', timer_round bb s' -> timer_round bb (s ++ s')) ->
      server_timers E v1 (S i) l = (v', r) ->
      exists s, v_trace v' = v_trace v ++ s /\ (r = Ok tt /\ timer_round false s \/ exists e, r = Err e /\ timer_round true s)).
    { intros Hok Hround Hrest. specialize (Hmi Hok). apply IH in Hrest as (s' & Hs' & Hrr).
      - exists (s ++ s'). rewrite Hs', (micro_trace _ _ _ _ _ _ _ Hmi), app_assoc. split; [reflexivity|].
        destruct Hrr as [(H1 & H2)|(e & H1 & H2)]; [left|right; exists e]; auto.
      - eapply micro_base; eassumption.
      - eapply SInv_micro; eassumption.
      - lia. }
    destruct Ht as [Hrt|e Hrt He|Hrt|b now Hrt Hf|b e Hrt Hf|Hrt Hf].
    + apply Hgo; [reflexivity|]. intros bb s' H. cbn [List.app]. apply tr_end. exact H.
    + intros [= <- <-]. eexists. split; [eapply up_trace; exact Hu|]. right. exists e. split; [reflexivity|]. apply tr_noset.
    + apply Hgo; [reflexivity|]. intros bb s' H. cbn [List.app]. apply tr_noset_end. exact H.
    + apply Hgo; [reflexivity|]. intros bb s' H. cbn [List.app]. apply tr_again. exact H.
    + intros [= <- <-]. eexists. split; [eapply up_trace; exact Hu|]. right. exists e. split; [reflexivity|]. apply tr_nosend.
    + exfalso. eapply Hf. exact Hb0.
Qed.

Lemma step_errors (v : @srv A) e v' r s : step P E C v e v' r s ->
  match e with
  | EvErr x => r = Some (Err x) /\ s = []
  | EvRxErr _ => r = None /\ s = []
  | EvRx _ _ _ => r = None \/ (exists u, r = Some (UB u)) \/ r = Some OutOfFuel
  | EvTimers _ => r = None /\ timer_round false s \/ exists x, r = Some (Err x) /\ timer_round true s
  end.
Proof.
  intros (Hre & Hev & Hs & Htr). apply reach_all in Hre as (Hb & _ & HS & _). destruct e as [e|e|c b fail|l]; cbn [server_step] in Hs.
  - injection Hs as <- <-. split; [reflexivity|]. rewrite <- (app_nil_r (v_trace v)) in Htr at 1. apply app_inv_head in Htr. auto.
  - injection Hs as <- <-. split; [reflexivity|]. rewrite <- (app_nil_r (v_trace v)) in Htr at 1. apply app_inv_head in Htr. auto.
  - destruct (server_exchange _ _ _ _ _ _ _) as [v1 r1]. injection Hs as <- <-. destruct r1; eauto.
  - destruct (server_timers _ _ _ _) as [v1 r1] eqn:Et. injection Hs as <- <-.
    apply timers_round in Et as (s' & Hs' & Hr); auto.
    2: { rewrite firstn_length. unfold NUM_TRANS. lia. }
    assert (s' = s) as -> by (rewrite Hs' in Htr; apply app_inv_head in Htr; exact Htr).
    destruct Hr as [(-> & H)|(x & -> & H)]; eauto.
Qed.
Lemma windows_NoDup l1 : forall i l2 l3, consecutive i (l1 ++ l2 ++ l3) -> ~ In 65535 (removelast l2) -> NoDup l2.
Proof.
  induction l1 as [|j l1 IH]; cbn [List.app]; intros i l2 l3 Hc Hn.
  - clear -Hc Hn. revert i Hc Hn. induction l2 as [|j l2 IH]; intros i Hc Hn; [constructor|].
    cbn [List.app consecutive] in Hc. destruct Hc as (_ & Hj & Hc).
    destruct l2 as [|k l2]; [repeat constructor; intros []|].
    change (removelast (j :: k :: l2)) with (j :: removelast (k :: l2)) in Hn.
    assert (Hj' : j < 65535) by (assert (j <> 65535) by (intros ->; apply Hn; left; reflexivity); lia).
    constructor; [|eapply IH; [exact Hc|intro H; apply Hn; right; exact H]].
    assert (Hgt : forall l i, consecutive i (l ++ l3) -> ~ In 65535 (removelast l) -> i < 65535 -> forall x, In x l -> i < x).
    { clear. induction l as [|y l IH]; intros i Hc Hn Hi x [].
      - subst y. cbn [List.app consecutive] in Hc. destruct Hc as (H1 & _). specialize (H1 Hi). lia.
      - cbn [List.app consecutive] in Hc. destruct Hc as (H1 & H2 & Hc). specialize (H1 Hi).
        destruct l as [|z l]; [destruct H|].
        change (removelast (y :: z :: l)) with (y :: removelast (z :: l)) in Hn.
        assert (y < 65535) by (assert (y <> 65535) by (intros ->; apply Hn; left; reflexivity); lia).
        assert (y < x) by (eapply IH; [exact Hc|intro K; apply Hn; right; exact K|assumption|exact H]). lia. }
    intro Hin. assert (j < j); [|lia]. eapply Hgt; [exact Hc|intro H; apply Hn; right; exact H|exact Hj'|exact Hin].
  - cbn [consecutive] in Hc. destruct Hc as (_ & _ & Hc). eapply IH; [exact Hc|exact Hn].
Qed.

Lemma message_ids id a evs v r :
  id <= 65535 -> Forall sev_ok evs -> server_run P E C (server_init id a) evs = (v, r) ->
  consecutive id (new_ids (v_trace v)) /\
  (forall l1 l2 l3, new_ids (v_trace v) = l1 ++ l2 ++ l3 -> ~ In 65535 (removelast l2) -> NoDup l2) /\
  (forall tr1 c b ok tr2, v_trace v = tr1 ++ SSend c b ok :: tr2 ->
     dgram_type b = T_CON \/ dgram_type b = T_NON -> b = [64; 0; 0; 0] \/ In (dgram_id b) (new_ids tr1)).
Proof.
  intros Hid Hev Hr. pose proof (ids_consecutive id a evs v r Hid Hev Hr) as Hc. split; [exact Hc|]. split.
  - intros l1 l2 l3 El. rewrite El in Hc. eapply windows_NoDup. exact Hc.
  - eapply ids_origin; eassumption.
Qed.

End App.
