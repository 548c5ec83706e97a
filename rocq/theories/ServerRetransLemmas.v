(** The lemmas behind the theorems on the server, fourth part: retransmissions. *)
From Verif Require Import BaseLemmas MsgModel MsgSpec MsgLemmas MsgFormatLemmas MsgBlockLemmas
  ClientModel ClientSpec ClientLemmas ClientReplyLemmas ClientPropLemmas ServerModel ServerSpec ServerLemmas
  ServerTraceLemmas ServerPropLemmas ServerHistLemmas.

(** ** Lists *)

Lemma waits_snoc w k : waits w (S k) = waits w k ++ [2 ^ N.of_nat k * w].
Proof.
  revert w. induction k as [|k IH]; intro w; [cbn [waits List.app]; f_equal; cbn; lia|].
  change (waits w (S (S k))) with (w :: waits (2 * w) (S k)). rewrite IH. cbn [waits List.app]. f_equal. f_equal. f_equal.
  rewrite Nat2N.inj_succ, N.pow_succ_r'. lia.
Qed.

Lemma expiries_app c s1 s2 : expiries c (s1 ++ s2) = (expiries c s1 + expiries c s2)%nat.
Proof. induction s1 as [|o s1 IH]; [reflexivity|]. destruct o; cbn; try exact IH. destruct (_ =? _); rewrite IH; reflexivity. Qed.
Lemma settings_app c s1 s2 : settings c (s1 ++ s2) = settings c s1 ++ settings c s2.
Proof. induction s1 as [|o s1 IH]; [reflexivity|]. destruct o; cbn; try exact IH. destruct (_ =? _); rewrite IH; reflexivity. Qed.

(** Observations that have nothing to do with the timer of [c]. *)
Definition calm (c : N) (o : sobs) : Prop :=
  match o with SArm c' _ _ _ | SStop c' _ | STimer c' | SDestroy c' => c' <> c | SRecv c' d => c' <> c \/ dgram_type d <= 1 | _ => True end.

Lemma calm_nothing c s : Forall (calm c) s ->
  expiries c s = 0%nat /\ settings c s = [] /\ ~ In (SStop c true) s /\ ~ In (SDestroy c) s /\ (forall d, In (SRecv c d) s -> dgram_type d <= 1).
Proof.
  induction 1 as [|o s Ho Hs (I1 & I2 & I3 & I4 & I5)]; [cbn; repeat split; auto; intros d []|].
  split; [|split; [|split; [|split]]].
  - destruct o; cbn in *; auto. rewrite (proj2 (N.eqb_neq _ _) Ho). exact I1.
  - destruct o; cbn in *; auto. rewrite (proj2 (N.eqb_neq _ _) Ho). exact I2.
  - intros [->|H]; [apply Ho; reflexivity|auto].
  - intros [->|H]; [apply Ho; reflexivity|auto].
  - intros d [->|H]; [cbn in Ho; destruct Ho; [congruence|auto]|auto].
Qed.
Lemma foreign_calm c s : Forall (foreign c) s -> Forall (calm c) s.
Proof.
  intro H. eapply Forall_impl; [|exact H]. intros o Ho. unfold foreign in Ho.
  destruct o; cbn in *; auto; try (intros ->; apply Ho; reflexivity). left. intros ->. apply Ho. reflexivity.
Qed.

Lemma awaiting_calm c h h0 b since s : awaiting c h h0 b since -> Forall (calm c) s -> awaiting c (h ++ s) h0 b (since ++ s).
Proof.
  intros (-> & H1 & H2 & H3 & H4) Hs. apply calm_nothing in Hs as (_ & _ & C1 & C2 & C3).
  split; [rewrite <- app_assoc; reflexivity|]. split; [exact H1|].
  split; [intros d Hd; apply in_app_or in Hd as [Hd|Hd]; auto|].
  split; intro H; apply in_app_or in H; tauto.
Qed.

Section App.
Context {A : Type} (P : app A) (E : senv) (C : scfg).

(** The timer of a transaction. *)
Record timed (h : list sobs) (t : trans) (h0 : list sobs) (b : list N) (since : list sobs) (w : N) : Prop := {
  ti_wait : awaiting (t_client t) h h0 b since;
  ti_count : t_retrans t = N.of_nat (expiries (t_client t) since);
  ti_max : (expiries (t_client t) since <= 4)%nat;
  ti_set : settings (t_client t) since = waits w (S (expiries (t_client t) since));
  ti_w : 2000000000 <= w < 3000000000;
  ti_now : 1000000000 * t_sec t + t_nsec t = 2 ^ t_retrans t * w;
  ti_nsec : exists ms, ms < 1000 /\ t_nsec t = ms * 1000000;
  ti_resp : (msg_format (t_resp t) MAX_BUF_LEN = Ok b /\ last_id (t_client t) h0 = Some (m_id (t_req t))) \/
            superseded (t_client t) h0 since
}.

Definition TInv (h : list sobs) (t : trans) : Prop :=
  t_armed t = true -> exists h0 b since w, timed h t h0 b since w.

Definition same_timer (t t' : trans) : Prop :=
  t_client t' = t_client t /\ t_retrans t' = t_retrans t /\ t_sec t' = t_sec t /\ t_nsec t' = t_nsec t.

Lemma timed_calm h t h0 b since w t' s : timed h t h0 b since w -> same_timer t t' -> Forall (calm (t_client t)) s ->
  (t_resp t' = t_resp t /\ t_req t' = t_req t \/ superseded (t_client t) h0 (since ++ s)) ->
  timed (h ++ s) t' h0 b (since ++ s) w.
Proof.
  intros [T1 T2 T3 T4 T5 T6 T7 T8] (E1 & E2 & E3 & E4) Hs Hr.
  pose proof (awaiting_calm _ _ _ _ _ _ T1 Hs) as Haw.
  apply calm_nothing in Hs as (C1 & C2 & _).
  split; rewrite ?E1, ?E2, ?E3, ?E4, ?expiries_app, ?settings_app, ?C1, ?C2, ?Nat.add_0_r, ?app_nil_r; auto.
  destruct Hr as [[-> ->]|Hr]; [|auto]. destruct T8 as [T8|(d & H1 & H2)]; [auto|]. right. exists d.
  split; [apply in_or_app; auto|exact H2].
Qed.

Lemma waits_double t w : 1000000000 * t_sec t + t_nsec t = 2 ^ t_retrans t * w -> 2000000000 <= w < 3000000000 -> t_retrans t < 4 ->
  (exists ms, ms < 1000 /\ t_nsec t = ms * 1000000) ->
  1000000000 * t_sec (trans_double_timeout t) + t_nsec (trans_double_timeout t) = 2 ^ (t_retrans t + 1) * w /\
  exists ms, ms < 1000 /\ t_nsec (trans_double_timeout t) = ms * 1000000.
Proof.
  intros H Hw Hr (ms & Hms & Hn). unfold trans_double_timeout. cbn [t_with_timeout t_sec t_nsec].
  assert (Hp : 2 ^ (t_retrans t + 1) * w = 2 * (1000000000 * t_sec t + t_nsec t)).
  { rewrite H, N.pow_add_r. change (2 ^ 1) with 2. lia. }
  assert (Hb : 2 ^ t_retrans t <= 8).
  { change 8 with (2 ^ 3). apply N.pow_le_mono_r; lia. }
  assert (H8 : 2 ^ t_retrans t * w <= 8 * w) by (apply N.mul_le_mono_r; exact Hb).
  rewrite Hp. rewrite Hn in *. rewrite N.div_mul by lia.
  assert (Hs : t_sec t * 1000 + ms < 24000) by lia.
  unfold two32. rewrite (N.mod_small (2 * (t_sec t * 1000 + ms))) by lia.
  split; [|exists ((2 * (t_sec t * 1000 + ms)) mod 1000); split; lia]. lia.
Qed.

Lemma blk_calm c c' l : Forall (blk_obs c) l -> Forall (calm c') l.
Proof. intro H. eapply Forall_impl; [|exact H]. intros o [[b ->]|[b ->]]; exact I. Qed.
Lemma answered_calm c t a m t' l a' r : answered P C t a m t' l a' r -> Forall (calm c) l.
Proof.
  intro H. apply answered_fine in H as (_ & _ & [H|(l' & -> & H)]); [eapply blk_calm; exact H|].
  constructor; [exact I|eapply blk_calm; exact H].
Qed.
Lemma acked_calm c t m t' s : acked C t m t' s -> Forall (calm c) s.
Proof. intros []; repeat constructor. Qed.
Lemma ident_calm c m id s id' i : ident C m id s id' i -> Forall (calm c) s.
Proof. intros []; repeat constructor. Qed.
Lemma ident_mute' m id s id' i : ident C m id s id' i -> Forall mute s.
Proof. apply ident_mute. Qed.

Lemma core_timer t t' : core t' = core t -> same_timer t t' /\ t_armed t' = t_armed t.
Proof. unfold core, same_timer. intro H. injection H as H1 H2 H3 H4 H5 H6 H7 H8 H9. rewrite H3, H4, H5, H6, H7. auto. Qed.
Lemma acked_timer t m t' s : acked C t m t' s -> same_timer t t' /\ t_armed t' = t_armed t.
Proof. intros []; unfold same_timer; auto 10. Qed.

(** What acknowledges and answers leave alone. *)
Lemma last_id_quiet c s u : Forall (fun o => match o with SRecv _ _ | SCreate _ | SDestroy _ => False | _ => True end) s ->
  fold_left (last_id_obs c) s u = u.
Proof. induction 1 as [|o s Ho Hs IH]; [reflexivity|]. cbn [fold_left]. destruct o; try destruct Ho; exact IH. Qed.

Lemma TInv_survive h t id a d m now t' s id' a' :
  SInv h t -> TInv h t -> t_active t = true -> bytes_ok d ->
  msg_parse (sc_sg C) (d ++ repeat 0 (N.to_nat (1152 - lenN d))) (lenN d) = Ok m -> pwf m ->
  survive P C (t_with_last_use t now) id a m t' s id' a' ->
  TInv (h ++ SRecv (t_client t) d :: SUse (t_client t) now :: s) t'.
Proof.
  intros HI HT Ha Hd Hp W Hsu Har. pose proof (head_id C _ _ _ Hd Hp) as [Ety Eid].
  set (c := t_client t) in *.
  assert (Hlow : m_type m = T_CON \/ m_type m = T_NON -> dgram_type d <= 1) by (intros [H|H]; rewrite Ety, H; unfold T_CON, T_NON; lia).
  assert (Hkeep : forall x, dgram_type d <= 1 -> Forall (calm c) x -> t_armed t = true -> same_timer t t' ->
     t_resp t' = t_resp t /\ t_req t' = t_req t \/ dgram_id d <> m_id (t_req t) ->
     exists h0 b since w, timed (h ++ SRecv c d :: SUse c now :: x) t' h0 b since w).
  { intros x Hty Hx Hta Hsame Hw. destruct (HT Hta) as (h0 & b & since & w & T).
    exists h0, b, (since ++ SRecv c d :: SUse c now :: x), w. apply (timed_calm h t); auto.
    - constructor; [right; exact Hty|]. constructor; [exact I|exact Hx].
    - destruct Hw as [Hw|Hw]; [left; exact Hw|]. right. fold c.
      destruct (ti_resp _ _ _ _ _ _ T) as [(_ & Hl)|(d' & H1 & H2)].
      + exists d. split; [apply in_or_app; right; left; reflexivity|]. split; [exact Hty|]. fold c in Hl. rewrite Hl. congruence.
      + exists d'. split; [apply in_or_app; left; exact H1|exact H2]. }
  destruct Hsu as [Hm Htt|nw Hm Htt Hs|b nw Hm Htt Hs Hb|Hm Htt|t1 x1 t2 x2 a2 resp x3 id2 i b nw q Htt Hcl' Hm H1 H2 H3 Hi Hb Hrt Hq|t1 x1 t2 x2 a2 resp x3 id2 i b nw q rn Htt Hse Hcl' Hm H1 H2 H3 Hi Hb Hq];
    cbn in Har.
  - apply Hkeep; auto; unfold same_timer; auto 10.
  - apply Hkeep; auto; try (repeat constructor; fail); unfold same_timer; auto 10.
  - apply Hkeep; auto; try (repeat constructor; fail); unfold same_timer; auto 10.
  - discriminate.
  - assert (Hne : dgram_id d <> m_id (t_req t)).
    { unfold match_req in Hm. cbn [t_with_last_use t_req] in Hm. rewrite (proj1 (si_ver _ _ HI)) in Hm.
      change (negb (1 =? 0)) with true in Hm. cbn [andb] in Hm. apply N.eqb_neq in Hm. congruence. }
    destruct (acked_timer _ _ _ _ H1) as [(S1 & S2 & S3 & S4) S5].
    pose proof (answered_fine _ _ _ _ _ _ _ _ _ H2) as (Hcore & _). apply core_timer in Hcore as [(Z1 & Z2 & Z3 & Z4) Z5].
    cbn [blank t_with_msgs t_with_last_use t_client t_retrans t_sec t_nsec t_armed] in *.
    apply Hkeep; auto.
    + apply Forall_app. split; [eapply acked_calm; exact H1|]. apply Forall_app. split; [eapply answered_calm; exact H2|].
      apply Forall_app. split; [eapply ident_calm; exact H3|]. repeat constructor.
    + congruence.
    + unfold same_timer. cbn [t_with_msgs t_with_last_use t_client t_retrans t_sec t_nsec]. repeat split; congruence.
  - destruct (acked_timer _ _ _ _ H1) as [(S1 & S2 & S3 & S4) S5].
    pose proof (answered_fine _ _ _ _ _ _ _ _ _ H2) as (Hcore & _). apply core_timer in Hcore as [(Z1 & Z2 & Z3 & Z4) Z5].
    cbn [blank t_with_msgs t_with_last_use t_client t_retrans t_sec t_nsec t_armed] in *.
    assert (Hc2 : t_client t2 = c) by (unfold c; congruence).
    set (w := 1000000000 * 2 + (rn mod 1000) * 1000000).
    exists (h ++ SRecv c d :: SUse c now :: x1 ++ x2 ++ x3), b, [SUse c nw; SArm c 2 ((rn mod 1000) * 1000000) true], w.
    pose proof (copy_pwf _ W) as (q' & Hq' & Hqi & _). rewrite Hq in Hq'. injection Hq' as <-.
    change (t_client (t_with_last_use t now)) with c.
    split; cbn [t_with_armed t_with_timeout t_with_retrans t_with_msgs t_with_last_use t_client t_retrans t_sec t_nsec t_resp t_req]; rewrite ?Hc2.
    + split; [rewrite <- !app_assoc; cbn [List.app]; rewrite <- !app_assoc; reflexivity|].
      split; [apply response_head in Hb; auto; [tauto|reflexivity]|].
      split; [intros d' [H|[H|[]]]; discriminate|]. split; intros [H|[H|[]]]; discriminate.
    + cbn. reflexivity.
    + cbn. lia.
    + cbn [expiries settings waits]. rewrite N.eqb_refl. reflexivity.
    + unfold w. pose proof (N.mod_upper_bound rn 1000). lia.
    + change (2 ^ 0) with 1. unfold w. lia.
    + exists (rn mod 1000). split; [apply N.mod_upper_bound; lia|reflexivity].
    + left. split; [exact Hb|]. rewrite last_id_app. cbn [fold_left last_id_obs].
      rewrite N.eqb_refl, (proj2 (N.leb_le _ _) (Hlow (or_introl Htt))). cbn [andb].
      rewrite Hqi, Eid. apply last_id_quiet. apply Forall_app. split; [destruct H1; repeat constructor|].
      apply Forall_app. split; [|destruct H3; repeat constructor].
      apply answered_mute in H2. eapply Forall_impl; [|exact H2]. intros o Ho. destruct o; auto.
Qed.

Definition STInv (h : list sobs) (t : trans) : Prop := SInv h t /\ TInv h t.

Lemma TInv_micro v v' s : base v -> slots SInv v -> slots TInv v -> micro P E C false v v' s -> slots TInv v'.
Proof.
  intros Hb HS HT Hm.
  assert (HST : slots STInv v) by (intros i Hi Ha; split; auto).
  assert (HST' : slots STInv v'); [|intros i Hi Ha; apply (HST' i Hi Ha)].
  revert Hb HST Hm. apply (slots_micro P E C false STInv).
  - intros h t x [H1 H2] Hf. split.
    + destruct H1 as [I1 I2 I3 I4]. split; auto.
      * rewrite last_use_app, last_use_foreign; auto.
      * rewrite last_id_app, last_id_foreign; auto.
    + intro Ha. destruct (H2 Ha) as (h0 & b & since & w & T). exists h0, b, (since ++ x), w.
      apply (timed_calm h t); auto; [unfold same_timer; auto|]. apply foreign_calm. exact Hf.
  - intros h c now. split.
    + split; cbn [fresh_trans t_client t_last_use t_req t_resp].
      * rewrite last_use_app. cbn. rewrite N.eqb_refl. reflexivity.
      * rewrite last_id_app. cbn. rewrite N.eqb_refl. reflexivity.
      * auto.
      * eexists. vm_compute. reflexivity.
    + intro Ha. discriminate.
  - intros t d h t' x id a id' a' r [H1 H2] Ha Ha' Hd Hdl Hid Hx Hf.
    apply rx_run_survive in Hx as (m & now & s1 & Hp & W & -> & Hsu); [|exact Ha'|exact Hf].
    split; [eapply SInv_survive; eassumption|eapply TInv_survive; eassumption].
  - intros t h t' x r [H1 H2] Ha Har Ha' Hx Hf. destruct Hf as [Hf|Hf]; [discriminate|].
    destruct Hx as [Hrt|e Hrt He|Hrt|b now Hrt Hfm|b e Hrt Hfm|Hrt Hfm]; try discriminate.
    + split.
      * destruct H1 as [I1 I2 I3 I4]. split; cbn [t_with_last_use t_with_retrans t_with_armed trans_double_timeout t_with_timeout t_client t_last_use t_req t_resp]; auto.
        -- rewrite last_use_app. cbn. rewrite N.eqb_refl. reflexivity.
        -- rewrite last_id_app. exact I2.
      * intros _. destruct (H2 Har) as (h0 & b0 & since & w & [T1 T2 T3 T4 T5 T6 T7 T8]).
        destruct (waits_double t w T6 T5 Hrt T7) as [D1 D2].
        set (c := t_client t) in *. set (dt := trans_double_timeout t) in *.
        exists h0, b0, (since ++ [STimer c; SArm c (t_sec dt) (t_nsec dt) true; SSend c b true; SUse c now]), w.
        assert (Hex : expiries c (since ++ [STimer c; SArm c (t_sec dt) (t_nsec dt) true; SSend c b true; SUse c now]) = S (expiries c since)).
        { rewrite expiries_app. cbn. rewrite N.eqb_refl. lia. }
        split; change (t_client (t_with_last_use (t_with_retrans (t_with_armed dt true) (t_retrans t + 1)) now)) with c;
          cbn [t_with_last_use t_with_retrans t_with_armed t_retrans t_sec t_nsec t_resp t_req]; rewrite ?Hex.
        -- destruct T1 as (-> & W1 & W2 & W3 & W4). split; [rewrite <- app_assoc; reflexivity|]. split; [exact W1|].
           split; [intros d Hd; apply in_app_or in Hd as [Hd|[Hd|[Hd|[Hd|[Hd|[]]]]]]; try discriminate; auto|].
           split; intro Hin; apply in_app_or in Hin as [Hin|[Hin|[Hin|[Hin|[Hin|[]]]]]]; try discriminate; auto.
        -- lia.
        -- lia.
        -- rewrite settings_app. cbn [settings]. rewrite N.eqb_refl. rewrite T4, (waits_snoc w (S (expiries c since))). f_equal. f_equal.
           rewrite D1. f_equal. f_equal. lia.
        -- exact T5.
        -- exact D1.
        -- exact D2.
        -- destruct T8 as [T8|(d & K1 & K2)]; [left; exact T8|]. right. exists d. split; [apply in_or_app; auto|exact K2].
    + exfalso. apply bind_ok in Hf as (b & Hb & _). exact (Hfm b Hb).
Qed.

Lemma TInv_init id (a : A) : slots TInv (server_init id a).
Proof. intros i Hi Ha. exfalso. unfold tr, server_init, v_tr, NUM_TRANS in Ha. do 8 (destruct i as [|i]; [discriminate|]). lia. Qed.

(** ** What makes the server act *)

Definition unprompted (o : sobs) : Prop := match o with SRecv _ _ | STimer _ => False | _ => True end.

Ltac unp := repeat (first [apply Forall_nil | apply Forall_cons; [exact I|]]).

Lemma answered_unprompted t a m t' l a' r : answered P C t a m t' l a' r -> Forall unprompted l.
Proof.
  intro H. apply answered_fine in H as (_ & _ & [H|(l' & -> & H)]); [|constructor; [exact I|]];
    (eapply Forall_impl; [|exact H]; intros o [[b ->]|[b ->]]; exact I).
Qed.

Lemma rx_run_unprompted t id a d t' s id' a' r : rx_run P C t id a d t' s id' a' r ->
  exists s', s = SRecv (t_client t) d :: s' /\ Forall unprompted s'.
Proof.
  intros [r1 Hp _ _|e s1 Hp Hs|m now t1 s1 id1 a1 r1 Hp W Hm].
  - eexists. split; [reflexivity|]. unp.
  - eexists. split; [reflexivity|]. apply Forall_app. split; [|unp].
    destruct Hs as [(_ & _ & _ & [->|[now ->]])|(_ & ->)]; unp.
  - eexists. split; [reflexivity|]. constructor; [exact I|].
    destruct Hm as [Hm Ht|nw Hm Ht Hs|e Hm Ht Hs|b nw Hm Ht Hs Hb|b Hm Ht Hs Hb|t1 s1 r1 Hm Ht Hs Hb [(-> & -> & ->)|(-> & -> & -> & He)]|Hm Ht|e Hm Ht|Hm|s1 Ht Hc Hm [->|[nw ->]]|t1 s1 id1 a1 r1 Ht Hc Hm Hr];
      try (unp; fail).
    destruct Hr as [e Hc' Hs|u1 x1 u2 x2 a2 e H1 H2|u1 x1 u2 x2 a2 r2 H1 H2 Hn1 Hn2|u1 x1 u2 x2 a2 resp x3 id2 i u3 x4 r3 H1 H2 H3 Hi2 Hi H4].
    + unp.
    + apply Forall_app. split; [destruct H1; unp|]. apply Forall_app. split; [eapply answered_unprompted; exact H2|unp].
    + apply Forall_app. split; [destruct H1; unp|eapply answered_unprompted; exact H2].
    + apply Forall_app. split; [destruct H1; unp|]. apply Forall_app. split; [eapply answered_unprompted; exact H2|].
      apply Forall_app. split; [destruct H3; unp|destruct H4; unp].
Qed.

Lemma forall_mid (Q : sobs -> Prop) x o y : Forall Q (x ++ o :: y) -> Q o.
Proof. intro H. apply Forall_app in H as [_ H]. inversion H; subst. assumption. Qed.

(** Every expiry of a timer. *)
Lemma retransmission id a evs v r :
  id <= 65535 -> Forall sev_ok evs -> server_run P E C (server_init id a) evs = (v, r) ->
  forall h1 c h2, v_trace v = h1 ++ STimer c :: h2 ->
  exists h0 b since w,
    awaiting c h1 h0 b since /\ (expiries c since <= 4)%nat /\
    2000000000 <= w < 3000000000 /\ settings c since = waits w (S (expiries c since)) /\
    (expiries c since = 4%nat -> exists h3, h2 = SDestroy c :: h3) /\
    ((expiries c since < 4)%nat ->
     exists sec nsec ok h3, h2 = SArm c sec nsec ok :: h3 /\
       1000000000 * sec + nsec = 2 ^ N.of_nat (S (expiries c since)) * w /\
       (ok = true -> exists b' ok' h4, h3 = SSend c b' ok' :: h4 /\ (b' = b \/ superseded c h0 since))).
Proof.
  intros Hid Hev Hr h1 c h2 Htr.
  assert (Hmi : forall v v' s, base v -> slots SInv v /\ slots TInv v -> micro P E C false v v' s -> slots SInv v' /\ slots TInv v').
  { intros w1 w2 s Hb [H1 H2] Hm. split; [eapply SInv_micro; eassumption|eapply TInv_micro; eassumption]. }
  destruct (run_locate P E C (fun v => slots SInv v /\ slots TInv v) id a evs v r (conj (SInv_init id a) (TInv_init id a)) Hmi Hid Hev Hr _ _ _ Htr)
    as (v1 & v2 & x1 & y1 & y2 & Hb & [HS HT] & Hm & -> & ->).
  remember (x1 ++ STimer c :: y1) as sg eqn:Esg.
  destruct Hm as [i v2 Hi Ha Hu|i c' now v2 Hi Ha Hn Hu|i v2 Hi Ha Hu|i d t' s' id' a' r' v2 Hi Ha Hd Hdl Hid' Hx Hfi Hu|i t' s' r' v2 Hi Ha Hm Hx Hfi Hu].
  - exfalso. destruct x1 as [|? [|]]; discriminate.
  - exfalso. destruct x1 as [|? [|? [|]]]; discriminate.
  - exfalso. destruct x1; discriminate.
  - exfalso. apply rx_run_unprompted in Hx as (s1 & -> & Hf). destruct x1 as [|o x1]; [discriminate|].
    injection Esg as _ ->. apply forall_mid in Hf. exact Hf.
  - destruct (HT i Hi Ha Hm) as (h0 & b & since & w & T). destruct (si_fmt _ _ (HS i Hi Ha)) as [bb Hbb].
    assert (Hx1 : x1 = [] /\ c = t_client (tr v1 i)).
    { destruct x1 as [|o x1]; [|exfalso].
      - split; [reflexivity|]. destruct Hx; injection Esg; auto.
      - assert (Hf : Forall unprompted (x1 ++ STimer c :: y1)) by (destruct Hx; injection Esg as _ <-; unp).
        apply forall_mid in Hf. exact Hf. }
    destruct Hx1 as [-> ->]. rewrite app_nil_r. cbn [List.app] in Esg.
    exists h0, b, since, w. set (t := tr v1 i) in *. set (c := t_client t) in *.
    pose proof (ti_count _ _ _ _ _ _ T) as Hc. fold c in Hc.
    split; [exact (ti_wait _ _ _ _ _ _ T)|]. split; [exact (ti_max _ _ _ _ _ _ T)|].
    split; [exact (ti_w _ _ _ _ _ _ T)|]. split; [exact (ti_set _ _ _ _ _ _ T)|].
    pose proof (fun Hrt => waits_double t w (ti_now _ _ _ _ _ _ T) (ti_w _ _ _ _ _ _ T) Hrt (ti_nsec _ _ _ _ _ _ T)) as Hd.
    assert (Hp : t_retrans t + 1 = N.of_nat (S (expiries c since))) by lia. rewrite Hp in Hd.
    destruct Hx as [Hrt|e Hrt He|Hrt|b0 now Hrt Hfm|b0 e Hrt Hfm|Hrt Hfm]; injection Esg as <-; (split; intro Hk; [try lia|try lia]).
    + eexists. reflexivity.
    + eexists _, _, _, _. split; [reflexivity|]. split; [apply Hd; exact Hrt|discriminate].
    + eexists _, _, _, _. split; [reflexivity|]. split; [apply Hd; exact Hrt|discriminate].
    + eexists _, _, _, _. split; [reflexivity|]. split; [apply Hd; exact Hrt|]. intros _. eexists _, _, _. split; [reflexivity|].
      destruct (ti_resp _ _ _ _ _ _ T) as [(H1 & _)|H1]; [left; congruence|right; exact H1].
    + eexists _, _, _, _. split; [reflexivity|]. split; [apply Hd; exact Hrt|]. intros _. eexists _, _, _. split; [reflexivity|].
      destruct (ti_resp _ _ _ _ _ _ T) as [(H1 & _)|H1]; [left; congruence|right; exact H1].
    + exfalso. exact (Hfm _ Hbb).
Qed.

(** Everything the server sends to a client follows a message or an expiry of a timer of this client. *)
Lemma prompted id a evs v r :
  id <= 65535 -> Forall sev_ok evs -> server_run P E C (server_init id a) evs = (v, r) ->
  forall h1 c b ok h2, v_trace v = h1 ++ SSend c b ok :: h2 ->
  exists h0 o mid, h1 = h0 ++ o :: mid /\ (o = STimer c \/ exists d, o = SRecv c d) /\ Forall unprompted mid.
Proof.
  intros Hid Hev Hr h1 c b ok h2 Htr.
  destruct (run_locate P E C (fun _ => True) id a evs v r I (fun _ _ _ _ _ _ => I) Hid Hev Hr _ _ _ Htr)
    as (v1 & v2 & x1 & y1 & y2 & Hb & _ & Hm & -> & ->).
  remember (x1 ++ SSend c b ok :: y1) as sg eqn:Esg.
  assert (Hgo : forall o s, sg = o :: s -> (exists t, o = STimer t \/ exists d, o = SRecv t d) -> Forall unprompted s ->
    (forall b' ok', In (SSend c b' ok') s -> o = STimer c \/ exists d, o = SRecv c d) ->
    exists h0 o mid, v_trace v1 ++ x1 = h0 ++ o :: mid /\ (o = STimer c \/ exists d, o = SRecv c d) /\ Forall unprompted mid).
  { intros o s -> Ho Hs Hc. destruct x1 as [|o' x1].
    - exfalso. injection Esg as -> _. destruct Ho as [t [Ho|[d Ho]]]; discriminate.
    - injection Esg as -> ->. exists (v_trace v1), o', x1. split; [reflexivity|]. split.
      + eapply Hc. apply in_or_app. right. left. reflexivity.
      + apply Forall_app in Hs. tauto. }
  destruct Hm as [i v2 Hi Ha Hu|i c' now v2 Hi Ha Hn Hu|i v2 Hi Ha Hu|i d t' s' id' a' r' v2 Hi Ha Hd Hdl Hid' Hx Hfi Hu|i t' s' r' v2 Hi Ha Hm Hx Hfi Hu].
  - exfalso. destruct x1 as [|? [|]]; discriminate.
  - exfalso. destruct x1 as [|? [|? [|]]]; discriminate.
  - exfalso. destruct x1; discriminate.
  - pose proof (rx_run_tidy P C _ _ _ _ _ _ _ _ _ Ha Hx) as (s0 & Hs0 & Hs).
    apply rx_run_unprompted in Hx as (s1 & -> & Hf). eapply Hgo; [reflexivity|exists (t_client (tr v1 i)); right; eexists; reflexivity|exact Hf|].
    intros b' ok' Hin. right. exists d. f_equal.
    assert (Hin0 : In (SSend c b' ok') s0).
    { destruct Hs as [(<- & _)|(Hs & _)]; [right; exact Hin|].
      assert (H : In (SSend c b' ok') (SRecv (t_client (tr v1 i)) d :: s1)) by (right; exact Hin).
      rewrite Hs in H. apply in_app_or in H as [H|[H|[]]]; [exact H|discriminate]. }
    rewrite Forall_forall in Hs0. specialize (Hs0 _ Hin0). cbn in Hs0. congruence.
  - destruct Hx; (eapply Hgo; [reflexivity|eexists; left; reflexivity|unp|]);
      intros b' ok' Hin; cbn in Hin; repeat (destruct Hin as [Hin|Hin]; try discriminate; try (injection Hin as -> _ _; left; reflexivity)); destruct Hin.
Qed.
End App.
