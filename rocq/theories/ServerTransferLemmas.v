(** Blockwise transfers of the server, in the history: what is received by the
    callback, what is served. *)
From Verif Require Import BaseLemmas MsgModel MsgSpec MsgLemmas MsgFormatLemmas MsgBlockLemmas
  ClientModel ClientSpec ClientLemmas ClientReplyLemmas ServerModel ServerSpec ServerLemmas
  ServerTraceLemmas ServerPropLemmas ServerHistLemmas ServerBlockSpec ServerBlockLemmas ServerUploadLemmas.

Lemma format_code m cap b : msg_format m cap = Ok b -> m_class m <= 7 -> m_detail m <= 31 ->
  nth 1 b 0 = 32 * m_class m + m_detail m.
Proof.
  unfold msg_format. intros H Hc Hd. apply bind_ok in H as (_ & _ & H). apply bind_ok in H as (o1 & H1 & H).
  apply bind_ok in H as (o2 & H2 & H). apply bind_ok in H as (o3 & H3 & H).
  unfold format_token in H2. destruct (_ <? _) in H2; [discriminate|]. apply wr_prefix in H2.
  apply format_ops_prefix in H3 as [l3 H3].
  assert (exists l, b = o3 ++ l) as [l4 H4].
  { unfold format_payload in H. destruct (_ =? 0) in H; [exists []; rewrite app_nil_r; congruence|].
    destruct (_ <? _) in H; [discriminate|]. apply wr_prefix in H. eauto. }
  unfold format_hdr in H1. destruct (_ <? _) in H1; [discriminate|]. apply wr_prefix in H1. cbn [List.app] in H1.
  subst. cbn [List.app nth]. change 7 with (N.ones 3) at 1. change 31 with (N.ones 5) at 1. rewrite !N.land_ones.
  rewrite (N.mod_small (m_class m)) by (change (2 ^ 3) with 8; lia).
  rewrite (N.mod_small (m_detail m)) by (change (2 ^ 5) with 32; lia).
  rewrite lor_5 by lia. unfold lo8. lia.
Qed.
Lemma format_class m cap b : msg_format m cap = Ok b -> m_class m <= 7 -> m_detail m <= 31 -> nth 1 b 0 / 32 = m_class m.
Proof. intros H Hc Hd. rewrite (format_code _ _ _ H Hc Hd). lia. Qed.

(** ** The answers in the history *)

Definition still (o : sobs) : Prop := match o with SHandle _ _ | SCall _ _ | SBody _ _ => False | _ => True end.
Definition plain (o : sobs) : Prop := match o with SRecv _ _ | STimer _ => False | _ => True end.

Lemma answers_mono c s st : exists tl, snd (fold_left (answers_obs c) s st) = snd st ++ tl.
Proof.
  revert st. induction s as [|o s IH]; intro st; cbn [fold_left]; [exists []; symmetry; apply app_nil_r|].
  destruct (IH (answers_obs c st o)) as [tl ->]. destruct st as [[i due] bs].
  destruct o; cbn [answers_obs]; try (exists tl; reflexivity).
  - destruct (_ && _); cbn [snd]; [exists (b :: tl); rewrite <- app_assoc; reflexivity|exists tl; reflexivity].
  - destruct (_ =? _); [destruct (_ <=? _)|]; exists tl; reflexivity.
  - destruct (_ =? _); exists tl; reflexivity.
Qed.

Lemma answers_foreign c s st : Forall (foreign c) s -> fold_left (answers_obs c) s st = st.
Proof.
  induction 1 as [|o s Ho Hs IH]; [reflexivity|]. cbn [fold_left].
  replace (answers_obs c st o) with st; [exact IH|]. destruct st as [[i due] bs]. unfold foreign in Ho.
  destruct o; cbn in *; try reflexivity; destruct (N.eqb_spec c0 c); cbn; congruence.
Qed.

(** Nothing is sent. *)
Lemma answers_plain c s i due bs : Forall plain s -> sends s = [] ->
  fold_left (answers_obs c) s (i, due, bs) = (i, due, bs).
Proof.
  intro H. revert i due bs. induction H as [|o s Ho Hs IH]; intros i due bs Hsd; [reflexivity|]. cbn [fold_left].
  destruct o; cbn in Ho, Hsd; try contradiction; try discriminate; cbn; apply IH; exact Hsd.
Qed.

(** One datagram is sent. *)
Lemma answers_one c s b i due bs : Forall plain s -> sends s = [(c, b)] ->
  snd (fold_left (answers_obs c) s (i, due, bs)) = if due && (nth 1 b 0 / 32 =? 2) then bs ++ [b] else bs.
Proof.
  intro H. revert i due bs. induction H as [|o s Ho Hs IH]; intros i due bs Hsd; [discriminate|]. cbn [fold_left].
  destruct o; cbn in Ho, Hsd; try contradiction; cbn [answers_obs]; try (apply IH; exact Hsd).
  injection Hsd as -> -> Hsd. rewrite N.eqb_refl. cbn [andb].
  destruct (due && _); rewrite answers_plain; auto.
Qed.

(** Datagrams of other classes are sent. *)
Lemma answers_class c s i due bs : Forall plain s -> (forall c' b, In (c', b) (sends s) -> nth 1 b 0 / 32 <> 2) ->
  fold_left (answers_obs c) s (i, due, bs) = (i, due, bs).
Proof.
  intro H. revert i due bs. induction H as [|o s Ho Hs IH]; intros i due bs Hsd; [reflexivity|]. cbn [fold_left].
  destruct o; cbn in Ho; try contradiction; cbn [answers_obs]; try (apply IH; exact Hsd).
  cbn [sends] in Hsd. rewrite (proj2 (N.eqb_neq _ _) (Hsd _ _ (or_introl eq_refl))), andb_false_r. apply IH.
  intros c' b' Hin. apply (Hsd c' b'). right. exact Hin.
Qed.
Lemma answers_quiet c s i bs : Forall plain s -> fold_left (answers_obs c) s (i, false, bs) = (i, false, bs).
Proof.
  induction 1 as [|o s Ho Hs IH]; [reflexivity|]. cbn [fold_left].
  destruct o; cbn in Ho; try contradiction; cbn [answers_obs]; try exact IH. rewrite andb_false_r. exact IH.
Qed.

Lemma answers_recv c d i due bs s : fold_left (answers_obs c) (SRecv c d :: s) (i, due, bs) =
  fold_left (answers_obs c) s (if dgram_type d <=? 1 then (dgram_id d, negb (dgram_id d =? i), bs) else (i, false, bs)).
Proof. cbn [fold_left answers_obs]. rewrite N.eqb_refl. reflexivity. Qed.

(** The message ID is that of the last request. *)
Lemma answers_id c s i due bs : Forall (inside c) s ->
  Some (fst (fst (fold_left (answers_obs c) s (i, due, bs)))) = fold_left (last_id_obs c) s (Some i).
Proof.
  intro H. revert i due bs. induction H as [|o s Ho Hs IH]; intros i due bs; [reflexivity|]. cbn [fold_left].
  unfold inside in Ho. destruct o; cbn [boundary] in Ho; cbn [answers_obs last_id_obs]; try apply IH.
  - destruct (_ && _); apply IH.
  - destruct (c0 =? c); cbn [andb]; [destruct (_ <=? _)|]; apply IH.
  - destruct (_ =? _); apply IH.
  - destruct (N.eqb_spec c0 c); [contradiction|]. apply IH.
  - destruct (N.eqb_spec c0 c); [contradiction|]. apply IH.
Qed.

(** ** What a transaction does when a datagram arrives *)

(** What follows the answer [r] to request [m]. *)
Definition reply_tail (C : scfg) (c : N) (m : msg) (r : res msg) (s : list sobs) : Prop :=
  Forall still s /\ Forall plain s /\
  (sends s = [] \/ exists resp i b, r = Ok resp /\ i <= 65535 /\
     msg_format (complete resp i (m_token m) (resp_type C m)) MAX_BUF_LEN = Ok b /\ sends s = [(c, b)]).

Ltac dull := repeat first [apply Forall_nil | apply Forall_cons; [first [exact I|intros []]|]].

Section App.
Context {A : Type} (P : app A) (E : senv) (C : scfg).

(** A new request is answered. *)
Definition anew (t : trans) (a : A) (d : list N) (m : msg) (t1 : trans) (s1 : list sobs) (t2 : trans) (s2 : list sobs) (r2 : res msg)
  (s3 : list sobs) (t' : trans) (s : list sobs) (r : res unit) : Prop :=
  exists now a2, reads C d m /\ pwf m /\ (m_type m = T_CON \/ m_type m = T_NON) /\ m_class m = 0 /\ m_id m <> m_id (t_req t) /\
    acked C (blank (t_with_last_use t now)) m t1 s1 /\ answered P C t1 a m t2 s2 a2 r2 /\
    s = SRecv (t_client t) d :: SUse (t_client t) now :: s1 ++ s2 ++ s3 /\ reply_tail C (t_client t) m r2 s3 /\
    (t_active t' = true -> fine false r ->
       xfer t' = xfer t2 /\ t_client t' = t_client t /\ Forall (inside (t_client t)) s3 /\ sends s3 <> []).

Lemma sent_off_tail t m resp i t' s r : i <= 65535 ->
  sent_off t m (complete resp i (m_token m) (resp_type C m)) t' s r -> reply_tail C (t_client t) m (Ok resp) s.
Proof.
  intros Hi H. destruct H as [e He|r' He H1 H2|b e He|b now He|b now q He Ht Hq|b now q rn He Ht Hq|b now rn e He Ht];
    (split; [dull|split; [dull|]]); auto; right; exists resp, i, b; auto.
Qed.

Lemma reply_tail_app c m r s1 s2 : Forall still s1 -> Forall plain s1 -> sends s1 = [] -> reply_tail C c m r s2 ->
  reply_tail C c m r (s1 ++ s2).
Proof.
  intros H1 H2 H3 (H4 & H5 & H6). split; [apply Forall_app; auto|]. split; [apply Forall_app; auto|].
  rewrite sends_app, H3. exact H6.
Qed.

Lemma rx_run_shape t id a d t' s id' a' r : m_ver (t_req t) = 1 -> bytes_ok d -> lenN d <= 1152 ->
  rx_run P C t id a d t' s id' a' r ->
  (Forall still s /\ forall due bs, snd (fold_left (answers_obs (t_client t)) s (m_id (t_req t), due, bs)) = bs) /\
    (t_active t' = true -> xfer t' = xfer t /\ t_client t' = t_client t /\ Forall (inside (t_client t)) s) \/
  exists m t1 s1 t2 s2 r2 s3, anew t a d m t1 s1 t2 s2 r2 s3 t' s r.
Proof.
  intros Hver Hd Hdl Hr. set (c := t_client t) in *.
  assert (Hplain : forall s, Forall plain s -> (forall c' b, In (c', b) (sends s) -> nth 1 b 0 / 32 <> 2) ->
     forall due bs, snd (fold_left (answers_obs c) (SRecv c d :: s) (m_id (t_req t), due, bs)) = bs).
  { intros x Hx Hc due bs. rewrite answers_recv. destruct (_ <=? _); rewrite answers_class; auto. }
  assert (Hempty : forall c' b ty i, In (c', b) [(c, empty_bytes ty i)] -> nth 1 b 0 / 32 <> 2).
  { intros c' b ty i [Hx|[]]. injection Hx as <- <-. cbn. discriminate. }
  destruct Hr as [r1 Hp Hn1 Hn2|e s1 Hp Hs|m now t1 s1 id1 a1 r1 Hp W Hr].
  - left. split; [split; [dull|]|intros _; split; [reflexivity|split; [reflexivity|dull]]]. apply Hplain; [dull|intros ? ? []].
  - left. split; [|discriminate].
    assert (Hs1 : Forall still s1 /\ Forall plain s1 /\ forall c' b, In (c', b) (sends s1) -> nth 1 b 0 / 32 <> 2).
    { destruct Hs as [(_ & _ & _ & [->|[now ->]])|(_ & ->)]; (split; [dull|split; [dull|]]); cbn [sends]; fold c; eauto; intros ? ? []. }
    destruct Hs1 as (Q1 & Q2 & Q3). split; [constructor; [exact I|]; apply Forall_app; split; [exact Q1|dull]|].
    apply Hplain; [apply Forall_app; split; [exact Q2|dull]|]. intros c' b. rewrite sends_app. cbn [sends]. rewrite app_nil_r. apply Q3.
  - destruct (head_id C _ _ _ Hd Hp) as [Hty Hid].
    assert (Hdup : forall x, match_req (t_with_last_use t now) m = true -> m_type m = T_CON \/ m_type m = T_NON -> Forall still x -> Forall plain x ->
       Forall still (SRecv c d :: SUse c now :: x) /\
       forall due bs, snd (fold_left (answers_obs c) (SRecv c d :: SUse c now :: x) (m_id (t_req t), due, bs)) = bs).
    { intros x Hm Ht X1 X2. split; [dull; exact X1|]. intros due bs. rewrite answers_recv, Hty, Hid.
      assert (He : m_id m = m_id (t_req t)).
      { unfold match_req in Hm. apply andb_true_iff in Hm as [_ Hm]. apply N.eqb_eq in Hm. symmetry. exact Hm. }
      rewrite He, N.eqb_refl. replace (m_type m <=? 1) with true by (destruct Ht as [->| ->]; reflexivity). cbn [negb].
      rewrite answers_quiet; [reflexivity|]. constructor; [exact I|exact X2]. }
    assert (Hoth : forall x, Forall still x -> Forall plain x -> (forall c' b, In (c', b) (sends x) -> nth 1 b 0 / 32 <> 2) ->
       Forall still (SRecv c d :: SUse c now :: x) /\
       forall due bs, snd (fold_left (answers_obs c) (SRecv c d :: SUse c now :: x) (m_id (t_req t), due, bs)) = bs).
    { intros x X1 X2 X3. split; [dull; exact X1|]. apply Hplain; [constructor; [exact I|exact X2]|exact X3]. }
    destruct Hr as [Hm Ht|now2 Hm Ht Hs|e Hm Ht Hs|b now2 Hm Ht Hs Hb|b Hm Ht Hs Hb|t1 s1 r1 Hm Ht Hs Hb [(-> & -> & ->)|(-> & -> & -> & He)]|Hm Ht|e Hm Ht|Hm|s1 Ht Hc Hm [->|[now2 ->]]|t1 s1 id1 a1 r1 Ht Hc Hm Hr].
    1-7: left; (split; [apply Hdup; auto; dull|first [discriminate|intros _; split; [reflexivity|split; [reflexivity|dull]]]]).
    1-5: left; (split; [|first [discriminate|intros _; split; [reflexivity|split; [reflexivity|dull]]]]);
         (apply Hoth; [dull|dull|]; cbn [sends t_client t_with_last_use]; fold c; eauto; intros ? ? []).
    assert (Hne : m_id m <> m_id (t_req t)).
    { unfold match_req in Hm. cbn [t_req t_with_last_use] in Hm. rewrite Hver in Hm. change (negb (1 =? 0)) with true in Hm. cbn [andb] in Hm.
      apply N.eqb_neq in Hm. congruence. }
    destruct Hr as [e Hc' Hs|u1 x1 u2 x2 a2 e H1 H2|u1 x1 u2 x2 a2 r2 H1 H2 Hn1 Hn2|u1 x1 u2 x2 a2 resp x3 id2 i u3 x4 r3 H1 H2 H3 Hi2 Hi H4].
    + left. split; [|discriminate]. apply Hoth; [dull|dull|]; cbn [sends t_client t_with_last_use]; fold c; eauto.
    + right. exists m, u1, x1, u2, x2, (Err e), [SDestroy c], now, a2. split; [split; assumption|].
      do 7 (split; [assumption || reflexivity|]). split; [|discriminate]. split; [dull|]. split; [dull|]. left. reflexivity.
    + right. exists m, u1, x1, u2, x2, r2, [], now, a2. split; [split; assumption|].
      do 6 (split; [assumption|]). split; [rewrite app_nil_r; reflexivity|]. split.
      { split; [dull|]. split; [dull|]. left. reflexivity. }
      intros _ Hf. exfalso. revert Hf. apply fine_false_bind; assumption.
    + right. exists m, u1, x1, u2, x2, (Ok resp), (x3 ++ x4), now, a2. split; [split; assumption|].
      do 7 (split; [assumption || reflexivity|]). fold c.
      assert (Hcl : t_client u2 = c).
      { rewrite (core_client _ _ (proj1 (answered_fine _ _ _ _ _ _ _ _ _ H2))). rewrite (acked_client _ _ _ _ _ H1). reflexivity. }
      split.
      * apply reply_tail_app; [destruct H3; dull|destruct H3; dull|destruct H3; reflexivity|].
        rewrite <- Hcl. eapply sent_off_tail; eassumption.
      * intros Ha Hf. rewrite Forall_app, sends_app. destruct H4 as [e He|r' He Hn1 Hn2| | | | |]; try discriminate.
        1: exfalso; revert Hf; apply fine_false_bind; [exact Hn1|exact Hn2].
        all: (split; [reflexivity|]); (split; [exact Hcl|]); (split; [split; [destruct H3; dull|dull]|]); destruct H3; discriminate.
Qed.

(** ** The body passed to the callback *)

Definition Inv1 (v : @srv A) : Prop := slots SInv v /\ slots (UInv P C) v.
Lemma Inv1_micro v v' s : sc_large C < large -> base v -> Inv1 v -> micro P E C false v v' s -> Inv1 v'.
Proof. intros HL Hb [H1 H2] Hm. split; [eapply SInv_micro; eassumption|eapply UInv_micro; eassumption]. Qed.
Lemma Inv1_init id a : Inv1 (server_init id a).
Proof. split; [apply SInv_init|apply UInv_init]. Qed.

Lemma still_not_call c b s : Forall still s -> ~ In (SCall c b) s.
Proof. intros H Hin. rewrite Forall_forall in H. apply (H _ Hin). Qed.

Lemma method_eq ty d d' : uploading ty -> method_of ty d -> method_of ty d' -> d = d'.
Proof. intros [->| ->]; cbn; congruence. Qed.

Lemma targets t ms : uploading (t_type t) -> (forall m, In m ms -> on_target t m) -> same_target ms.
Proof.
  intros Hu H. exists (match t_type t with TPut1 => 3 | _ => 2 end), (cstr (t_uri t)). intros m Hm. destruct (H m Hm) as [H1 H2].
  split; [|exact H2]. destruct Hu as [Hu|Hu]; rewrite Hu in *; exact H1.
Qed.

Lemma acked_still t m t' s : acked C t m t' s -> Forall still s /\ Forall plain s /\
  (forall c' b, In (c', b) (sends s) -> nth 1 b 0 / 32 <> 2).
Proof.
  intros [H|now H1 H2]; (split; [dull|split; [dull|]]); cbn [sends]; [intros ? ? []|].
  intros c' b [Hx|[]]. injection Hx as <- <-. cbn. discriminate.
Qed.

Lemma split_call c b c' b' (x y u w : list sobs) : x ++ SCall c b :: y = u ++ SCall c' b' :: w ->
  ~ In (SCall c b) u -> ~ In (SCall c b) w -> x = u /\ y = w /\ c = c' /\ b = b'.
Proof.
  revert u. induction x as [|o x IH]; intros [|o' u]; cbn [List.app]; intros H H1 H2.
  - injection H as -> -> ->. auto.
  - injection H as <- _. exfalso. apply H1. left. reflexivity.
  - injection H as -> H. exfalso. apply H2. rewrite <- H. apply in_or_app. right. left. reflexivity.
  - injection H as -> H. destruct (IH _ H) as (-> & -> & -> & ->); auto. intro Hin. apply H1. right. exact Hin.
Qed.

Lemma upload_delivered id a evs v r tr1 c body tr2 : sc_large C < large ->
  id <= 65535 -> Forall sev_ok evs -> server_run P E C (server_init id a) evs = (v, r) ->
  v_trace v = tr1 ++ SCall c body :: tr2 ->
  exists ms size, since_handled C c tr1 ms /\ offered P c ms size /\ consecutive_blocks size 0 ms false /\
    body = concat (map m_payload ms) /\ same_target ms /\ lenN body <= sc_large C.
Proof.
  intros HL Hid Hev Hr Htr.
  destruct (run_locate P E C Inv1 _ _ _ _ _ (Inv1_init id a) (fun v v' s => Inv1_micro v v' s HL) Hid Hev Hr _ _ _ Htr)
    as (v1 & v2 & x1 & y1 & y2 & Hb & [HS HU] & Hm & -> & ->).
  remember (x1 ++ SCall c body :: y1) as sg eqn:Esg.
  assert (Hin : In (SCall c body) sg) by (rewrite Esg; apply in_or_app; right; left; reflexivity).
  destruct Hm as [i v2 Hi Ha Hu|i c' now v2 Hi Ha Hn Hu|i v2 Hi Ha Hu|i d t' s' id' a' r' v2 Hi Ha Hd Hdl Hid' Hx Hfi Hu|i t' s' r' v2 Hi Ha Hm Hx Hfi Hu].
  - exfalso. destruct Hin as [Hin|[]]; discriminate.
  - exfalso. destruct Hin as [Hin|[Hin|[]]]; discriminate.
  - destruct Hin.
  - pose proof (HS i Hi Ha) as HI. pose proof (HU i Hi Ha) as HV. set (t := tr v1 i) in *. set (h := v_trace v1) in *.
    apply rx_run_shape in Hx; [|apply (si_ver _ _ HI)|exact Hd|exact Hdl].
    destruct Hx as [[[Hx _] _]|(m & t1 & s1 & t2 & s2 & r2 & s3 & now & a2 & R & W & Hty & Hcl & Hne & H1 & H2 & -> & Hs3 & _)];
      [exfalso; eapply still_not_call; eassumption|].
    destruct (acked_still _ _ _ _ H1) as (Q1 & _). destruct Hs3 as (Q3 & _).
    destruct (reads_parts _ _ _ Hd R) as (Hv & _ & Hpl).
    assert (Hx1 : xfer t1 = xfer t) by (rewrite (acked_xfer _ _ _ _ _ H1); reflexivity).
    assert (Hc1 : t_client t1 = t_client t) by (rewrite (acked_client _ _ _ _ _ H1); reflexivity).
    assert (Hin2 : In (SCall c body) s2).
    { destruct Hin as [Hin|[Hin|Hin]]; try discriminate. apply in_app_iff in Hin as [Hin|Hin]; [exfalso; eapply still_not_call; [exact Q1|exact Hin]|].
      apply in_app_iff in Hin as [Hin|Hin]; [exact Hin|]. exfalso. eapply still_not_call; [exact Q3|exact Hin]. }
    destruct (acked_quiet C _ _ _ _ (t_client t) H1) as [K1 K2].
    assert (Hrecv : forall x, Forall silent x -> requests C (t_client t) (m_id (t_req t)) (SRecv (t_client t) d :: SUse (t_client t) now :: x)
         (if server_check_options C m =? 0 then [m] else []) (m_id m)).
    { intros x Hsx. assert (Hq : requests C (t_client t) (m_id m) (SUse (t_client t) now :: x) [] (m_id m)).
      { apply requests_silent. constructor; [exact I|exact Hsx]. }
      assert (Ht01 : m_type m <= 1) by (destruct Hty as [->| ->]; vm_compute; discriminate).
      destruct (N.eqb_spec (server_check_options C m) 0) as [Hz|Hz].
      - eapply rs_new; eauto. apply server_options_spec. exact Hz.
      - eapply rs_refused; eauto. intro Hac. apply Hz, server_options_spec. exact Hac. }
    destruct H2 as [Hz|a9 l t9 resp r9 Hz Ht En|a9 e Hz Ht Eh|a9 l Hz Ht Eh|a8 l z1 z2 bd bl rx lg a9 ol t9 resp r9 Hz Ht Eh Eb].
    + destruct Hin2.
    + destruct (type_kinds (t_type t1)) as [?|[Hup|Hsv]]; [contradiction| |].
      2: { exfalso. unfold next_block in En.
           assert (l = []) as -> by (destruct Hsv as [E1|[E1|E1]]; rewrite E1 in En; congruence). destruct Hin2. }
      assert (Hup' : uploading (t_type t)) by (injection Hx1 as X1; rewrite <- X1; exact Hup).
      destruct (HV Hup') as (ms & buf & s0 & S & U & Of).
      assert (U1 : up_state C s0 ms buf t1) by (eapply up_state_xfer; [exact Hx1|exact U]).
      pose proof (next_block1_spec P (v_app v1) t1 buf m msg_create (us_takes _ _ _ _ _ U1) Hv Hpl rwf_create) as Q. rewrite En in Q.
      destruct (up_call P C _ _ _ _ _ _ _ _ _ _ U1 Q Hin2) as (-> & B1 & B2 & B3 & B4 & l' & El & Hl'). cbn [fst snd] in El.
      rewrite Hc1 in *. subst l.
      assert (Hnot : ~ In (SCall (t_client t) body) (l' ++ s3)).
      { intro Hc. apply in_app_iff in Hc as [Hc|Hc]; [|eapply still_not_call; [exact Q3|exact Hc]].
        rewrite Forall_forall in Hl'. destruct (Hl' _ Hc) as [? ?]. discriminate. }
      symmetry in Esg. replace (SRecv (t_client t) d :: SUse (t_client t) now :: s1 ++ (SCall (t_client t) body :: l') ++ s3)
        with ((SRecv (t_client t) d :: SUse (t_client t) now :: s1) ++ SCall (t_client t) body :: (l' ++ s3)) in Esg by reflexivity.
      apply split_call in Esg as (-> & -> & _ & _); [| |exact Hnot].
      2: { intros [Hc|[Hc|Hc]]; try discriminate. eapply still_not_call; [exact Q1|exact Hc]. }
      exists (ms ++ [m]), s0. split; [|split; [apply offered_app; exact Of|split; [exact B1|split; [exact B2|split; [eapply targets; [exact Hup|exact B3]|exact B4]]]]].
      eapply since_at_handled. eapply since_at_app; [exact S| |].
      * specialize (Hrecv s1 K1). rewrite Hz in Hrecv. exact Hrecv.
      * constructor; [intros []|]. constructor; [intros []|exact K2].
    + exfalso. destruct Hin2 as [Hc|[]]. discriminate.
    + exfalso. destruct Hin2 as [Hc|[]]. discriminate.
    + destruct Hin2 as [Hc|Hin2]; [discriminate|].
      pose proof (handle_blockwise_spec P C lg a8 t1 m (msg_build l) z1 z2 bd bl rx HL) as Q. rewrite Eb in Q.
      inversion Q as [t0 e H3|t0 H3|t0 u H3 _ _|u1 buf H3 H4 H5 H6 H7 H8 H9 H10 H11|u1 buf H3 H4 H5 H6 H7 H8 H9]; subst;
        try (destruct Hin2; fail).
      { destruct Hin2 as [Hc|[]]. discriminate. }
      assert (U : up_state C (t_size1 u1) [] buf u1).
      { split; auto; [rewrite H4; constructor|rewrite H4; reflexivity|intros ? []|congruence]. }
      pose proof (next_block1_spec P a8 u1 buf m (msg_build l) H3 Hv Hpl (rwf_build l)) as Q'.
      match goal with Hn : next_block P a8 u1 m _ = _ |- _ => rewrite Hn in Q' end.
      destruct (up_call P C _ _ _ _ _ _ _ _ _ _ U Q' Hin2) as (-> & B1 & B2 & B3 & B4 & l' & El & Hl'). cbn [fst snd] in El. subst ol.
      assert (Hcu : t_client u1 = t_client t) by (rewrite (core_client _ _ H6); exact Hc1). rewrite Hcu, Hc1 in *.
      assert (Hnot : ~ In (SCall (t_client t) body) (l' ++ s3)).
      { intro Hc. apply in_app_iff in Hc as [Hc|Hc]; [|eapply still_not_call; [exact Q3|exact Hc]].
        rewrite Forall_forall in Hl'. destruct (Hl' _ Hc) as [? ?]. discriminate. }
      symmetry in Esg.
      replace (SRecv (t_client t) d :: SUse (t_client t) now :: s1 ++ (SHandle (t_client t) m :: SCall (t_client t) body :: l') ++ s3)
        with ((SRecv (t_client t) d :: SUse (t_client t) now :: s1 ++ [SHandle (t_client t) m]) ++ SCall (t_client t) body :: (l' ++ s3)) in Esg
        by (cbn [List.app]; rewrite <- app_assoc; reflexivity).
      apply split_call in Esg as (-> & -> & _ & _); [| |exact Hnot].
      2: { intros [Hc|[Hc|Hc]]; try discriminate. apply in_app_iff in Hc as [Hc|[Hc|[]]]; [eapply still_not_call; [exact Q1|exact Hc]|discriminate]. }
      exists [m], (t_size1 u1). split; [|split; [exists m, []; do 7 eexists; split; [reflexivity|exact Eh]|split; [exact B1|split; [exact B2|split; [eapply targets; [exact (tb_type _ _ H3)|exact B3]|exact B4]]]]].
      exists (h ++ SRecv (t_client t) d :: SUse (t_client t) now :: s1), m, [], [], (m_id m).
      split; [rewrite <- app_assoc; reflexivity|]. split; [reflexivity|]. split; [constructor|]. intros o [].
  - exfalso. assert (Hno : Forall still s') by (destruct Hx; dull). eapply still_not_call; eassumption.
Qed.

End App.
