(** The lemmas behind the theorems on the server, second part: the handler, repeated
    requests, message IDs, errors. *)
From Verif Require Import BaseLemmas MsgModel MsgSpec MsgLemmas MsgFormatLemmas MsgBlockLemmas
  ClientModel ClientSpec ClientLemmas ClientReplyLemmas ClientPropLemmas ServerModel ServerSpec ServerLemmas
  ServerTraceLemmas ServerPropLemmas.

(** ** Calls of the handler *)

Definition no_handle (o : sobs) : Prop := match o with SHandle _ _ => False | _ => True end.
Definition quiet_obs (o : sobs) : Prop := match o with SHandle _ _ | SCall _ _ | SRecv _ _ => False | _ => True end.

Lemma split_unique c m c' m' (x y pre post : list sobs) :
  x ++ SHandle c m :: y = pre ++ SHandle c' m' :: post -> Forall no_handle pre -> Forall no_handle post ->
  x = pre /\ c = c' /\ m = m' /\ y = post.
Proof.
  revert pre. induction x as [|o x IH]; intros [|o' pre]; cbn [List.app]; intros H H1 H2.
  - injection H as -> -> ->. auto.
  - injection H as <- _. inversion H1; subst. destruct H3.
  - injection H as -> H. exfalso. subst post. apply Forall_app in H2 as [_ H2]. inversion H2; subst. destruct H3.
  - injection H as -> H. inversion H1; subst. destruct (IH _ H H5 H2) as (-> & E1 & E2 & E3). auto.
Qed.
Lemma no_handle_in c m (s : list sobs) : Forall no_handle s -> ~ In (SHandle c m) s.
Proof. intros H Hin. rewrite Forall_forall in H. apply (H _ Hin). Qed.

Section App.
Context {A : Type} (P : app A) (E : senv) (C : scfg).

Lemma blk_no_handle c l : Forall (blk_obs c) l -> Forall no_handle l.
Proof. intro H. eapply Forall_impl; [|exact H]. intros o [[b ->]|[b ->]]; exact I. Qed.

Lemma answered_handle t a m t' l a' r : answered P C t a m t' l a' r ->
  Forall no_handle l /\ (server_check_options C m <> 0 /\ l = [] \/ server_check_options C m = 0 /\ t_type t <> TRegular) \/
  exists l', l = SHandle (t_client t) m :: l' /\ Forall no_handle l' /\ server_check_options C m = 0 /\ t_type t = TRegular.
Proof.
  intro H. destruct H as [Hz|a' l t' resp r Hz Ht En|a' e Hz Ht Eh|a' l Hz Ht Eh|a1 l s1 s2 body bl rx large a' ol t' resp r Hz Ht Eh Eb].
  - left. auto.
  - left. pose proof (next_block_fine P a t m msg_create rwf_create) as [F1 _]. rewrite En in F1. cbn [fst snd] in F1.
    split; [eapply blk_no_handle; exact F1|]. auto.
  - right. exists []. auto.
  - right. exists []. auto.
  - right. exists ol. pose proof (handle_blockwise_fine P C large a1 t m (msg_build l) s1 s2 body bl rx (rwf_build l)) as [F1 _].
    rewrite Eb in F1. cbn [fst snd] in F1. split; [reflexivity|]. split; [eapply blk_no_handle; exact F1|]. auto.
Qed.

Ltac nohs := repeat (first [apply Forall_nil | apply Forall_cons; [exact I|]]).

Lemma acked_quiet t m t' s : acked C t m t' s -> Forall no_handle s /\ Forall quiet_obs s.
Proof. intros []; split; nohs. Qed.

Lemma req_run_handle t id a m t' s id' a' r : req_run P C t id a m t' s id' a' r ->
  Forall no_handle s \/
  exists pre post, s = pre ++ SHandle (t_client t) m :: post /\ Forall quiet_obs pre /\ Forall no_handle pre /\ Forall no_handle post /\
    server_check_options C m = 0.
Proof.
  intros [e Hc' Hs|u1 x1 u2 x2 a2 e H1 H2|u1 x1 u2 x2 a2 r2 H1 H2 Hn1 Hn2|u1 x1 u2 x2 a2 resp x3 id2 i u3 x4 r3 H1 H2 H3 Hi2 Hi H4].
  - left. nohs.
  - pose proof (acked_client _ _ _ _ _ H1) as Hc. apply acked_quiet in H1 as [A1 A2].
    apply answered_handle in H2 as [[H2 _]|(l' & -> & H2 & Hz & _)].
    + left. apply Forall_app. split; [exact A1|]. apply Forall_app. split; [exact H2|]. nohs.
    + right. exists x1, (l' ++ [SDestroy (t_client t)]). rewrite Hc. split; [reflexivity|]. split; [exact A2|]. split; [exact A1|].
      split; [|exact Hz]. apply Forall_app. split; [exact H2|]. nohs.
  - pose proof (acked_client _ _ _ _ _ H1) as Hc. apply acked_quiet in H1 as [A1 A2].
    apply answered_handle in H2 as [[H2 _]|(l' & -> & H2 & Hz & _)].
    + left. apply Forall_app. auto.
    + right. exists x1, l'. rewrite Hc. auto 10.
  - pose proof (acked_client _ _ _ _ _ H1) as Hc. apply acked_quiet in H1 as [A1 A2].
    assert (F34 : Forall no_handle (x3 ++ x4)) by (apply Forall_app; split; [destruct H3; nohs|destruct H4; nohs]).
    apply answered_handle in H2 as [[H2 _]|(l' & -> & H2 & Hz & _)].
    + left. apply Forall_app. split; [exact A1|]. apply Forall_app. auto.
    + right. exists x1, (l' ++ x3 ++ x4). rewrite Hc. split; [reflexivity|]. split; [exact A2|]. split; [exact A1|].
      split; [|exact Hz]. apply Forall_app. auto.
Qed.

Lemma msg_run_handle t id a m t' s id' a' r : msg_run P C t id a m t' s id' a' r ->
  Forall no_handle s \/
  exists pre post, s = pre ++ SHandle (t_client t) m :: post /\ Forall quiet_obs pre /\ Forall no_handle pre /\ Forall no_handle post /\
    server_check_options C m = 0 /\ (m_type m = T_CON \/ m_type m = T_NON) /\ m_class m = 0 /\ match_req t m = false.
Proof.
  intros [Hm Ht|now Hm Ht Hs|e Hm Ht Hs|b now Hm Ht Hs Hb|b Hm Ht Hs Hb|t1 s1 r1 Hm Ht Hs Hb [(-> & -> & ->)|(-> & -> & -> & He)]|Hm Ht|e Hm Ht|Hm|s1 Ht Hc Hm [->|[now ->]]|t1 s1 id1 a1 r1 Ht Hc Hm Hr];
    try (left; nohs; fail).
  apply req_run_handle in Hr as [Hr|(pre & post & -> & H1 & H2 & H3 & H4)]; [left; exact Hr|]. right. exists pre, post. auto 10.
Qed.

Lemma rx_run_handle t id a d t' s id' a' r : lenN d <= 1152 -> rx_run P C t id a d t' s id' a' r ->
  Forall no_handle s \/
  exists m now pre post, s = (SRecv (t_client t) d :: SUse (t_client t) now :: pre) ++ SHandle (t_client t) m :: post /\
    Forall quiet_obs pre /\ Forall no_handle pre /\ Forall no_handle post /\ reads C d m /\
    server_check_options C m = 0 /\ (m_type m = T_CON \/ m_type m = T_NON) /\ m_class m = 0 /\ match_req t m = false.
Proof.
  intros Hd [r1 Hp Hn1 Hn2|e s1 Hp Hs|m now t1 s1 id1 a1 r1 Hp W Hr].
  - left. nohs.
  - left. constructor; [exact I|]. apply Forall_app. split; [|nohs].
    destruct Hs as [(_ & _ & _ & [->|[now ->]])|(_ & ->)]; nohs.
  - apply msg_run_handle in Hr as [Hr|(pre & post & -> & H1 & H2 & H3 & H4 & H5 & H6 & H7)].
    + left. constructor; [exact I|]. constructor; [exact I|]. exact Hr.
    + right. exists m, now, pre, post. split; [reflexivity|]. do 3 (split; [assumption|]). split; [split; assumption|]. auto.
Qed.

Definition Inv0 (v : @srv A) : Prop := LInv v /\ slots SInv v.
Lemma Inv0_micro v v' s : base v -> Inv0 v -> micro P E C false v v' s -> Inv0 v'.
Proof. intros Hb [H1 H2] Hm. split; [eapply LInv_micro; eassumption|eapply SInv_micro; eassumption]. Qed.
Lemma Inv0_init id a : Inv0 (server_init id a).
Proof. split; [apply LInv_init|apply SInv_init]. Qed.

Lemma run_locate (Inv : @srv A -> Prop) id a evs v r :
  Inv (server_init id a) -> (forall v v' s, base v -> Inv v -> micro P E C false v v' s -> Inv v') ->
  id <= 65535 -> Forall sev_ok evs -> server_run P E C (server_init id a) evs = (v, r) ->
  forall x o y, v_trace v = x ++ o :: y ->
  exists v1 v2 x1 y1 y2, base v1 /\ Inv v1 /\ micro P E C true v1 v2 (x1 ++ o :: y1) /\
    x = v_trace v1 ++ x1 /\ y = y1 ++ y2.
Proof.
  intros H0 Hs Hid Hev Hr x o y Hxy. apply run_micros in Hr as [s Hm]; [|apply base_init; exact Hid|exact Hev].
  pose proof (micros_trace _ _ _ _ _ _ _ Hm) as Ht. cbn [server_init v_trace List.app] in Ht.
  assert (s = x ++ o :: y) as -> by congruence.
  eapply micros_locate in Hm as (v1 & v2 & s1 & x1 & y1 & y2 & B & I1 & M & Mi & -> & ->); [|exact Hs|apply base_init; exact Hid|exact H0|reflexivity].
  exists v1, v2, x1, y1, y2. split; [exact B|]. split; [exact I1|]. split; [exact Mi|]. split; [|reflexivity].
  apply micros_trace in M. rewrite M. reflexivity.
Qed.

Lemma handled_once id a evs v r :
  id <= 65535 -> Forall sev_ok evs -> server_run P E C (server_init id a) evs = (v, r) ->
  forall tr1 c m tr2, v_trace v = tr1 ++ SHandle c m :: tr2 ->
  exists tr0 d mid j, tr1 = tr0 ++ SRecv c d :: mid /\ Forall quiet_obs mid /\ reads C d m /\
    (m_type m = T_CON \/ m_type m = T_NON) /\ m_class m = 0 /\ acceptable (sc_proxy C) m /\
    last_id c tr0 = Some j /\ m_id m <> j.
Proof.
  intros Hid Hev Hr tr1 c m tr2 Htr.
  destruct (run_locate Inv0 _ _ _ _ _ (Inv0_init id a) Inv0_micro Hid Hev Hr _ _ _ Htr)
    as (v1 & v2 & x1 & y1 & y2 & Hb & [HL HS] & Hm & -> & ->).
  remember (x1 ++ SHandle c m :: y1) as sg eqn:Esg.
  destruct Hm as [i v2 Hi Ha Hu|i c' now v2 Hi Ha Hn Hu|i v2 Hi Ha Hu|i d t' s' id' a' r' v2 Hi Ha Hd Hdl Hid' Hx Hfi Hu|i t' s' r' v2 Hi Ha Hm Hx Hfi Hu].
  - exfalso. destruct x1 as [|? [|]]; discriminate.
  - exfalso. destruct x1 as [|? [|? [|]]]; discriminate.
  - exfalso. destruct x1; discriminate.
  - apply rx_run_handle in Hx as [Hx|(m' & now & pre & post & -> & H1 & H2 & H3 & H4 & H5 & H6 & H7 & H8)]; [| |exact Hdl].
    + exfalso. subst s'. apply Forall_app in Hx as [_ Hx]. inversion Hx; subst. assumption.
    + symmetry in Esg. apply split_unique in Esg as (-> & -> & -> & ->); [|nohs; exact H2|exact H3].
      pose proof (HS i Hi Ha) as HI.
      exists (v_trace v1), d, (SUse (t_client (tr v1 i)) now :: pre), (m_id (t_req (tr v1 i))).
      split; [reflexivity|]. split; [constructor; [exact I|exact H1]|]. split; [exact H4|]. split; [exact H6|].
      split; [exact H7|]. split; [apply server_options_spec; exact H5|]. split; [apply (si_id _ _ HI)|].
      unfold match_req in H8. rewrite (proj1 (si_ver _ _ HI)) in H8. change (negb (1 =? 0)) with true in H8. cbn [andb] in H8.
      apply N.eqb_neq in H8. congruence.
  - exfalso. assert (Hno : Forall no_handle s') by (destruct Hx; nohs).
    subst s'. apply Forall_app in Hno as [_ Hno]. inversion Hno; subst. assumption.
Qed.

(** ** A new request is handled or refused *)

Lemma no_handle_handled s : Forall no_handle s -> handled s = [].
Proof. induction 1 as [|o s Ho Hs IH]; [reflexivity|]. destruct o; cbn; auto. destruct Ho. Qed.

Lemma new_request_handled (v : @srv A) c d m v' r s :
  step P E C v (EvRx c d None) v' r s -> reads C d m -> In (SRecv c d) s ->
  m_type m = T_CON \/ m_type m = T_NON -> m_class m = 0 -> fresh_id c (m_id m) (v_trace v) ->
  acceptable (sc_proxy C) m ->
  (forall t, In t (v_tr v) -> t_active t = true -> t_client t = c -> t_type t = TRegular) ->
  handled s = [(c, m)] \/ (handled s = [] /\ In (SSend c (ack_dgram (m_id m)) false) s).
Proof.
  intros Hst Hrd Hin Hty Hcl Hf Hacc Hreg. apply server_options_spec in Hacc.
  apply (rx_fresh _ _ _ _ _ _ m) in Hst as (s0 & t & now & s1 & -> & Hs0 & Hc & W & Ht & [(_ & t' & id' & a' & rr & Hr & Ho)|(H & _)]); auto;
    [|contradiction].
  specialize (Ht Hreg). apply opening_nothing in Hs0 as (_ & _ & H0 & _).
  rewrite handled_app, H0. cbn [List.app handled].
  assert (Hans : forall t1 x1 t2 x2 a2 r2, acked C (blank t) m t1 x1 -> answered P C t1 (v_app v) m t2 x2 a2 r2 ->
     handled x1 = [] /\ handled x2 = [(c, m)]).
  { intros t1 x1 t2 x2 a2 r2 H1 H2. pose proof (acked_client _ _ _ _ _ H1) as Hc1.
    assert (Ht1 : t_type t1 = TRegular) by (destruct H1; exact Ht).
    apply acked_quiet in H1 as [H1 _]. apply no_handle_handled in H1. split; [exact H1|].
    apply answered_handle in H2 as [[_ [(H2 & _)|(_ & H2)]]|(l' & -> & H2 & _)]; [contradiction|contradiction|].
    cbn [handled]. rewrite (no_handle_handled _ H2), Hc1. cbn. rewrite Hc. reflexivity. }
  destruct Hr as [e Hc' Hs|u1 x1 u2 x2 a2 e H1 H2|u1 x1 u2 x2 a2 r2 H1 H2 Hn1 Hn2|u1 x1 u2 x2 a2 resp x3 id2 i u3 x4 r3 H1 H2 H3 Hi2 Hi H4].
  - right. split; [reflexivity|]. apply in_or_app. right. right. right. left. rewrite Hc. reflexivity.
  - left. destruct (Hans _ _ _ _ _ _ H1 H2) as [E1 E2]. rewrite !handled_app, E1, E2. reflexivity.
  - left. destruct (Hans _ _ _ _ _ _ H1 H2) as [E1 E2]. rewrite !handled_app, E1, E2. reflexivity.
  - left. destruct (Hans _ _ _ _ _ _ H1 H2) as [E1 E2]. rewrite !handled_app, E1, E2.
    assert (handled x3 = []) as -> by (destruct H3; reflexivity).
    assert (handled x4 = []) as -> by (destruct H4; reflexivity). reflexivity.
Qed.

(** ** Messages that are not requests *)

Lemma other_reset (v : @srv A) c d m v' r s :
  step P E C v (EvRx c d None) v' r s -> reads C d m -> In (SRecv c d) s ->
  m_type m = T_CON -> m_class m <> 0 -> fresh_id c (m_id m) (v_trace v) ->
  r = None /\ sends s = [(c, rst_dgram (m_id m))] /\ handled s = [] /\ calls s = [].
Proof.
  intros Hst Hrd Hin Hty Hcl Hf.
  apply (rx_fresh _ _ _ _ _ _ m) in Hst as (s0 & t & now & s1 & -> & Hs0 & Hc & W & Ht & [(H & _)|(_ & Hr & H)]); auto; [contradiction|].
  apply opening_nothing in Hs0 as (H0 & _ & H1 & H2 & _). rewrite sends_app, handled_app, calls_app, H0, H1, H2.
  destruct H as [(H & _)|(_ & [->|[u ->]])]; [rewrite H in Hty; discriminate| |]; auto.
Qed.

Lemma other_ignored (v : @srv A) c d m v' r s :
  step P E C v (EvRx c d None) v' r s -> reads C d m -> In (SRecv c d) s ->
  m_type m <> T_CON -> m_type m <> T_NON \/ m_class m <> 0 ->
  r = None /\ sends s = [] /\ handled s = [] /\ calls s = [].
Proof.
  intros Hst Hrd Hin Hty Hcl.
  destruct (rx_received P E C v c d m v' r s Hst Hrd Hin)
    as (s0 & t0 & now & s1 & t' & id' & a' & rr & -> & Hw & Hrun & -> & W & _).
  assert (Hs0 : s0 = [] \/ opening c s0) by (destruct Hw as [(-> & _)|(Hw & _)]; auto).
  apply opening_nothing in Hs0 as (H0 & _ & H1 & H2 & _). rewrite sends_app, handled_app, calls_app, H0, H1, H2.
  destruct Hrun; try contradiction; auto. exfalso. destruct Hcl; tauto.
Qed.

(** ** Bad options *)

Lemma dec_loop_ok fuel n : (length (dec_loop fuel n) <= fuel)%nat /\ bytes_ok (dec_loop fuel n).
Proof.
  revert n. induction fuel as [|fuel IH]; intro n; cbn [dec_loop]; [split; [cbn; lia|constructor]|].
  destruct (N.ltb_spec n 10).
  - split; [cbn; lia|]. apply bytes_ok_cons; split; [lia|constructor].
  - destruct (IH (n / 10)) as [H1 H2]. split; [rewrite app_length; cbn; lia|]. apply bytes_ok_app. split; [exact H2|].
    apply bytes_ok_cons; split; [lia|constructor].
Qed.

Lemma bad_response_format i tok ty num : i <= 65535 -> lenN tok <= 8 -> bytes_ok tok -> ty < 3 ->
  exists b, msg_format (complete (mkmsg 1 0 4 2 0 [] [] (bad_option_text ++ dec num)) i tok ty) MAX_BUF_LEN = Ok b /\
    nth 1 b 0 = 130.
Proof.
  intros Hi Ht Hb Hty. set (m := complete _ i tok ty). destruct (dec_loop_ok 10 num) as [H1 H2]. fold (dec num) in H1, H2.
  assert (W : wf_msg m).
  { split; cbn [m complete m_ver m_type m_class m_detail m_id m_token m_ops m_payload]; try lia; auto; [exact I|].
    apply bytes_ok_app. split; [apply bytes_okb_spec; reflexivity|exact H2]. }
  assert (Hsz : wire_size m < MAX_BUF_LEN).
  { unfold wire_size. cbn [m complete m_token m_ops m_payload ops_size]. 
    destruct (bad_option_text ++ dec num) as [|x l] eqn:El; [unfold MAX_BUF_LEN; lia|]. rewrite <- El.
    assert (H3 : lenN (dec num) <= 10) by (unfold lenN; lia).
    rewrite lenN_app. change (lenN bad_option_text) with 19. unfold MAX_BUF_LEN. lia. }
  pose proof (format_result m MAX_BUF_LEN W) as Hr. cbv zeta in Hr.
  destruct Hr as [(Hr & _)|[(_ & Hr)|[(_ & Hr & _)|(_ & Hr & _)]]]; try lia.
  - constructor.
  - unfold MAX_BUF_LEN, two64. lia.
  - exists (enc_msg m). split; [exact Hr|reflexivity].
  - exfalso. unfold msg_check in Hr. cbn [m complete m_class m_type] in Hr. change ((4 =? 0) && (m_detail m =? 0)) with false in Hr.
    cbn iota in Hr. unfold T_RST in Hr. rewrite (proj2 (N.eqb_neq ty 3)) in Hr by lia. discriminate.
Qed.

Lemma no_calls_quiet s : Forall quiet_obs s -> calls s = [].
Proof. induction 1 as [|o s Ho Hs IH]; [reflexivity|]. destruct o; cbn; auto. destruct Ho. Qed.
Lemma acked_sends t m t' s : acked C t m t' s ->
  sends s = [] \/ sends s = [(t_client t, ack_dgram (m_id m))].
Proof. intros []; cbn; auto. Qed.

Lemma bad_option_refused (v : @srv A) c d m v' r s :
  step P E C v (EvRx c d None) v' r s -> reads C d m -> In (SRecv c d) s ->
  m_type m = T_CON \/ m_type m = T_NON -> m_class m = 0 -> fresh_id c (m_id m) (v_trace v) ->
  ~ acceptable (sc_proxy C) m ->
  r = None /\ handled s = [] /\ calls s = [] /\
  (In (SSend c (ack_dgram (m_id m)) false) s \/
   exists b, nth 1 b 0 = 130 /\ dgram_token b = m_token m /\
     (sends s = [(c, b)] \/ sends s = [(c, ack_dgram (m_id m)); (c, b)])).
Proof.
  intros Hst Hrd Hin Hty Hcl Hf Hacc.
  assert (Hz : server_check_options C m <> 0) by (intro H; apply Hacc, server_options_spec; exact H).
  apply (rx_fresh _ _ _ _ _ _ m) in Hst as (s0 & t & now & s1 & -> & Hs0 & Hc & W & Ht & [(_ & t' & id' & a' & rr & Hr & ->)|(H & _)]); auto;
    [|contradiction].
  apply opening_nothing in Hs0 as (S0 & N0 & H0 & C0 & _).
  rewrite handled_app, calls_app, sends_app, H0, C0, S0. cbn [List.app handled calls sends].
  assert (Hin' : forall o, In o s1 -> In o (s0 ++ SRecv c d :: SUse c now :: s1)) by (intros o Ho; apply in_or_app; right; right; right; exact Ho).
  assert (Hans : forall t1 t2 x2 a2 r2, answered P C t1 (v_app v) m t2 x2 a2 r2 -> x2 = [] /\ t2 = t1 /\
     r2 = Ok (mkmsg 1 0 4 2 0 [] [] (bad_option_text ++ dec (server_check_options C m)))).
  { intros t1 t2 x2 a2 r2 [H|? ? ? ? ? H|? ? H|? ? H|? ? ? ? ? ? ? ? ? ? ? ? ? H]; try contradiction.
    destruct (bad_option_resp (server_check_options C m)) as (mm & -> & _ & ->). auto. }
  destruct Hr as [e Hc' Hs|u1 x1 u2 x2 a2 e H1 H2|u1 x1 u2 x2 a2 r2 H1 H2 Hn1 Hn2|u1 x1 u2 x2 a2 resp x3 id2 i u3 x4 r3 H1 H2 H3 Hi2 Hi H4].
  - split; [reflexivity|]. split; [reflexivity|]. split; [reflexivity|]. left. apply Hin'. left. rewrite Hc. reflexivity.
  - destruct (Hans _ _ _ _ _ H2) as (_ & _ & H). discriminate.
  - destruct (Hans _ _ _ _ _ H2) as (_ & _ & ->). exfalso. eapply Hn1. reflexivity.
  - destruct (Hans _ _ _ _ _ H2) as (-> & -> & H).
    assert (resp = mkmsg 1 0 4 2 0 [] [] (bad_option_text ++ dec (server_check_options C m))) as -> by congruence. clear H.
    pose proof (acked_client _ _ _ _ _ H1) as Hc1. rewrite <- Hc in *. change (t_client (blank t)) with (t_client t) in Hc1.
    assert (Hrt : resp_type C m < 3) by (unfold resp_type; destruct (_ =? _); [destruct (sepb C m)|]; reflexivity).
    destruct (bad_response_format i (m_token m) (resp_type C m) (server_check_options C m) Hi (pw_tkl _ W) (pw_tok _ W) Hrt) as (b & Hb & Hb1).
    assert (Htok : dgram_token b = m_token m) by (eapply response_head in Hb; [tauto|exact Hi|exact W|lia]).
    pose proof (acked_sends _ _ _ _ H1) as S1. apply acked_quiet in H1 as [Q1 Q1'].
    rewrite !handled_app, !calls_app, !sends_app, (no_handle_handled _ Q1), (no_calls_quiet _ Q1').
    assert (handled x3 = [] /\ calls x3 = [] /\ sends x3 = []) as (-> & -> & ->) by (destruct H3; auto).
    assert (outcome r3 = None /\ handled x4 = [] /\ calls x4 = [] /\ sends x4 = [(t_client t, b)]) as (-> & -> & -> & ->).
    { rewrite <- Hc1. destruct H4 as [e He|r' He Hn1 Hn2|b' e He|b' nw He|b' nw q He|b' nw q rn He|b' nw rn e He];
        try (rewrite Hb in He; injection He as <-; cbn; auto; fail); [congruence|].
      exfalso. eapply Hn1. rewrite <- He. exact Hb. }
    split; [reflexivity|]. split; [reflexivity|]. split; [reflexivity|]. right. exists b. split; [exact Hb1|]. split; [exact Htok|].
    cbn [blank t_with_msgs t_client] in S1. destruct S1 as [->| ->]; auto.
Qed.

(** ** Other transactions *)

Lemma rx_untouched (v : @srv A) c b fail v' r s :
  step P E C v (EvRx c b fail) v' r s ->
  (forall t, In t (v_tr v) -> t_active t = true -> t_client t <> c -> ~ In (SDestroy (t_client t)) s -> In t (v_tr v')) /\
  (forall o, In o s -> match o with SDestroy _ | SNewId _ => True | _ => client_of o = Some c end).
Proof.
  intro Hst. apply step_in_rx in Hst as [Hb Hst].
  assert (Hgot : forall v1 s1 oi, got E v c v1 s1 oi -> base v1 /\
     (forall j, (j < 8)%nat -> t_active (tr v j) = true -> ~ In (SDestroy (t_client (tr v j))) s1 -> tr v1 j = tr v j) /\
     (forall o, In o s1 -> match o with SDestroy _ | SNewId _ => True | _ => client_of o = Some c end)).
  { intros v1 s1 oi Hg. split; [eapply micros_base; [exact Hb|apply (got_micros P E C _ _ _ _ _ Hb Hg)]|].
    destruct Hg as [i Hi Ha Hc|i now v1 Hi Ha Hn Hu|i v1 Hi Ha Hn Hu|v0 v1 s' oi' i Hi Ha Hn Hu0 Hr].
    - split; [auto|]. intros o [].
    - split; [|intros o [<-|[<-|[]]]; reflexivity]. intros j Hj Aj _. eapply up_other; [exact Hu|]. intros ->. congruence.
    - split; [|intros o []]. intros j Hj Aj _. eapply up_other; [exact Hu|]. intros ->. congruence.
    - split.
      + intros j Hj Aj Hd. assert (i <> j) as Hij by (intros <-; apply Hd; left; reflexivity).
        rewrite <- (up_other _ _ _ _ _ _ _ _ _ Hu0 Hij).
        destruct Hr as [(_ & now & _ & Hu)|(_ & _ & Hu)]; eapply up_other; eauto.
      + intros o [<-|Ho]; [exact I|]. destruct Hr as [(_ & now & -> & Hu)|(_ & -> & Hu)]; [|destruct Ho].
        destruct Ho as [<-|[<-|[]]]; reflexivity. }
  assert (Hfin : forall v1 s1 oi, got E v c v1 s1 oi -> forall (v2 : @srv A) s2,
     (forall j, (j < 8)%nat -> t_active (tr v1 j) = true -> t_client (tr v1 j) <> c -> tr v2 j = tr v1 j) -> length (v_tr v2) = 8%nat ->
     (forall o, In o s2 -> match o with SDestroy _ | SNewId _ => True | _ => client_of o = Some c end) ->
     (forall t, In t (v_tr v) -> t_active t = true -> t_client t <> c -> ~ In (SDestroy (t_client t)) (s1 ++ s2) -> In t (v_tr v2)) /\
     (forall o, In o (s1 ++ s2) -> match o with SDestroy _ | SNewId _ => True | _ => client_of o = Some c end)).
  { intros v1 s1 oi Hg v2 s2 Hk Hl Ho. destruct (Hgot _ _ _ Hg) as (_ & G1 & G2). split.
    - intros t Ht Ha Hc Hd. apply (In_nth _ _ trans_zero) in Ht as (j & Hj & <-). rewrite (ba_len _ Hb) in Hj.
      change (nth j (v_tr v) trans_zero) with (tr v j) in *.
      assert (E1 : tr v1 j = tr v j) by (apply G1; auto; intro; apply Hd; apply in_or_app; auto).
      assert (E2 : tr v2 j = tr v1 j) by (apply Hk; rewrite ?E1; auto).
      rewrite <- E1, <- E2. unfold tr. apply nth_In. lia.
    - intros o Hin. apply in_app_or in Hin as [Hin|Hin]; [apply (G2 o Hin)|apply (Ho o Hin)]. }
  assert (Hup : forall v1 s1 i, got E v c v1 s1 (Some i) -> forall t' s2 id' a' v2, up E v1 i t' s2 id' a' v2 ->
     (forall j, (j < 8)%nat -> t_active (tr v1 j) = true -> t_client (tr v1 j) <> c -> tr v2 j = tr v1 j) /\ length (v_tr v2) = 8%nat).
  { intros v1 s1 i Hg t' s2 id' a' v2 Hu. pose proof (got_slot _ _ _ _ _ _ Hb Hg) as (Hi & Ha & Hc & _).
    destruct (Hgot _ _ _ Hg) as (Hb1 & _). split.
    - intros j Hj Aj Hcj. eapply up_other; [exact Hu|]. intros ->. congruence.
    - rewrite (up_len _ _ _ _ _ _ _ _ Hu). apply (ba_len _ Hb1). }
  destruct Hst as [v1 s1 Hg|v1 s1 i Hg Hf|v1 s1 i v2 Hg Hf Hu|v1 s1 i t' s2 id' a' r' v2 Hg _ Hid Hx Hu].
  - rewrite <- (app_nil_r s1). eapply Hfin; [exact Hg|auto| |intros o []]. apply ba_len. apply (Hgot _ _ _ Hg).
  - rewrite <- (app_nil_r s1). eapply Hfin; [exact Hg|auto| |intros o []]. apply ba_len. apply (Hgot _ _ _ Hg).
  - destruct (Hup _ _ _ Hg _ _ _ _ _ Hu). eapply Hfin; [exact Hg|assumption|assumption|]. intros o [<-|[]]. exact I.
  - destruct (Hup _ _ _ Hg _ _ _ _ _ Hu). eapply Hfin; [exact Hg|assumption|assumption|].
    pose proof (got_slot _ _ _ _ _ _ Hb Hg) as (Hi & Ha & Hc & _).
    apply rx_run_tidy in Hx as (s0 & Hs0 & Hx); [|exact Ha]. rewrite Hc in *. rewrite Forall_forall in Hs0.
    assert (G : forall o, In o s0 -> match o with SDestroy _ | SNewId _ => True | _ => client_of o = Some c end).
    { intros o Ho. specialize (Hs0 o Ho). destruct o; cbn in *; auto. destruct Hs0. }
    destruct Hx as [(-> & _)|(-> & _)]; [exact G|]. intros o Ho. apply in_app_or in Ho as [Ho|[<-|[]]]; [apply (G o Ho)|exact I].
Qed.

(** ** Repeated requests *)

(** Nothing happens to the transaction of [c] but the receipt of acknowledgements,
    resets and messages with ID [i]. *)
Definition holds (c i : N) (p : msg) (v : @srv A) : Prop :=
  exists j, (j < 8)%nat /\ t_active (tr v j) = true /\ t_client (tr v j) = c /\ m_id (t_req (tr v j)) = i /\ t_resp (tr v j) = p.

Lemma tidy_active c t' s : tidy c t' s -> ~ In (SDestroy c) s -> t_active t' = true /\ t_client t' = c.
Proof.
  intros (s0 & Hs0 & [(-> & H)|(-> & H)]) Hn; [exact H|]. exfalso. apply Hn. apply in_or_app. right. left. reflexivity.
Qed.

Lemma holds_micro c i p v v' s : base v -> slots SInv v -> holds c i p v -> micro P E C false v v' s -> steady c i s -> holds c i p v'.
Proof.
  intros Hb HS (j & Hj & Aj & Cj & Ij & Pj) Hm [Hd Hr].
  assert (Hkeep : forall k t' s id' a', k <> j -> up E v k t' s id' a' v' -> holds c i p v').
  { intros k t' s' id' a' Hk Hu. exists j. rewrite (up_other _ _ _ _ _ _ _ _ _ Hu Hk). auto 10. }
  assert (Hset : forall t' s id' a', up E v j t' s id' a' v' -> t_active t' = true -> t_client t' = c -> m_id (t_req t') = i -> t_resp t' = p -> holds c i p v').
  { intros t' s' id' a' Hu H1 H2 H3 H4. exists j.
    rewrite (up_tr E v j t' s' id' a' v') by (try exact Hu; rewrite (ba_len _ Hb); exact Hj). auto 10. }
  destruct Hm as [k v2 Hk Ha Hu|k c' now v2 Hk Ha Hn Hu|k v2 Hk Ha Hu|k d t' s' id' a' r v2 Hk Ha Hdd Hdl Hid' Hx Hfi Hu|k t' s' r v2 Hk Ha Hm Hx Hfi Hu].
  - destruct (Nat.eq_dec k j) as [->|Hkj]; [|eauto]. exfalso. apply Hd. left. congruence.
  - destruct (Nat.eq_dec k j) as [->|Hkj]; [congruence|eauto].
  - destruct (Nat.eq_dec k j) as [->|Hkj]; [congruence|eauto].
  - destruct (Nat.eq_dec k j) as [->|Hkj]; [|eauto].
    pose proof (rx_run_tidy _ _ _ _ _ _ _ _ _ _ _ Ha Hx) as Ht. rewrite Cj in Ht. apply tidy_active in Ht as [A' C']; [|exact Hd].
    apply rx_run_survive in Hx as (m & now & s1 & Hp & W & -> & Hsu); [|exact A'|exact Hfi].
    pose proof (head_id C _ _ _ Hdd Hp) as [Ety Eid]. rewrite Cj in Hr.
    assert (Hmr : m_type m = T_CON \/ m_type m = T_NON -> match_req (t_with_last_use (tr v j) now) m = true).
    { intro Hty. unfold match_req. cbn [t_with_last_use t_req]. rewrite (proj1 (si_ver _ _ (HS j Hj Aj))).
      change (negb (1 =? 0)) with true. cbn [andb]. apply N.eqb_eq. rewrite Ij, <- Eid. symmetry. apply Hr; [left; reflexivity|].
      rewrite Ety. destruct Hty as [->| ->]; unfold T_CON, T_NON; lia. }
    destruct Hsu; try (eapply Hset; [exact Hu| | | |]; cbn; assumption); exfalso.
    + rewrite Hmr in *; auto; discriminate.
    + rewrite Hmr in *; auto; discriminate.
  - destruct (Nat.eq_dec k j) as [->|Hkj]; [|eauto].
    pose proof (tm_run_tidy _ _ _ _ Ha Hx) as Ht. rewrite Cj in Ht. apply tidy_active in Ht as [A' C']; [|exact Hd].
    eapply Hset; [exact Hu|exact A'|exact C'| |]; destruct Hx; try discriminate; assumption.
Qed.

Lemma steady_app c i s1 s2 : steady c i (s1 ++ s2) <-> steady c i s1 /\ steady c i s2.
Proof.
  unfold steady. split.
  - intros [H1 H2]. split; (split; [intro H; apply H1; apply in_or_app; auto|]); intros d Hd; apply H2; apply in_or_app; auto.
  - intros [[H1 H2] [H3 H4]]. split; [intro H; apply in_app_or in H; tauto|].
    intros d Hd. apply in_app_or in Hd as [Hd|Hd]; auto.
Qed.

Lemma holds_micros c i p v v' s : base v -> slots SInv v -> micros P E C false v v' s -> holds c i p v -> steady c i s -> holds c i p v' /\ slots SInv v'.
Proof.
  intros Hb HS Hm. revert Hb HS. remember false as ub eqn:Eub. induction Hm as [v|v v1 v2 s1 s2 H1 H2 IH|v v1 s1 Hu H1]; intros Hb HS Hh Hs.
  - auto.
  - apply steady_app in Hs as [Hs1 Hs2]. apply IH; auto.
    + eapply micro_base; eassumption.
    + eapply SInv_micro; eassumption.
    + eapply holds_micro; eassumption.
  - congruence.
Qed.

(** The first delivery. *)
Lemma first_holds (v : @srv A) c d m v' s :
  step P E C v (EvRx c d None) v' None s -> reads C d m -> In (SRecv c d) s ->
  m_type m = T_CON \/ m_type m = T_NON -> m_class m = 0 -> fresh_id c (m_id m) (v_trace v) -> ~ In (SDestroy c) s ->
  exists p b, holds c (m_id m) p v' /\ msg_format p MAX_BUF_LEN = Ok b /\
    (sepb C m = false \/ m_type m = T_NON -> sends s = [(c, b)]) /\
    (sepb C m = true -> m_type m = T_CON -> sends s = [(c, ack_dgram (m_id m)); (c, b)]).
Proof.
  intros Hst Hrd Hin Hty Hcl Hf Hnd. pose proof Hst as (Hre & Hev & _). apply reach_all in Hre as (_ & [Hl _] & _).
  pose proof Hst as Hst'. 
  apply (rx_received _ _ _ _ _ _ m) in Hst as (s0 & t0 & now & s1 & t' & id' & a' & rr & -> & Hw & Hr & Ho & W & (j & Hj & Ej) & _); auto.
  assert (Hnm : match_req (t_with_last_use t0 now) m = false).
  { eapply fresh_no_match; [exact Hf|exact Hl|]. destruct Hw as [(_ & H1 & _ & _ & H2 & H3)|(_ & H1 & H2)]; auto. }
  assert (Hc : t_client (t_with_last_use t0 now) = c /\ t_active (t_with_last_use t0 now) = true).
  { destruct Hw as [(_ & _ & _ & H1 & H & _)|(_ & _ & u & ->)]; [split; [exact H|exact H1]|split; reflexivity]. }
  destruct Hc as [Hc Ha].
  assert (S0 : sends s0 = []). { apply (opening_nothing c). destruct Hw as [(H & _)|(H & _)]; auto. }
  set (t := t_with_last_use t0 now) in *. clearbody t.
  pose proof (msg_run_tidy _ _ _ _ _ _ _ _ _ _ _ Ha Hr) as Ht. rewrite Hc in Ht.
  apply tidy_active in Ht as [A' C']; [|intro H; apply Hnd; apply in_or_app; right; right; right; exact H].
  apply msg_run_survive in Hr; [|exact A'|apply outcome_fine; congruence].
  rewrite sends_app, S0. cbn [List.app sends].
  assert (HT : forall x, m_type m = x -> x = T_ACK \/ x = T_RST -> False) by (intros x <- [H|H]; destruct Hty as [H'|H']; rewrite H in H'; discriminate).
  destruct Hr as [Hm Htt|nw Hm Htt Hs|b nw Hm Htt Hs Hb|Hm Htt|t1 x1 t2 x2 a2 resp x3 id2 i b nw q Htt Hcl' Hm H1 H2 H3 Hi Hb Hrt Hq|t1 x1 t2 x2 a2 resp x3 id2 i b nw q rn Htt Hse Hcl' Hm H1 H2 H3 Hi Hb Hq];
    try congruence; try (exfalso; destruct Htt as [Htt|Htt]; eapply HT; eauto; fail).
  - apply copy_pwf in W as (q' & Hq' & Hqi & _). rewrite Hq in Hq'. injection Hq' as <-.
    eexists _, b. split; [exists j; rewrite Ej; split; [exact Hj|]; split; [exact A'|]; split; [exact C'|]; split; [exact Hqi|reflexivity]|].
    split; [exact Hb|]. apply answered_quiet in H2 as (Q2 & _). assert (S3 : sends x3 = []) by (destruct H3; reflexivity).
    rewrite !sends_app, Q2, S3. cbn [List.app sends]. rewrite Hc.
    unfold resp_type in Hrt.
    destruct H1 as [_|now1 K1 K2]; cbn.
    + split; [auto|]. intros K1 K2. rewrite K1, K2 in Hrt. exfalso. apply Hrt. reflexivity.
    + rewrite K1, K2 in Hrt. exfalso. apply Hrt. reflexivity.
  - apply copy_pwf in W as (q' & Hq' & Hqi & _). rewrite Hq in Hq'. injection Hq' as <-.
    eexists _, b. split; [exists j; rewrite Ej; split; [exact Hj|]; split; [exact A'|]; split; [exact C'|]; split; [exact Hqi|reflexivity]|].
    split; [exact Hb|]. apply answered_quiet in H2 as (Q2 & _). assert (S3 : sends x3 = []) by (destruct H3; reflexivity).
    rewrite !sends_app, Q2, S3. cbn [List.app sends]. rewrite Hc.
    split; [intros [K|K]; [congruence|rewrite K in Htt; discriminate]|]. intros _ _.
    inversion H1 as [[K|K]|now1 K1 K2]; subst; [congruence|congruence|]. reflexivity.
Qed.

Lemma repeated (v : @srv A) c d m v1 s1 evs v2 s2 v3 r s3 :
  step P E C v (EvRx c d None) v1 None s1 -> reads C d m -> In (SRecv c d) s1 ->
  m_type m = T_CON \/ m_type m = T_NON -> m_class m = 0 -> fresh_id c (m_id m) (v_trace v) -> ~ In (SDestroy c) s1 ->
  Forall sev_ok evs -> server_run P E C v1 evs = (v2, None) -> v_trace v2 = v_trace v1 ++ s2 ->
  steady c (m_id m) s2 ->
  step P E C v2 (EvRx c d None) v3 r s3 ->
  r = None /\ handled s3 = [] /\ calls s3 = [] /\ new_ids s3 = [] /\
  (m_type m = T_NON -> sends s3 = []) /\
  (m_type m = T_CON ->
     (exists b, sends s1 = [(c, b)] /\ sends s3 = [(c, b)]) \/
     (exists b, sends s1 = [(c, ack_dgram (m_id m)); (c, b)] /\ sends s3 = [(c, ack_dgram (m_id m))])).
Proof.
  intros Hst Hrd Hin Hty Hcl Hf Hnd Hev Hrun Htr Hsteady Hst3.
  pose proof (first_holds _ _ _ _ _ _ Hst Hrd Hin Hty Hcl Hf Hnd) as (p & b & Hh & Hb & Hs1 & Hs2).
  pose proof Hst3 as (Hre2 & _). apply reach_all in Hre2 as (Hb2 & HL2 & HS2 & _).
  assert (Hr1 : reachable P E C v1).
  { destruct Hst as ((id & a & evs0 & Hid & Hev0 & Hr0) & He & Hstep & _). exists id, a, (evs0 ++ [EvRx c d None]).
    split; [exact Hid|]. split; [apply Forall_app; auto|]. 
    revert Hr0. generalize (server_init id a) as w. clear - Hstep. induction evs0 as [|e l IH]; intros w; cbn [server_run List.app].
    - intros [= ->]. rewrite Hstep. reflexivity.
    - destruct (server_step P E C w e) as [w' [r'|]]; [discriminate|]. apply IH. }
  apply reach_all in Hr1 as (Hb1 & HL1 & HS1 & _).
  apply run_micros in Hrun as [s2' Hm2]; [|exact Hb1|exact Hev].
  assert (s2' = s2) as -> by (apply micros_trace in Hm2; rewrite Hm2 in Htr; apply app_inv_head in Htr; congruence).
  destruct (holds_micros _ _ _ _ _ _ Hb1 HS1 Hm2 Hh Hsteady) as [(j & Hj & Aj & Cj & Ij & Pj) _].
  apply step_in_rx in Hst3 as [_ Hst3]. pose proof Hrd as [Hlen Hp].
  assert (Hg : forall v1 s1 oi, got E v2 c v1 s1 oi -> s1 = [] /\ v1 = v2 /\ oi = Some j).
  { intros w x oi [i Hi Ai Ci|i now w1 Hi Ai Hn Hu|i w1 Hi Ai Hn Hu|w0 w1 s' oi' i Hi Ai Hn Hu0 Hr'].
    - split; [reflexivity|]. split; [reflexivity|]. f_equal. apply (ba_uniq _ Hb2); auto. congruence.
    - exfalso. apply (Hn j); auto.
    - exfalso. apply (Hn j); auto.
    - exfalso. apply (Hn j); auto. }
  destruct Hst3 as [w x G|w x i G Hfl|w x i w2 G Hfl Hu|w x i t' x2 id' a' r' w2 G _ Hid Hx Hu]; try congruence.
  - destruct (Hg _ _ _ G) as (_ & _ & H). discriminate.
  - destruct (Hg _ _ _ G) as (-> & -> & H). injection H as ->. cbn [List.app].
    rewrite rx_cut_short in Hx by exact Hlen.
    destruct Hx as [r1 Hp' Hn1 Hn2|e x3 Hp' Hs|m' now t1 x3 id1 a1 r1 Hp' W Hr]; try congruence.
    rewrite Hp in Hp'. injection Hp' as <-. pose proof (HS2 j Hj Aj) as HI.
    assert (Hmr : match_req (t_with_last_use (tr v2 j) now) m = true).
    { unfold match_req. cbn [t_with_last_use t_req]. rewrite (proj1 (si_ver _ _ HI)).
      change (negb (1 =? 0)) with true. cbn [andb]. apply N.eqb_eq. exact Ij. }
    assert (HT : forall x, m_type m = x -> x = T_ACK \/ x = T_RST -> False) by (intros x <- [H|H]; destruct Hty as [H'|H']; rewrite H in H'; discriminate).
    cbn [handled calls new_ids sends]. rewrite <- Pj in Hb.
    destruct Hr as [Hm Htt|nw Hm Htt Hs|e Hm Htt Hs|b' nw Hm Htt Hs Hb'|b' Hm Htt Hs Hb'|t1 x3 r1 Hm Htt Hs Hb' _|Hm Htt|e Hm Htt|Hm|x3 Htt Hcl' Hm Hs|t1 x3 id1 a1 r1 Htt Hcl' Hm Hr];
      try congruence; try (exfalso; destruct Htt as [Htt|Htt]; eapply HT; eauto; fail); cbn [t_with_last_use t_client t_resp] in *; rewrite ?Cj.
    + rewrite Htt. repeat (split; [first [reflexivity|intro; reflexivity]|]). discriminate.
    + rewrite Htt. repeat (split; [first [reflexivity|discriminate]|]). intros _. right. exists b. split; [apply Hs2; auto|reflexivity].
    + rewrite Htt. repeat (split; [first [reflexivity|discriminate]|]). intros _. right. exists b. split; [apply Hs2; auto|reflexivity].
    + rewrite Htt. repeat (split; [first [reflexivity|discriminate]|]). intros _. left. exists b. split; [apply Hs1; auto|].
      rewrite Hb in Hb'. injection Hb' as <-. reflexivity.
    + rewrite Htt. repeat (split; [first [reflexivity|discriminate]|]). intros _. left. exists b. split; [apply Hs1; auto|].
      rewrite Hb in Hb'. injection Hb' as <-. reflexivity.
    + exfalso. eapply Hb'. exact Hb.
    + exfalso. destruct Hm as [([H|H] & _)|(_ & _ & H)]; [eapply HT; eauto|eapply HT; eauto|congruence].
Qed.

(** ** The response is what the handler made *)

Lemma run_complete resp i tok ty : i <= 65535 -> lenN tok <= 8 -> ty < 4 ->
  fold_left run_setter [SetMsgId i; SetToken tok; SetType ty] resp = complete resp i tok ty.
Proof.
  intros Hi Hl Ht. pose proof (complete_eq resp i tok ty Hi Hl Ht) as H. cbn [fold_left]. unfold run_setter.
  apply bind_ok in H as (r1 & -> & H). apply bind_ok in H as (r2 & -> & ->). reflexivity.
Qed.

Lemma handler_response (v : @srv A) c d m v' s a1 l :
  step P E C v (EvRx c d None) v' None s -> reads C d m -> In (SRecv c d) s ->
  m_type m = T_CON \/ m_type m = T_NON -> m_class m = 0 -> fresh_id c (m_id m) (v_trace v) ->
  acceptable (sc_proxy C) m ->
  (forall t, In t (v_tr v) -> t_active t = true -> t_client t = c -> t_type t = TRegular) ->
  ap_handle P (v_app v) c m = (a1, HResp l) ->
  (forall b, In (c, b) (sends s) ->
     b = ack_dgram (m_id m) \/
     exists i ty, msg_format (msg_build (l ++ [SetMsgId i; SetToken (m_token m); SetType ty])) MAX_BUF_LEN = Ok b).
Proof.
  intros Hst Hrd Hin Hty Hcl Hf Hacc Hreg Hh b. apply server_options_spec in Hacc.
  apply (rx_fresh _ _ _ _ _ _ m) in Hst as (s0 & t & now & s1 & -> & Hs0 & Hc & W & Ht & [(_ & t' & id' & a' & rr & Hr & Ho)|(H & _)]); auto;
    [|contradiction].
  specialize (Ht Hreg). apply opening_nothing in Hs0 as (H0 & _). rewrite sends_app, H0. cbn [List.app sends].
  assert (Hack : forall t1 x1, acked C (blank t) m t1 x1 -> t_type t1 = TRegular /\ t_client t1 = c /\ forall b, In (c, b) (sends x1) -> b = ack_dgram (m_id m)).
  { intros t1 x1 H1. destruct H1; (split; [exact Ht|]); (split; [exact Hc|]); cbn [sends]; intros b' Hb; [destruct Hb|].
    destruct Hb as [Hb|[]]. injection Hb as _ <-. reflexivity. }
  assert (Hans : forall t1 x1 t2 x2 a2 r2, acked C (blank t) m t1 x1 -> answered P C t1 (v_app v) m t2 x2 a2 r2 ->
     sends x2 = [] /\ r2 = Ok (msg_build l) /\ t_client t2 = c).
  { intros t1 x1 t2 x2 a2 r2 H1 H2. destruct (Hack _ _ H1) as (Ht1 & Hc1 & _).
    destruct H2 as [Hz|a3 l3 t3 resp r Hz Ht3 En|a3 e Hz Ht3 Eh|a3 l3 Hz Ht3 Eh|a3 l3 s3 s4 body bl rx large a4 ol t3 resp r Hz Ht3 Eh Eb];
      try contradiction; rewrite Hc1, Hh in Eh; try discriminate.
    injection Eh as <- <-. auto. }
  destruct Hr as [e Hc' Hs|u1 x1 u2 x2 a2 e H1 H2|u1 x1 u2 x2 a2 r2 H1 H2 Hn1 Hn2|u1 x1 u2 x2 a2 resp x3 id2 i u3 x4 r3 H1 H2 H3 Hi2 Hi H4].
  - cbn [sends]. intros [Hb|[]]. injection Hb as _ <-. left. reflexivity.
  - destruct (Hans _ _ _ _ _ _ H1 H2) as (_ & H & _). discriminate.
  - destruct (Hans _ _ _ _ _ _ H1 H2) as (_ & H & _). exfalso. exact (Hn1 _ H).
  - destruct (Hans _ _ _ _ _ _ H1 H2) as (S2 & Er & Ec). injection Er as ->. rewrite !sends_app, S2.
    assert (sends x3 = []) as -> by (destruct H3; reflexivity). cbn [List.app]. intro Hb. apply in_app_or in Hb as [Hb|Hb].
    { left. eapply Hack; eassumption. }
    right. exists i, (resp_type C m).
    assert (Hty4 : resp_type C m < 4) by (unfold resp_type, T_CON, T_NON, T_ACK; repeat match goal with |- context [if ?x then _ else _] => destruct x end; lia).
    unfold msg_build at 1. rewrite fold_left_app. change (fold_left run_setter l msg_create) with (msg_build l). rewrite run_complete; [|exact Hi|apply (pw_tkl _ W)|exact Hty4].
    destruct H4; cbn [sends In] in Hb; try (destruct Hb; fail); destruct Hb as [Hb|[]]; injection Hb as _ <-; assumption.
Qed.

Lemma handled_acceptable id a evs v r :
  id <= 65535 -> Forall sev_ok evs -> server_run P E C (server_init id a) evs = (v, r) ->
  forall c m, In (SHandle c m) (v_trace v) -> acceptable (sc_proxy C) m.
Proof.
  intros Hid Hev Hr c m Hin. apply in_split in Hin as (tr1 & tr2 & Htr).
  destruct (handled_once id a evs v r Hid Hev Hr tr1 c m tr2 Htr) as (? & ? & ? & ? & _ & _ & _ & _ & _ & H & _). exact H.
Qed.

End App.
