(** Proofs about the exchange of the client model. *)
From Verif Require Import Base BaseLemmas MsgModel MsgSpec MsgLemmas MsgFormatLemmas ClientModel ClientSpec.

(** ** Bytes on the wire *)

Definition empty_bytes (t i : N) : list N := [64 + 16 * t; 0; i / 256; i mod 256].

Lemma empty_msg_eq t i : t = T_ACK \/ t = T_RST ->
  empty_msg t i = if 65535 <? i then Err EINVAL else Ok (mkmsg 1 t 0 0 i [] [] []).
Proof. intros [->| ->]; reflexivity. Qed.

Lemma format_empty t i : t = T_ACK \/ t = T_RST -> i <= 65535 ->
  msg_format (mkmsg 1 t 0 0 i [] [] []) MAX_BUF_LEN = Ok (empty_bytes t i).
Proof.
  intros Ht Hi.
  assert (W : wf_msg (mkmsg 1 t 0 0 i [] [] [])).
  { split; cbn; try (unfold lenN; cbn; lia); auto; try constructor. destruct Ht as [->| ->]; reflexivity. }
  assert (Hck : msg_check (mkmsg 1 t 0 0 i [] [] []) = Ok tt) by (destruct Ht as [->| ->]; reflexivity).
  destruct (format_result _ MAX_BUF_LEN W) as [(H & _)|[(_ & H)|[(_ & H & _)|(_ & H & _)]]].
  - constructor.
  - reflexivity.
  - rewrite H. unfold enc_msg, enc_hdr, empty_bytes. cbn. apply f_equal.
    repeat apply (f_equal2 cons); try reflexivity; unfold lenN; cbn; lia.
  - congruence.
  - exfalso. vm_compute in H. discriminate.
  - exfalso. vm_compute in H. discriminate.
Qed.

(** Every step of the formatter appends. *)
Lemma wr_prefix cap out bs o : wr cap out bs = Ok o -> o = out ++ bs.
Proof. unfold wr. destruct (_ <=? _); congruence. Qed.

Lemma bind_ok {A B} (r : res A) (f : A -> res B) b : bind r f = Ok b -> exists a, r = Ok a /\ f a = Ok b.
Proof. destruct r; cbn; try discriminate. eauto. Qed.

Lemma format_op_prefix cap o prev out len b : format_op cap o prev out len = Ok b -> exists l, b = out ++ l.
Proof.
  unfold format_op. destruct (_ <? _); [discriminate|]. intro H.
  apply bind_ok in H as (o1 & H1 & H). apply bind_ok in H as (o2 & H2 & H). apply bind_ok in H as (o3 & H3 & H).
  apply wr_prefix in H, H1, H2, H3. subst. rewrite <- !app_assoc. eauto.
Qed.
Lemma format_ops_prefix cap l prev out len b : format_ops cap l prev out len = Ok b -> exists l', b = out ++ l'.
Proof.
  revert prev out len. induction l as [|o l IH]; intros prev out len; cbn [format_ops].
  - intro H. exists []. rewrite app_nil_r. congruence.
  - intro H. apply bind_ok in H as (o1 & H1 & H). apply format_op_prefix in H1 as [l1 ->].
    apply IH in H as [l2 ->]. rewrite <- app_assoc. eauto.
Qed.

Lemma land_shift_type x y : x < 4 -> y < 16 ->
  (N.lor (N.lor 64 (N.shiftl x 4)) y / 16) mod 4 = x.
Proof.
  intros Hx Hy. change 64 with (N.shiftl 4 4). rewrite <- N.shiftl_lor, lor_4 by exact Hy.
  replace (N.lor 4 x) with (4 + x); [lia|].
  assert (x = 0 \/ x = 1 \/ x = 2 \/ x = 3) as H by lia. destruct H as [->|[->|[->| ->]]]; reflexivity.
Qed.

Lemma format_header m cap b : msg_format m cap = Ok b ->
  exists b0 b1 rest, b = b0 :: b1 :: be16 (m_id m) ++ m_token m ++ rest /\
    (b0 / 16) mod 4 = m_type m mod 4 /\ b0 mod 16 = lenN (m_token m) mod 16.
Proof.
  unfold msg_format. intro H. apply bind_ok in H as (_ & _ & H). apply bind_ok in H as (o1 & H1 & H).
  apply bind_ok in H as (o2 & H2 & H). apply bind_ok in H as (o3 & H3 & H).
  unfold format_token in H2. destruct (_ <? _) in H2; [discriminate|]. apply wr_prefix in H2.
  apply format_ops_prefix in H3 as [l3 H3].
  assert (exists l, b = o3 ++ l) as [l4 H4].
  { unfold format_payload in H. destruct (_ =? 0) in H; [exists []; rewrite app_nil_r; congruence|].
    destruct (_ <? _) in H; [discriminate|]. apply wr_prefix in H. eauto. }
  unfold format_hdr in H1. destruct (_ <? _) in H1; [discriminate|]. apply wr_prefix in H1. cbn [app] in H1.
  subst. do 2 eexists. exists (l3 ++ l4). split; [|split].
  - rewrite <- !app_assoc. cbn [app]. reflexivity.
  - unfold lo8, COAP_VER. rewrite land_3, land_15.
    change (N.shiftl 1 6) with 64. pose proof (land_shift_type (m_type m mod 4) (lenN (m_token m) mod 16)) as H'.
    rewrite <- H' at 2 by lia. lia.
  - unfold lo8, COAP_VER. rewrite land_3, land_15. change (N.shiftl 1 6) with (N.shiftl 4 4).
    rewrite <- N.shiftl_lor, lor_4 by lia. lia.
Qed.

Lemma format_type m cap b : msg_format m cap = Ok b -> dgram_type b = m_type m mod 4.
Proof. intro H. apply format_header in H as (b0 & b1 & rest & -> & H & _). exact H. Qed.

Lemma format_id_token m cap b : msg_format m cap = Ok b -> m_id m <= 65535 -> lenN (m_token m) <= 8 ->
  dgram_id b = m_id m /\ dgram_token b = m_token m.
Proof.
  intros H Hi Ht. apply format_header in H as (b0 & b1 & rest & -> & _ & H).
  unfold dgram_id, dgram_token, be16, two16. cbn [app nth skipn]. rewrite H.
  rewrite (N.mod_small (lenN (m_token m))) by lia. rewrite firstn_lenN_app. split; [|reflexivity].
  rewrite shiftr_8. lia.
Qed.

Lemma empty_bytes_type t i : t < 4 -> dgram_type (empty_bytes t i) = t.
Proof. intro H. unfold dgram_type, empty_bytes. cbn [nth]. lia. Qed.

(** ** Steps *)

(** [s'] is [s] with more history; only the counters of calls differ besides. *)
Definition ext (s s' : cst) (tr : list obs) : Prop :=
  c_trace s' = c_trace s ++ tr /\ c_now s' = c_now s /\ c_sec s' = c_sec s /\ c_nsec s' = c_nsec s /\
  c_retrans s' = c_retrans s.

Lemma ext_refl s : ext s s [].
Proof. repeat split. rewrite app_nil_r. reflexivity. Qed.
Lemma ext_log s o : ext s (log s o) [o].
Proof. repeat split. Qed.
Lemma ext_trans s1 s2 s3 t1 t2 : ext s1 s2 t1 -> ext s2 s3 t2 -> ext s1 s3 (t1 ++ t2).
Proof.
  unfold ext. intros (A1 & A2 & A3 & A4 & A5) (B1 & B2 & B3 & B4 & B5).
  rewrite B1, A1, app_assoc. repeat split; congruence.
Qed.

Definition no_ok {A} (r : res A) : Prop := forall x, r <> Ok x.

Lemma client_send_spec E s m s' r :
  client_send E s m = (s', r) ->
  (s' = s /\ no_ok r /\ forall b, msg_format m MAX_BUF_LEN <> Ok b) \/
  exists b ok, msg_format m MAX_BUF_LEN = Ok b /\ ext s s' [OSend (c_now s) b ok] /\
    ((ok = true /\ r = Ok tt) \/ (ok = false /\ exists e, r = Err e)).
Proof.
  unfold client_send. destruct (msg_format m MAX_BUF_LEN) as [b|e|u|].
  2-4: intro H; injection H as <- <-; left; split; [reflexivity|split; intros ? ?; discriminate].
  intro H. injection H as <- <-. right. exists b. destruct (e_send E (c_nsend s)) as [e|].
  - exists false. split; [reflexivity|]. split; [repeat split|]. right. eauto.
  - exists true. split; [reflexivity|]. split; [repeat split|]. left. auto.
Qed.

Lemma send_empty_spec E s t i s' r : t = T_ACK \/ t = T_RST ->
  send_empty E s t i = (s', r) ->
  (s' = s /\ exists e, r = Err e) \/
  exists ok, ext s s' [OSend (c_now s) (empty_bytes t i) ok] /\
    ((ok = true /\ r = Ok tt) \/ (ok = false /\ exists e, r = Err e)).
Proof.
  intros Ht. unfold send_empty. rewrite empty_msg_eq by exact Ht.
  destruct (N.ltb_spec 65535 i).
  - intro H'. injection H' as <- <-. left. eauto.
  - intro H'. apply client_send_spec in H'. rewrite format_empty in H' by auto.
    destruct H' as [(_ & _ & Hn)|(b & ok & Hb & Hx & Hr)].
    + exfalso. eapply Hn. reflexivity.
    + injection Hb as <-. right. eauto.
Qed.

(** What a step that does not end in acceptance leaves in the history. *)
Inductive quiet (t : N) : list obs -> Prop :=
| q_err e : quiet t [OErr t e]
| q_recv b : quiet t [ORecv t b]
| q_rst b i ok : quiet t [ORecv t b; OSend t (empty_bytes T_RST i) ok].

Lemma rx_cut_len b : lenN (rx_cut b) <= MAX_BUF_LEN.
Proof. unfold rx_cut. rewrite lenN_firstn. lia. Qed.

Lemma client_reject_spec E s m s' r :
  client_reject E s m = (s', r) ->
  (ext s s' [] /\ (r = Ok tt \/ exists e, r = Err e)) \/
  exists i ok, ext s s' [OSend (c_now s) (empty_bytes T_RST i) ok] /\ (r = Ok tt \/ exists e, r = Err e).
Proof.
  unfold client_reject. destruct (_ =? _).
  - intro H. apply send_empty_spec in H; [|right; reflexivity].
    destruct H as [(-> & e & ->)|(ok & Hx & Hr)].
    + left. split; [apply ext_refl|eauto].
    + right. exists (m_id m), ok. split; [exact Hx|]. destruct Hr as [[_ ->]|[_ [e ->]]]; eauto.
  - intro H. injection H as <- <-. left. split; [apply ext_refl|auto].
Qed.

Lemma handle_format_error_spec E s p len s' r :
  handle_format_error E s p len = (s', r) ->
  (forall e, r <> Err e) /\
  (ext s s' [] \/ exists i ok, ext s s' [OSend (c_now s) (empty_bytes T_RST i) ok]).
Proof.
  unfold handle_format_error. destruct (parse_type_msg_id _ _) as [[t i]|e|u|].
  2-4: intro H; injection H as <- <-; split; [discriminate|left; apply ext_refl].
  destruct (t =? T_CON).
  2: intro H; injection H as <- <-; split; [discriminate|left; apply ext_refl].
  destruct (send_empty _ _ _ _) as [s2 r2] eqn:Es. intro H. injection H as <- <-.
  apply send_empty_spec in Es; [|right; reflexivity].
  destruct Es as [(-> & e & ->)|(ok & Hx & Hr)].
  - split; [discriminate|left; apply ext_refl].
  - split; [destruct Hr as [[_ ->]|[_ [e ->]]]; discriminate|]. right. eauto.
Qed.

Lemma client_recv_spec E C s x s' r :
  client_recv E C s x = (s', r) ->
  (exists m b, r = Ok m /\ received C b m /\ ext s s' [ORecv (c_now s) b]) \/
  (no_ok r /\ exists tr, ext s s' tr /\ quiet (c_now s) tr).
Proof.
  unfold client_recv. destruct x as [b|e].
  2: { intro H. injection H as <- <-. right. split; [intros ? ?; discriminate|].
       exists [OErr (c_now s) e]. split; [apply ext_log|constructor]. }
  cbv zeta. destruct (msg_parse (cf_sg C) (rx_buf b) (lenN (rx_cut b))) as [m|e|u|] eqn:Ep.
  - intro H. injection H as <- <-. left. exists m, (rx_cut b). split; [reflexivity|]. split; [|apply ext_log].
    split; [apply rx_cut_len|exact Ep].
  - intro H. right. assert (Hd : s' = log s (ORecv (c_now s) (rx_cut b)) /\ no_ok r ->
                     no_ok r /\ exists tr, ext s s' tr /\ quiet (c_now s) tr).
    { intros [-> Hn]. split; [exact Hn|]. eexists. split; [apply ext_log|constructor]. }
    destruct e; try (injection H as <- <-; apply Hd; split; [reflexivity|intros ? ?; discriminate]).
    destruct (handle_format_error _ _ _ _) as [s1 r1] eqn:Eh. injection H as <- <-.
    apply handle_format_error_spec in Eh as [_ Hx].
    split; [destruct r1; intros ? ?; discriminate|].
    destruct Hx as [Hx|(i & ok & Hx)].
    + exists ([ORecv (c_now s) (rx_cut b)] ++ []). split; [eapply ext_trans; [apply ext_log|exact Hx]|constructor].
    + exists ([ORecv (c_now s) (rx_cut b)] ++ [OSend (c_now s) (empty_bytes T_RST i) ok]).
      split; [eapply ext_trans; [apply ext_log|exact Hx]|constructor].
  - intro H. injection H as <- <-. right. split; [intros ? ?; discriminate|]. eexists. split; [apply ext_log|constructor].
  - intro H. injection H as <- <-. right. split; [intros ? ?; discriminate|]. eexists. split; [apply ext_log|constructor].
Qed.

Lemma reject_bad_spec E s m s' r :
  reject_bad E s m = (s', r) ->
  no_ok r /\ (ext s s' [] \/ exists i ok, ext s s' [OSend (c_now s) (empty_bytes T_RST i) ok]).
Proof.
  unfold reject_bad. destruct (client_reject E s m) as [s1 r1] eqn:Er. intro H. injection H as <- <-.
  apply client_reject_spec in Er. destruct Er as [[Hx [->|[e ->]]]|(i & ok & Hx & [->|[e ->]])];
    (split; [intros ? ?; discriminate|]); eauto.
Qed.

(** Token comparison. *)
Lemma bytes_eqb_eq a b : bytes_eqb a b = true <-> a = b.
Proof.
  unfold bytes_eqb. revert b. induction a as [|x a IH]; intros [|y b].
  - split; reflexivity.
  - rewrite lenN_cons, (@lenN_nil N). destruct (N.eqb_spec 0 (lenN b + 1)); [lia|]. split; discriminate.
  - rewrite lenN_cons, (@lenN_nil N). destruct (N.eqb_spec (lenN a + 1) 0); [lia|]. split; discriminate.
  - rewrite !lenN_cons. cbn [combine forallb fst snd]. specialize (IH b).
    rewrite !andb_true_iff in *. rewrite N.eqb_eq in *. rewrite N.eqb_eq. split.
    + intros (H1 & H2 & H3). f_equal; [exact H2|]. apply IH. split; [lia|exact H3].
    + intro H. injection H as -> ->. destruct IH as [_ IH]. specialize (IH eq_refl). intuition lia.
Qed.

(** A response is accepted. *)
Inductive accept (C : cfg) (req : msg) (pb : bool) (t : N) (resp : msg) : list obs -> Prop :=
| acc_pb b :
    pb = true -> received C b resp -> m_token resp = m_token req -> client_check_options C resp = 0 ->
    m_type resp = T_ACK -> m_id resp = m_id req -> msg_is_empty resp = false ->
    accept C req pb t resp [ORecv t b]
| acc_con b :
    received C b resp -> m_token resp = m_token req -> client_check_options C resp = 0 ->
    m_type resp = T_CON -> m_id resp <> m_id req ->
    accept C req pb t resp [ORecv t b; OSend t (empty_bytes T_ACK (m_id resp)) true]
| acc_non b :
    received C b resp -> m_token resp = m_token req -> client_check_options C resp = 0 ->
    m_type resp = T_NON -> m_id resp <> m_id req ->
    accept C req pb t resp [ORecv t b].

(** An exchange that ends without success. *)
Inductive stop (t : N) : list obs -> Prop :=
| st_quiet tr : quiet t tr -> stop t tr
| st_ack b i : stop t [ORecv t b; OSend t (empty_bytes T_ACK i) false].

Lemma handle_sep_spec E C s resp s' r :
  handle_sep_response E C s resp = (s', r) ->
  (exists tr, ext s s' tr /\ r = Ok resp /\ client_check_options C resp = 0 /\
     ((m_type resp = T_CON /\ tr = [OSend (c_now s) (empty_bytes T_ACK (m_id resp)) true]) \/
      (m_type resp = T_NON /\ tr = []))) \/
  (no_ok r /\ exists tr, ext s s' tr /\
     (tr = [] \/ (exists i ok, tr = [OSend (c_now s) (empty_bytes T_RST i) ok]) \/
      exists i, tr = [OSend (c_now s) (empty_bytes T_ACK i) false])).
Proof.
  unfold handle_sep_response. intro H.
  assert (Hrej : reject_bad E s resp = (s', r) ->
    no_ok r /\ exists tr, ext s s' tr /\
     (tr = [] \/ (exists i ok, tr = [OSend (c_now s) (empty_bytes T_RST i) ok]) \/
      exists i, tr = [OSend (c_now s) (empty_bytes T_ACK i) false])).
  { intro Hr. apply reject_bad_spec in Hr as [Hn [Hx|(i & ok & Hx)]]; split; auto; eexists; split; eauto 6. }
  destruct (N.eqb_spec (m_type resp) T_CON) as [Et|Et].
  - destruct (N.eqb_spec (client_check_options C resp) 0) as [Ec|Ec]; cbn [negb] in H; [|right; auto].
    destruct (client_send_ack E s resp) as [s1 r1] eqn:Es. injection H as <- <-.
    apply send_empty_spec in Es; [|left; reflexivity].
    destruct Es as [(-> & e & ->)|(ok & Hx & Hr)].
    + right. split; [intros ? ?; discriminate|]. exists []. split; [apply ext_refl|auto].
    + destruct Hr as [[-> ->]|[-> [e ->]]].
      * left. eauto 8.
      * right. split; [intros ? ?; discriminate|]. eauto 8.
  - destruct (N.eqb_spec (m_type resp) T_NON) as [En|En]; [|right; auto].
    destruct (N.eqb_spec (client_check_options C resp) 0) as [Ec|Ec]; cbn [negb] in H; [|right; auto].
    injection H as <- <-. left. exists []. split; [apply ext_refl|auto 6].
Qed.

(** ** Runs *)

Section Runs.
Context (E : env) (C : cfg) (req : msg).

(** A separate response (exchange_sep, and exchange_non). *)
Inductive run_resp : cst -> list event -> oc -> Prop :=
| rr_wait s : run_resp s [] (Waiting s)
| rr_quiet s t ev evs s' tr o :
    quiet t tr -> ext (at_time s t) s' tr -> run_resp s' evs o -> run_resp s ((t, ev) :: evs) o
| rr_stop s t ev evs s' tr r :
    stop t tr -> ext (at_time s t) s' tr -> no_ok r -> run_resp s ((t, ev) :: evs) (Done s' evs r)
| rr_timer s t ev evs s' :
    ext (at_time s t) s' [OTimer t] -> run_resp s ((t, ev) :: evs) (Done s' evs (Err ETIMEDOUT))
| rr_accept s t ev evs s' tr resp :
    accept C req false t resp tr -> ext (at_time s t) s' tr ->
    run_resp s ((t, ev) :: evs) (Done s' evs (Ok resp)).

(** Waiting for the acknowledgement (exchange_con). *)
Inductive run_con : cst -> list event -> oc -> Prop :=
| rc_wait s : run_con s [] (Waiting s)
| rc_quiet s t ev evs s' tr o :
    quiet t tr -> ext (at_time s t) s' tr -> run_con s' evs o -> run_con s ((t, ev) :: evs) o
| rc_stop s t ev evs s' tr r :
    stop t tr -> ext (at_time s t) s' tr -> no_ok r -> run_con s ((t, ev) :: evs) (Done s' evs r)
| rc_accept s t ev evs s' tr resp :
    accept C req true t resp tr -> ext (at_time s t) s' tr ->
    run_con s ((t, ev) :: evs) (Done s' evs (Ok resp))
| rc_sep s t ev evs b resp s' o :
    received C b resp -> m_type resp = T_ACK -> m_id resp = m_id req -> msg_is_empty resp = true ->
    ext (at_time s t) s' [ORecv t b] ->
    run_resp (start_resp_timer E s') evs o -> run_con s ((t, ev) :: evs) o
| rc_timeout s t ev evs s' :
    MAX_RETRANSMIT <= c_retrans s ->
    ext (at_time s t) s' [OTimer t] ->
    run_con s ((t, ev) :: evs) (Done s' evs (Err ETIMEDOUT))
| rc_arm_fail s t ev evs s' e sec nsec :
    c_retrans s < MAX_RETRANSMIT ->
    sec = c_sec (double_timeout s) -> nsec = c_nsec (double_timeout s) ->
    c_trace s' = c_trace s ++ [OTimer t; OArm t sec nsec false] -> c_now s' = t ->
    run_con s ((t, ev) :: evs) (Done s' evs (Err e))
| rc_send_fail s t ev evs s' r sec nsec tr :
    c_retrans s < MAX_RETRANSMIT ->
    sec = c_sec (double_timeout s) -> nsec = c_nsec (double_timeout s) ->
    c_trace s' = c_trace s ++ [OTimer t; OArm t sec nsec true] ++ tr -> c_now s' = t ->
    (tr = [] \/ exists b, msg_format req MAX_BUF_LEN = Ok b /\ tr = [OSend t b false]) -> no_ok r ->
    run_con s ((t, ev) :: evs) (Done s' evs r)
| rc_retrans s t ev evs s' b sec nsec o :
    c_retrans s < MAX_RETRANSMIT ->
    sec = c_sec (double_timeout s) -> nsec = c_nsec (double_timeout s) ->
    msg_format req MAX_BUF_LEN = Ok b ->
    c_trace s' = c_trace s ++ [OTimer t; OArm t sec nsec true; OSend t b true] ->
    c_now s' = t -> c_sec s' = sec -> c_nsec s' = nsec -> c_retrans s' = c_retrans s + 1 ->
    run_con s' evs o -> run_con s ((t, ev) :: evs) o.

Lemma reject_cont s t b resp s1 s2 r1 :
  ext (at_time s t) s1 [ORecv t b] ->
  client_reject E s1 resp = (s2, r1) ->
  exists tr, quiet t tr /\ ext (at_time s t) s2 tr.
Proof.
  intros H1 H2. assert (Hn : c_now s1 = t) by apply H1.
  apply client_reject_spec in H2 as [[Hx _]|(i & ok & Hx & _)].
  - exists ([ORecv t b] ++ []). split; [constructor|]. eapply ext_trans; eauto.
  - rewrite Hn in Hx. exists ([ORecv t b] ++ [OSend t (empty_bytes T_RST i) ok]). split; [constructor|].
    eapply ext_trans; eauto.
Qed.

Lemma reject_stop s t b resp s1 s2 r1 :
  ext (at_time s t) s1 [ORecv t b] ->
  reject_bad E s1 resp = (s2, r1) ->
  no_ok r1 /\ exists tr, stop t tr /\ ext (at_time s t) s2 tr.
Proof.
  intros H1 H2. assert (Hn : c_now s1 = t) by apply H1.
  apply reject_bad_spec in H2 as [Hok [Hx|(i & ok & Hx)]]; split; auto.
  - exists ([ORecv t b] ++ []). split; [do 2 constructor|]. eapply ext_trans; eauto.
  - rewrite Hn in Hx. exists ([ORecv t b] ++ [OSend t (empty_bytes T_RST i) ok]). split; [do 2 constructor|].
    eapply ext_trans; eauto.
Qed.

Lemma sep_cases pb s t b resp s1 s2 r :
  received C b resp -> m_token resp = m_token req -> m_id resp <> m_id req ->
  ext (at_time s t) s1 [ORecv t b] ->
  handle_sep_response E C s1 resp = (s2, r) ->
  exists tr, ext (at_time s t) s2 tr /\
   ((r = Ok resp /\ accept C req pb t resp tr) \/ (no_ok r /\ stop t tr)).
Proof.
  intros Hr Ht Hi H1 H2. assert (Hn : c_now s1 = t) by apply H1.
  apply handle_sep_spec in H2 as [(tr & Hx & -> & Hc & [[Hty ->]|[Hty ->]])|(Hok & tr & Hx & Htr)].
  - rewrite Hn in Hx. eexists. split; [eapply ext_trans; eauto|]. left. split; [reflexivity|].
    apply acc_con; assumption.
  - eexists. split; [eapply ext_trans; eauto|]. left. split; [reflexivity|]. apply acc_non; assumption.
  - eexists. split; [eapply ext_trans; eauto|]. right. split; [exact Hok|]. rewrite Hn in Htr.
    destruct Htr as [->|[(i & ok & ->)|(i & ->)]]; cbn [app]; constructor; constructor.
Qed.

Lemma fail_no_ok {A} (r : res A) : no_ok (fail r).
Proof. destruct r; intros ? ?; discriminate. Qed.

Lemma match_token_true resp : match_token req resp = true -> m_token resp = m_token req.
Proof. apply bytes_eqb_eq. Qed.

Lemma exchange_sep_run evs s : run_resp s evs (exchange_sep E C req s evs).
Proof.
  revert s. induction evs as [|[t ev] evs IH]; intro s; cbn [exchange_sep]; [constructor|].
  destruct ev as [e|x|].
  - eapply rr_stop; [do 2 constructor|apply (ext_log (at_time s t))|intros ? ?; discriminate].
  - destruct (client_recv E C (at_time s t) x) as [s1 r1] eqn:Er. apply client_recv_spec in Er.
    change (c_now (at_time s t)) with t in Er.
    destruct Er as [(resp & b & -> & Hr & Hx)|(Hn & tr & Hx & Hq)].
    + destruct (N.eqb_spec (m_id resp) (m_id req)) as [Ei|Ei].
      * destruct (_ =? T_ACK).
        -- eapply rr_quiet; [|exact Hx|apply IH]. constructor.
        -- destruct (_ =? T_RST).
           ++ eapply rr_stop; [|exact Hx|intros ? ?; discriminate]. do 2 constructor.
           ++ destruct (reject_bad E s1 resp) as [s2 r2] eqn:Ej.
              destruct (reject_stop _ _ _ _ _ _ _ Hx Ej) as (Hok & tr & Hs & Hx2).
              unfold done. cbn [fst snd]. eapply rr_stop; eauto.
      * destruct (match_token req resp) eqn:Em.
        -- apply match_token_true in Em.
           destruct (handle_sep_response E C s1 resp) as [s2 r2] eqn:Eh. unfold done. cbn [fst snd].
           destruct (sep_cases false _ _ _ _ _ _ _ Hr Em Ei Hx Eh) as (tr & Hx2 & [[-> Ha]|[Hok Hs]]).
           ++ eapply rr_accept; eauto.
           ++ eapply rr_stop; eauto.
        -- destruct (client_reject E s1 resp) as [s2 r2] eqn:Ej.
           destruct (reject_cont _ _ _ _ _ _ _ Hx Ej) as (tr & Hq & Hx2).
           destruct r2; try (eapply rr_stop; [apply st_quiet; exact Hq|exact Hx2|apply fail_no_ok]).
           eapply rr_quiet; eauto.
    + assert (Hstop : run_resp s ((t, SelRx x) :: evs) (Done s1 evs r1)).
      { eapply rr_stop; [apply st_quiet; exact Hq|exact Hx|exact Hn]. }
      destruct r1 as [m|e|u|]; try exact Hstop; [destruct (Hn m eq_refl)|].
      destruct e; try exact Hstop. eapply rr_quiet; eauto.
  - apply rr_timer. apply (ext_log (at_time s t)).
Qed.

Lemma exchange_non_run evs s : run_resp s evs (exchange_non E C req s evs).
Proof.
  revert s. induction evs as [|[t ev] evs IH]; intro s; cbn [exchange_non]; [constructor|].
  destruct ev as [e|x|].
  - eapply rr_stop; [do 2 constructor|apply (ext_log (at_time s t))|intros ? ?; discriminate].
  - destruct (client_recv E C (at_time s t) x) as [s1 r1] eqn:Er. apply client_recv_spec in Er.
    change (c_now (at_time s t)) with t in Er.
    destruct Er as [(resp & b & -> & Hr & Hx)|(Hn & tr & Hx & Hq)].
    + destruct (N.eqb_spec (m_id resp) (m_id req)) as [Ei|Ei].
      * destruct (_ =? T_RST).
        -- eapply rr_stop; [|exact Hx|intros ? ?; discriminate]. do 2 constructor.
        -- destruct (reject_bad E s1 resp) as [s2 r2] eqn:Ej.
           destruct (reject_stop _ _ _ _ _ _ _ Hx Ej) as (Hok & tr & Hs & Hx2).
           unfold done. cbn [fst snd]. eapply rr_stop; eauto.
      * destruct (match_token req resp) eqn:Em.
        -- apply match_token_true in Em.
           destruct (handle_sep_response E C s1 resp) as [s2 r2] eqn:Eh. unfold done. cbn [fst snd].
           destruct (sep_cases false _ _ _ _ _ _ _ Hr Em Ei Hx Eh) as (tr & Hx2 & [[-> Ha]|[Hok Hs]]).
           ++ eapply rr_accept; eauto.
           ++ eapply rr_stop; eauto.
        -- destruct (client_reject E s1 resp) as [s2 r2] eqn:Ej.
           destruct (reject_cont _ _ _ _ _ _ _ Hx Ej) as (tr & Hq & Hx2).
           destruct r2; try (eapply rr_stop; [apply st_quiet; exact Hq|exact Hx2|apply fail_no_ok]).
           eapply rr_quiet; eauto.
    + assert (Hstop : run_resp s ((t, SelRx x) :: evs) (Done s1 evs r1)).
      { eapply rr_stop; [apply st_quiet; exact Hq|exact Hx|exact Hn]. }
      destruct r1 as [m|e|u|]; try exact Hstop; [destruct (Hn m eq_refl)|].
      destruct e; try exact Hstop. eapply rr_quiet; eauto.
  - apply rr_timer. apply (ext_log (at_time s t)).
Qed.

Lemma exchange_con_run evs s : run_con s evs (exchange_con E C req s evs).
Proof.
  revert s. induction evs as [|[t ev] evs IH]; intro s; cbn [exchange_con]; [constructor|].
  destruct ev as [e|x|].
  - eapply rc_stop; [do 2 constructor|apply (ext_log (at_time s t))|intros ? ?; discriminate].
  - destruct (client_recv E C (at_time s t) x) as [s1 r1] eqn:Er. apply client_recv_spec in Er.
    change (c_now (at_time s t)) with t in Er.
    destruct Er as [(resp & b & -> & Hr & Hx)|(Hn & tr & Hx & Hq)].
    + destruct (N.eqb_spec (m_id resp) (m_id req)) as [Ei|Ei].
      * assert (Hrej : run_con s ((t, SelRx x) :: evs) (done evs (reject_bad E s1 resp))).
        { destruct (reject_bad E s1 resp) as [s2 r2] eqn:Ej.
          destruct (reject_stop _ _ _ _ _ _ _ Hx Ej) as (Hok & tr & Hs & Hx2).
          unfold done. cbn [fst snd]. eapply rc_stop; eauto. }
        destruct (N.eqb_spec (m_type resp) T_ACK) as [Et|Et].
        -- destruct (msg_is_empty resp) eqn:Ee.
           ++ eapply rc_sep; eauto. apply exchange_sep_run.
           ++ destruct (match_token req resp) eqn:Em; [|exact Hrej].
              apply match_token_true in Em.
              unfold handle_piggybacked_response.
              destruct (N.eqb_spec (client_check_options C resp) 0) as [Ec|Ec]; cbn [negb]; [|exact Hrej].
              unfold done. cbn [fst snd]. eapply rc_accept; [|exact Hx]. apply acc_pb; auto.
        -- destruct (_ =? T_RST); [|exact Hrej].
           eapply rc_stop; [|exact Hx|intros ? ?; discriminate]. do 2 constructor.
      * destruct (match_token req resp) eqn:Em.
        -- apply match_token_true in Em.
           destruct (handle_sep_response E C s1 resp) as [s2 r2] eqn:Eh. unfold done. cbn [fst snd].
           destruct (sep_cases true _ _ _ _ _ _ _ Hr Em Ei Hx Eh) as (tr & Hx2 & [[-> Ha]|[Hok Hs]]).
           ++ eapply rc_accept; eauto.
           ++ eapply rc_stop; eauto.
        -- destruct (client_reject E s1 resp) as [s2 r2] eqn:Ej.
           destruct (reject_cont _ _ _ _ _ _ _ Hx Ej) as (tr & Hq & Hx2).
           destruct r2; try (eapply rc_stop; [apply st_quiet; exact Hq|exact Hx2|apply fail_no_ok]).
           eapply rc_quiet; eauto.
    + assert (Hstop : run_con s ((t, SelRx x) :: evs) (Done s1 evs r1)).
      { eapply rc_stop; [apply st_quiet; exact Hq|exact Hx|exact Hn]. }
      destruct r1 as [m|e|u|]; try exact Hstop; [destruct (Hn m eq_refl)|].
      destruct e; try exact Hstop. eapply rc_quiet; eauto.
  - unfold handle_ack_timeout, update_ack_timer.
    change (c_retrans (log (at_time s t) (OTimer t))) with (c_retrans s).
    destruct (N.leb_spec MAX_RETRANSMIT (c_retrans s)) as [Hm|Hm].
    + cbn [fail]. apply rc_timeout; [exact Hm|apply (ext_log (at_time s t))].
    + unfold start_timer.
      destruct (e_set E (c_nset (double_timeout (log (at_time s t) (OTimer t))))) as [e|].
      * cbn [fail]. eapply rc_arm_fail; [exact Hm|reflexivity|reflexivity| |reflexivity].
        cbn [c_trace log double_timeout set_timeout at_time]. unfold double_timeout. cbv zeta.
        cbn [c_trace log set_timeout at_time c_sec c_nsec c_now]. rewrite <- app_assoc. reflexivity.
      * destruct (client_send E _ req) as [s2 r2] eqn:Es. apply client_send_spec in Es.
        destruct Es as [(-> & Hn & _)|(b & ok & Hb & Hx & Hr)].
        -- assert (Hn' : no_ok (fail r2)) by apply fail_no_ok.
           destruct r2; [destruct (Hn a eq_refl)| | |];
           (eapply rc_send_fail with (tr := []); [exact Hm|reflexivity|reflexivity| |reflexivity|auto|exact Hn'];
            unfold double_timeout; cbv zeta;
            cbn [c_trace log set_timeout set_retrans at_time c_sec c_nsec c_now]; rewrite <- app_assoc; reflexivity).
        -- destruct Hx as (Hx1 & Hx2 & Hx3 & Hx4 & Hx5). destruct Hr as [[-> ->]|[-> [e ->]]].
           ++ eapply rc_retrans; [exact Hm|reflexivity|reflexivity|exact Hb| |exact Hx2|exact Hx3|exact Hx4| |apply IH].
              ** rewrite Hx1. unfold double_timeout. cbv zeta.
                 cbn [c_trace log set_timeout set_retrans at_time c_sec c_nsec c_now]. rewrite <- !app_assoc. reflexivity.
              ** rewrite Hx5. reflexivity.
           ++ cbn [fail]. eapply rc_send_fail; [exact Hm|reflexivity|reflexivity| |exact Hx2| |intros ? ?; discriminate].
              ** rewrite Hx1. unfold double_timeout. cbv zeta.
                 cbn [c_trace log set_timeout set_retrans at_time c_sec c_nsec c_now]. rewrite <- !app_assoc. reflexivity.
              ** right. exists b. split; [exact Hb|reflexivity].
Qed.
End Runs.

(** ** Projections of the history *)

Lemma sent_app ty a b : sent ty (a ++ b) = sent ty a ++ sent ty b.
Proof.
  induction a as [|o a IH]; [reflexivity|]. destruct o; cbn [app sent]; auto.
  destruct (_ =? _); cbn [app]; rewrite IH; reflexivity.
Qed.
Lemma armed_app a b : armed (a ++ b) = armed a ++ armed b.
Proof. induction a as [|o a IH]; [reflexivity|]. destruct o; cbn [app armed]; auto. rewrite IH. reflexivity. Qed.

Lemma sent_send ty t b ok : sent ty [OSend t b ok] = if dgram_type b =? ty then [(t, b)] else [].
Proof. cbn. destruct (_ =? _); reflexivity. Qed.

Lemma quiet_sent t tr ty : quiet t tr -> ty <> T_RST -> sent ty tr = [] /\ armed tr = [].
Proof.
  intros H Hty. destruct H; cbn [sent armed]; auto.
  rewrite empty_bytes_type by reflexivity. destruct (N.eqb_spec T_RST ty); [congruence|auto].
Qed.
Lemma stop_sent t tr ty : stop t tr -> ty <> T_RST -> ty <> T_ACK -> sent ty tr = [] /\ armed tr = [].
Proof.
  intros H H3 H2. destruct H as [tr H|b i]; [apply (quiet_sent t); auto|]. cbn [sent armed].
  rewrite empty_bytes_type by reflexivity. destruct (N.eqb_spec T_ACK ty); [congruence|auto].
Qed.
Lemma accept_sent C req pb t resp tr ty : accept C req pb t resp tr -> ty <> T_ACK -> sent ty tr = [] /\ armed tr = [].
Proof.
  intros H H2. destruct H; cbn [sent armed]; auto.
  rewrite empty_bytes_type by reflexivity. destruct (N.eqb_spec T_ACK ty); [congruence|auto].
Qed.


Lemma run_resp_trace C req s evs o : run_resp C req s evs o -> exists tr, history o = c_trace s ++ tr.
Proof.
  induction 1 as [s|s t ev evs s' tr o Hq Hx Hr IH|s t ev evs s' tr r Hs Hx Hn|s t ev evs s' Hx|s t ev evs s' tr resp Ha Hx];
    unfold history in *; cbn [oc_state].
  - exists []. rewrite app_nil_r. reflexivity.
  - destruct IH as [tr' ->]. destruct Hx as (-> & _). cbn [c_trace at_time]. rewrite <- app_assoc. eauto.
  - destruct Hx as (-> & _). eauto.
  - destruct Hx as (-> & _). eauto.
  - destruct Hx as (-> & _). eauto.
Qed.

(** What a successful exchange has in its history. *)
Definition success (C : cfg) (req : msg) (pb : bool) (s : cst) (s' : cst) (resp : msg) : Prop :=
  exists tr t trA, c_trace s' = c_trace s ++ tr ++ trA /\ sent T_ACK tr = [] /\ accept C req pb t resp trA.

Lemma run_resp_ok C req s evs o :
  run_resp C req s evs o -> forall s' evs' resp, o = Done s' evs' (Ok resp) -> success C req false s s' resp.
Proof.
  induction 1 as [s|s t ev evs s' tr o Hq Hx Hr IH|s t ev evs s' tr r Hs Hx Hn|s t ev evs s' Hx|s t ev evs s' tr resp Ha Hx];
    intros s2 evs2 resp2 Heq.
  - discriminate.
  - destruct (IH _ _ _ Heq) as (tr1 & t1 & trA & H1 & H2 & H3). exists (tr ++ tr1), t1, trA.
    destruct Hx as (Hx & _). rewrite H1, Hx. cbn [c_trace at_time]. rewrite <- !app_assoc. split; [reflexivity|].
    split; [|exact H3]. rewrite sent_app, H2. rewrite (proj1 (quiet_sent t tr T_ACK Hq ltac:(discriminate))). reflexivity.
  - injection Heq as -> -> ->. exfalso. eapply Hn. reflexivity.
  - discriminate.
  - injection Heq as -> -> ->. exists [], t, tr. destruct Hx as (Hx & _). rewrite Hx. auto.
Qed.

Lemma accept_weaken C req t resp tr : accept C req false t resp tr -> accept C req true t resp tr.
Proof. intro H. destruct H; [discriminate|apply acc_con; assumption|apply acc_non; assumption]. Qed.

Lemma run_con_ok E C req s evs o :
  run_con E C req s evs o -> m_type req = T_CON ->
  forall s' evs' resp, o = Done s' evs' (Ok resp) -> success C req true s s' resp.
Proof.
  intros Hrun Hty.
  induction Hrun as [s|s t ev evs s' tr o Hq Hx Hr IH|s t ev evs s' tr r Hs Hx Hn|s t ev evs s' tr resp Ha Hx
    |s t ev evs b resp s' o Hrc Ht Hi He Hx Hr|s t ev evs s' Hm Hx|s t ev evs s' e sec nsec Hm Hsec Hnsec Htr Hnow
    |s t ev evs s' r sec nsec tr Hm Hsec Hnsec Htr Hnow Htr' Hn
    |s t ev evs s' b sec nsec o Hm Hsec Hnsec Hb Htr Hnow Hsec' Hnsec' Hret Hr IH];
    intros s2 evs2 resp2 Heq.
  - discriminate.
  - destruct (IH _ _ _ Heq) as (tr1 & t1 & trA & H1 & H2 & H3). exists (tr ++ tr1), t1, trA.
    destruct Hx as (Hx & _). rewrite H1, Hx. cbn [c_trace at_time]. rewrite <- !app_assoc. split; [reflexivity|].
    split; [|exact H3]. rewrite sent_app, H2. rewrite (proj1 (quiet_sent t tr T_ACK Hq ltac:(discriminate))). reflexivity.
  - injection Heq as -> -> ->. exfalso. eapply Hn. reflexivity.
  - injection Heq as -> -> ->. exists [], t, tr. destruct Hx as (Hx & _). rewrite Hx. auto.
  - destruct (run_resp_ok _ _ _ _ _ Hr _ _ _ Heq) as (tr1 & t1 & trA & H1 & H2 & H3).
    exists ([ORecv t b; OArm (c_now s') 30 0 (match e_set E (c_nset (init_resp_timeout s')) with None => true | _ => false end)] ++ tr1), t1, trA.
    split; [|split; [exact H2|apply accept_weaken; exact H3]].
    rewrite H1. unfold start_resp_timer, start_timer. cbn [fst c_trace log init_resp_timeout set_timeout].
    destruct Hx as (Hx & _). rewrite Hx. cbn [c_trace at_time]. rewrite <- !app_assoc. reflexivity.
  - discriminate.
  - discriminate.
  - injection Heq as -> -> ->. exfalso. eapply Hn. reflexivity.
  - destruct (IH _ _ _ Heq) as (tr1 & t1 & trA & H1 & H2 & H3).
    exists ([OTimer t; OArm t sec nsec true; OSend t b true] ++ tr1), t1, trA.
    split; [rewrite H1, Htr, <- !app_assoc; reflexivity|]. split; [|exact H3].
    rewrite sent_app, H2, app_nil_r. cbn [sent]. rewrite (format_type _ _ _ Hb), Hty. reflexivity.
Qed.

(** ** The start of an exchange *)

Lemma gen_rand_str_spec E n s s' l : gen_rand_str E s n = (s', l) ->
  length l = n /\ bytes_ok l /\ ext s s' [].
Proof.
  revert s s' l. induction n as [|n IH]; intros s s' l; cbn [gen_rand_str].
  - intro H. injection H as <- <-. split; [reflexivity|]. split; [constructor|apply ext_refl].
  - unfold do_rand. destruct (gen_rand_str E _ n) as [s1 l1] eqn:Eg. intro H. injection H as <- <-.
    apply IH in Eg as (H1 & H2 & H3). split; [cbn; congruence|]. split.
    + constructor; [|exact H2]. rewrite land_255. unfold byte_ok. lia.
    + destruct H3 as (A & B & D & F & G). repeat split; assumption.
Qed.

Definition with_id_token (m : msg) (i : N) (tok : list N) : msg :=
  mkmsg (m_ver m) (m_type m) (m_class m) (m_detail m) i tok (m_ops m) (m_payload m).

Lemma prepare_req_spec E s req s' r : prepare_req E s req = (s', r) ->
  exists i tok, r = Ok (with_id_token req i tok) /\ i <= 65535 /\ length tok = 4%nat /\ bytes_ok tok /\ ext s s' [].
Proof.
  unfold prepare_req. destruct (gen_rand_str E s 2) as [s1 idb] eqn:Eg1.
  apply gen_rand_str_spec in Eg1 as (L1 & B1 & X1).
  destruct idb as [|x [|y [|z idb]]]; try discriminate L1.
  apply bytes_ok_cons in B1 as [Hx B1]. apply bytes_ok_cons in B1 as [Hy _].
  cbn [nth]. rewrite lor_8 by exact Hx. unfold set_msg_id, MAX_MSG_ID.
  destruct (N.ltb_spec 65535 (256 * y + x)); [lia|].
  destruct (gen_rand_str E s1 4) as [s2 tok] eqn:Eg2.
  apply gen_rand_str_spec in Eg2 as (L2 & B2 & X2).
  unfold set_token, MAX_TOKEN_LEN, lenN. rewrite L2. cbn [N.of_nat Pos.of_succ_nat Pos.succ N.ltb N.compare Pos.compare Pos.compare_cont].
  intro H'. injection H' as <- <-. exists (256 * y + x), tok.
  split; [reflexivity|]. split; [lia|]. split; [exact L2|]. split; [exact B2|].
  change (@nil obs) with (@nil obs ++ []). eapply ext_trans; eauto.
Qed.

(** How an exchange starts: it fails at once, or the request [q] (the caller's
    with a fresh message ID and token) is on its way. *)
Inductive started (E : env) (C : cfg) (s : cst) (req : msg) (evs : list event) : oc -> Prop :=
| sd_fail s' r tr :
    no_ok r -> c_trace s' = c_trace s ++ tr ->
    (tr = [] \/ exists i tok b ok, msg_format (with_id_token req i tok) MAX_BUF_LEN = Ok b /\ tr = [OSend (c_now s) b ok]) ->
    started E C s req evs (Done s' evs r)
| sd_con s1 i tok b r ok o :
    m_type req = T_CON -> i <= 65535 -> length tok = 4%nat ->
    msg_format (with_id_token req i tok) MAX_BUF_LEN = Ok b ->
    c_trace s1 = c_trace s ++ [OSend (c_now s) b true; OArm (c_now s) 2 (r * 1000000) ok] ->
    c_now s1 = c_now s -> r < 1000 -> c_sec s1 = 2 -> c_nsec s1 = r * 1000000 -> c_retrans s1 = 0 ->
    run_con E C (with_id_token req i tok) s1 evs o -> started E C s req evs o
| sd_non s1 i tok b ok o :
    m_type req = T_NON -> i <= 65535 -> length tok = 4%nat ->
    msg_format (with_id_token req i tok) MAX_BUF_LEN = Ok b ->
    c_trace s1 = c_trace s ++ [OSend (c_now s) b true; OArm (c_now s) 30 0 ok] -> c_now s1 = c_now s ->
    run_resp C (with_id_token req i tok) s1 evs o -> started E C s req evs o.

Lemma exchange_started E C s req evs : started E C s req evs (exchange E C s req evs).
Proof.
  unfold exchange. destruct (_ || _) eqn:Eb.
  { eapply sd_fail with (tr := []); [intros ? ?; discriminate|rewrite app_nil_r; reflexivity|auto]. }
  destruct (prepare_req E s req) as [s1 r1] eqn:Ep. apply prepare_req_spec in Ep as (i & tok & -> & Hi & Ht & Hb & Hx).
  destruct (client_send E s1 _) as [s2 r2] eqn:Es. apply client_send_spec in Es.
  destruct Hx as (X1 & X2 & _). rewrite app_nil_r in X1.
  destruct Es as [(-> & Hn & _)|(b & ok & Hf & Hx & Hr)].
  - destruct r2; [destruct (Hn a eq_refl)| | |];
    (eapply sd_fail with (tr := []); [apply fail_no_ok|rewrite app_nil_r; exact X1|auto]).
  - destruct Hx as (Y1 & Y2 & _). rewrite X2 in Y1, Y2. rewrite X1 in Y1.
    destruct Hr as [[-> ->]|[-> [e ->]]].
    2: { eapply sd_fail; [apply fail_no_ok|exact Y1|]. right. exists i, tok, b, false. auto. }
    change (m_type (with_id_token req i tok)) with (m_type req).
    destruct (N.eqb_spec (m_type req) T_CON) as [Et|Et].
    + eapply sd_con with (s1 := start_ack_timer E s2) (r := e_rand E (c_nrand s2) mod 1000); eauto; try reflexivity; try (lia).
      * unfold start_ack_timer, start_timer. cbn [fst]. unfold init_ack_timeout, do_rand.
        cbn [c_trace log set_timeout set_retrans c_now c_sec c_nsec c_nset c_nrand]. rewrite Y1, Y2, <- app_assoc. reflexivity.
      * apply exchange_con_run.
    + destruct (N.eqb_spec (m_type req) T_NON) as [En|En].
      * eapply sd_non with (s1 := start_resp_timer E s2); eauto; try reflexivity.
        -- unfold start_resp_timer, start_timer. cbn [fst]. unfold init_resp_timeout.
           cbn [c_trace log set_timeout set_retrans c_now c_sec c_nsec c_nset c_nrand]. rewrite Y1, Y2, <- app_assoc. reflexivity.
        -- apply exchange_non_run.
      * eapply sd_fail; [intros ? ?; discriminate|exact Y1|]. right.
        exists i, tok, b, true. auto.
Qed.
