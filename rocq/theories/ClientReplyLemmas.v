(** Proofs about the empty messages the client sends (C63). *)
From Verif Require Import Base BaseLemmas MsgModel MsgSpec MsgLemmas MsgFormatLemmas ClientModel ClientSpec ClientLemmas.

Lemma snoc_split {A} (a : list A) x l1 y l2 : a ++ [x] = l1 ++ y :: l2 ->
  (l2 = [] /\ a = l1 /\ x = y) \/ exists l2', l2 = l2' ++ [x] /\ a = l1 ++ y :: l2'.
Proof.
  destruct l2 as [|z l2 _] using rev_ind; intro H.
  - left. apply app_inj_tail in H as [-> ->]. auto.
  - right. exists l2. rewrite app_comm_cons, app_assoc in H. apply app_inj_tail in H as [-> ->]. auto.
Qed.

Definition is_reply (b : list N) : Prop := dgram_type b = T_ACK \/ dgram_type b = T_RST.

Lemma replies_nil : replies_ok [].
Proof. intros [|? tr1] t b ok tr2 H; discriminate. Qed.

Lemma replies_other tr o : replies_ok tr -> (forall t b ok, o = OSend t b ok -> ~ is_reply b) -> replies_ok (tr ++ [o]).
Proof.
  intros H Ho tr1 t b ok tr2 He Hb. apply snoc_split in He as [(-> & <- & ->)|(l & -> & ->)].
  - destruct (Ho t b ok eq_refl Hb).
  - eapply H; [reflexivity|exact Hb].
Qed.

Lemma replies_reply tr t' d t b ok : replies_ok (tr ++ [ORecv t' d]) ->
  dgram_type d = T_CON -> b = [64 + 16 * dgram_type b; 0; nth 2 d 0; nth 3 d 0] ->
  replies_ok ((tr ++ [ORecv t' d]) ++ [OSend t b ok]).
Proof.
  intros H Hd Hb tr1 t1 b1 ok1 tr2 He Hr. apply snoc_split in He as [(-> & <- & He)|(l & -> & He)].
  - injection He as -> -> ->. exists tr, t', d. auto.
  - eapply H; [exact He|exact Hr].
Qed.

(** The client has just received [d]. *)
Definition just (s : cst) (d : list N) : Prop := exists tr t, c_trace s = tr ++ [ORecv t d].
Definition fine (s : cst) : Prop := replies_ok (c_trace s).

Lemma id_bytes x y : x < 256 -> y < 256 -> (256 * x + y) / 256 = x /\ (256 * x + y) mod 256 = y.
Proof. lia. Qed.

Lemma reply_fine E s d t i s' r : fine s -> just s d -> t = T_ACK \/ t = T_RST ->
  dgram_type d = T_CON -> i = 256 * nth 2 d 0 + nth 3 d 0 -> nth 2 d 0 < 256 -> nth 3 d 0 < 256 ->
  send_empty E s t i = (s', r) -> fine s'.
Proof.
  intros Hf (tr & t' & Hj) Ht Hd -> H2 H3 H. apply send_empty_spec in H; [|exact Ht].
  destruct H as [[-> _]|(ok & (Hx & _) & _)]; [exact Hf|].
  unfold fine in *. rewrite Hx, Hj. apply replies_reply; [rewrite <- Hj; exact Hf|exact Hd|].
  rewrite empty_bytes_type by (destruct Ht as [->| ->]; reflexivity).
  unfold empty_bytes. destruct (id_bytes _ _ H2 H3) as [-> ->]. reflexivity.
Qed.

(** The parser reads type and message ID where they are. *)
Lemma rd_app_nth b past i x : rd (b ++ past) i = Ok x -> i < lenN b -> x = nth (N.to_nat i) b 0.
Proof.
  unfold rd. destruct (_ <? _); [|discriminate]. intros H Hi. injection H as <-. apply app_nth1. unfold lenN in Hi. lia.
Qed.

Lemma nth_byte b i : bytes_ok b -> nth i b 0 < 256.
Proof.
  intro H. destruct (Nat.lt_ge_cases i (length b)) as [Hi|Hi].
  - unfold bytes_ok in H. rewrite Forall_forall in H. apply H. apply nth_In. exact Hi.
  - rewrite nth_overflow by exact Hi. reflexivity.
Qed.

Definition head_is (d : list N) (t i : N) : Prop :=
  dgram_type d = t /\ i = 256 * nth 2 d 0 + nth 3 d 0 /\ nth 2 d 0 < 256 /\ nth 3 d 0 < 256.

Lemma parse_type_id_head d past t i : bytes_ok d -> parse_type_msg_id (d ++ past) (lenN d) = Ok (t, i) -> head_is d t i.
Proof.
  intros Hd. unfold parse_type_msg_id. destruct (N.ltb_spec (lenN d) 4); [discriminate|].
  intro H'. apply bind_ok in H' as (b0 & H0 & H'). apply bind_ok in H' as (b2 & H2 & H'). apply bind_ok in H' as (b3 & H3 & H').
  injection H' as <- <-. apply rd_app_nth in H0, H2, H3; try lia.
  change (N.to_nat 0) with 0%nat in H0. change (N.to_nat 2) with 2%nat in H2. change (N.to_nat 3) with 3%nat in H3. subst.
  pose proof (nth_byte d 2 Hd). pose proof (nth_byte d 3 Hd).
  unfold head_is, dgram_type. rewrite land_3, lor_8 by assumption. rewrite N.shiftr_div_pow2. auto.
Qed.

Lemma parse_head sg d past m : bytes_ok d -> msg_parse sg (d ++ past) (lenN d) = Ok m -> head_is d (m_type m) (m_id m).
Proof.
  intros Hd. unfold msg_parse. intro H. apply bind_ok in H as (m0 & Hr & H). apply bind_ok in H as ([] & _ & H).
  injection H as ->. unfold msg_parse_raw in Hr.
  apply bind_ok in Hr as (h & Hh & Hr). apply bind_ok in Hr as (p1 & _ & Hr). apply bind_ok in Hr as (tok & _ & Hr).
  apply bind_ok in Hr as (p2 & _ & Hr). apply bind_ok in Hr as ([[ops p3] l3] & _ & Hr).
  apply bind_ok in Hr as (pl & _ & Hr). injection Hr as <-. cbn [m_type m_id].
  apply (parse_type_id_head d past); [exact Hd|]. unfold parse_hdr in Hh. unfold parse_type_msg_id.
  destruct (_ <? _) in Hh |- *; [discriminate|].
  apply bind_ok in Hh as (b0 & -> & Hh). destruct (negb _) in Hh; [discriminate|].
  destruct (_ <? _) in Hh; [discriminate|]. apply bind_ok in Hh as (b1 & _ & Hh).
  destruct (_ && _) in Hh; [discriminate|].
  apply bind_ok in Hh as (b2 & E2 & Hh). apply bind_ok in Hh as (b3 & E3 & Hh). injection Hh as <-.
  cbn [bind h_type h_id]. rewrite E2. cbn [bind]. rewrite E3. reflexivity.
Qed.

Lemma rx_cut_bytes b : bytes_ok b -> bytes_ok (rx_cut b).
Proof.
  intro H. unfold rx_cut. rewrite <- (firstn_skipn (N.to_nat MAX_BUF_LEN) b) in H. apply bytes_ok_app in H. tauto.
Qed.

Lemma log_fine s o : fine s -> (forall t b ok, o = OSend t b ok -> ~ is_reply b) -> fine (log s o).
Proof. intros H Ho. apply replies_other; assumption. Qed.

Lemma recv_fine E C s x s' r : fine s -> (forall b, x = RxData b -> bytes_ok b) ->
  client_recv E C s x = (s', r) ->
  fine s' /\ (forall m, r = Ok m -> exists d, just s' d /\ head_is d (m_type m) (m_id m)).
Proof.
  intros Hf Hb. unfold client_recv. destruct x as [b|e].
  2: { intro H. injection H as <- <-. split; [apply log_fine; [exact Hf|discriminate]|discriminate]. }
  specialize (Hb b eq_refl). apply rx_cut_bytes in Hb. cbv zeta.
  set (s1 := log s (ORecv (c_now s) (rx_cut b))).
  assert (F1 : fine s1) by (apply log_fine; [exact Hf|discriminate]).
  assert (J1 : just s1 (rx_cut b)) by (exists (c_trace s), (c_now s); reflexivity).
  unfold rx_buf. destruct (msg_parse _ _ _) as [m|e|u|] eqn:Ep.
  - intro H. injection H as <- <-. split; [exact F1|]. intros m' H. injection H as <-.
    exists (rx_cut b). split; [exact J1|]. eapply parse_head; eauto.
  - destruct e; try (intro H; injection H as <- <-; split; [exact F1|discriminate]).
    unfold handle_format_error. destruct (parse_type_msg_id _ _) as [[t i]|e|u|] eqn:Et.
    2-4: intro H; injection H as <- <-; split; [exact F1|discriminate].
    apply parse_type_id_head in Et as (T1 & T2 & T3 & T4); [|exact Hb].
    destruct (N.eqb_spec t T_CON) as [E0|E0].
    + destruct (send_empty E s1 T_RST i) as [s2 r2] eqn:Es. intro H. injection H as <- <-.
      split; [|destruct r2; discriminate].
      eapply reply_fine; [exact F1|exact J1|right; reflexivity| | | | |exact Es]; auto. congruence.
    + intro H. injection H as <- <-. split; [exact F1|discriminate].
  - intro H; injection H as <- <-; split; [exact F1|discriminate].
  - intro H; injection H as <- <-; split; [exact F1|discriminate].
Qed.

Section Loops.
Context (E : env) (C : cfg) (req : msg).

Lemma reject_fine s d m s' r : fine s -> just s d -> head_is d (m_type m) (m_id m) ->
  client_reject E s m = (s', r) -> fine s'.
Proof.
  intros Hf Hj (T1 & T2 & T3 & T4). unfold client_reject. destruct (N.eqb_spec (m_type m) T_CON) as [E0|E0].
  - intro H. eapply reply_fine; [exact Hf|exact Hj|right; reflexivity| | | | |exact H]; auto. congruence.
  - intro H. injection H as <- <-. exact Hf.
Qed.
Lemma reject_bad_fine s d m : fine s -> just s d -> head_is d (m_type m) (m_id m) -> fine (fst (reject_bad E s m)).
Proof.
  intros Hf Hj Hh. unfold reject_bad. destruct (client_reject E s m) as [s1 r1] eqn:Er. cbn [fst]. eapply reject_fine; eauto.
Qed.
Lemma pb_fine s d m : fine s -> just s d -> head_is d (m_type m) (m_id m) -> fine (fst (handle_piggybacked_response E C s m)).
Proof.
  intros Hf Hj Hh. unfold handle_piggybacked_response. destruct (negb _); [eapply reject_bad_fine; eauto|exact Hf].
Qed.
Lemma sep_fine s d m : fine s -> just s d -> head_is d (m_type m) (m_id m) -> fine (fst (handle_sep_response E C s m)).
Proof.
  intros Hf Hj Hh. unfold handle_sep_response. destruct (N.eqb_spec (m_type m) T_CON) as [E0|E0].
  - destruct (negb _); [eapply reject_bad_fine; eauto|].
    destruct (client_send_ack E s m) as [s1 r1] eqn:Es. cbn [fst]. destruct Hh as (T1 & T2 & T3 & T4).
    eapply reply_fine; [exact Hf|exact Hj|left; reflexivity| | | | |exact Es]; auto. congruence.
  - destruct (_ =? T_NON); [destruct (negb _); [eapply reject_bad_fine; eauto|exact Hf]|eapply reject_bad_fine; eauto].
Qed.

Lemma start_timer_fine s : fine s -> fine (fst (start_timer E s)).
Proof.
  intro H. unfold start_timer. destruct (e_set E (c_nset s)); cbn [fst]; (apply replies_other; [exact H|discriminate]).
Qed.
Lemma resp_timer_fine s : fine s -> fine (start_resp_timer E s).
Proof. intro H. apply start_timer_fine. exact H. Qed.

Lemma send_fine s m s' r : fine s -> m_type m = T_CON \/ m_type m = T_NON -> client_send E s m = (s', r) -> fine s'.
Proof.
  intros Hf Ht H. apply client_send_spec in H as [(-> & _)|(b & ok & Hb & (Hx & _) & _)]; [exact Hf|].
  unfold fine. rewrite Hx. apply replies_other; [exact Hf|]. intros t b' ok' He. injection He as _ <- _.
  apply format_type in Hb. unfold is_reply. rewrite Hb. intros Hr. destruct Ht as [Ht|Ht], Hr as [Hr|Hr]; rewrite Ht in Hr; discriminate.
Qed.

Lemma timeout_fine s s' r : m_type req = T_CON -> fine s -> handle_ack_timeout E s req = (s', r) -> fine s'.
Proof.
  intros Ht Hf. unfold handle_ack_timeout, update_ack_timer. destruct (_ <=? _).
  - intro H. injection H as <- <-. exact Hf.
  - cbv zeta. pose proof (start_timer_fine (double_timeout s)) as Hs. destruct (start_timer E (double_timeout s)) as [s1 r1].
    cbn [fst] in Hs. assert (F1 : fine s1) by (apply Hs; exact Hf).
    destruct r1 as [[]|e|u|]; try (intro H; injection H as <- <-; exact F1).
    intro H. eapply send_fine; [|left; exact Ht|exact H]. exact F1.
Qed.

Definition fine_oc (o : oc) : Prop := fine (oc_state o).

Lemma evs_tail e evs : events_ok (e :: evs) -> events_ok evs.
Proof. intros H t b Hin. apply (H t b). right. exact Hin. Qed.

Ltac rx Er Hf He t :=
  apply recv_fine in Er as [F1 J1]; [|exact Hf|intros ? ->; apply (He t); left; reflexivity].

Lemma exchange_sep_fine evs : forall s, events_ok evs -> fine s -> fine_oc (exchange_sep E C req s evs).
Proof.
  induction evs as [|[t ev] evs IH]; intros s He Hf; cbn [exchange_sep]; [exact Hf|].
  pose proof (evs_tail _ _ He) as He'. destruct ev as [e|x|].
  - apply log_fine; [exact Hf|discriminate].
  - destruct (client_recv E C (at_time s t) x) as [s1 r1] eqn:Er. rx Er Hf He t.
    destruct r1 as [m|e|u|]; try exact F1; [|destruct e; try exact F1; apply IH; assumption].
    destruct (J1 m eq_refl) as (d & J & Hh).
    destruct (_ =? m_id req).
    + destruct (_ =? T_ACK); [apply IH; assumption|]. destruct (_ =? T_RST); [exact F1|].
      eapply reject_bad_fine; eauto.
    + destruct (match_token req m); [eapply sep_fine; eauto|].
      destruct (client_reject E s1 m) as [s2 r2] eqn:Ej. assert (F2 : fine s2) by (eapply reject_fine; eauto).
      destruct r2; try exact F2. apply IH; assumption.
  - apply log_fine; [exact Hf|discriminate].
Qed.

Lemma exchange_non_fine evs : forall s, events_ok evs -> fine s -> fine_oc (exchange_non E C req s evs).
Proof.
  induction evs as [|[t ev] evs IH]; intros s He Hf; cbn [exchange_non]; [exact Hf|].
  pose proof (evs_tail _ _ He) as He'. destruct ev as [e|x|].
  - apply log_fine; [exact Hf|discriminate].
  - destruct (client_recv E C (at_time s t) x) as [s1 r1] eqn:Er. rx Er Hf He t.
    destruct r1 as [m|e|u|]; try exact F1; [|destruct e; try exact F1; apply IH; assumption].
    destruct (J1 m eq_refl) as (d & J & Hh).
    destruct (_ =? m_id req).
    + destruct (_ =? T_RST); [exact F1|]. eapply reject_bad_fine; eauto.
    + destruct (match_token req m); [eapply sep_fine; eauto|].
      destruct (client_reject E s1 m) as [s2 r2] eqn:Ej. assert (F2 : fine s2) by (eapply reject_fine; eauto).
      destruct r2; try exact F2. apply IH; assumption.
  - apply log_fine; [exact Hf|discriminate].
Qed.

Lemma exchange_con_fine evs : m_type req = T_CON ->
  forall s, events_ok evs -> fine s -> fine_oc (exchange_con E C req s evs).
Proof.
  intro Ht. induction evs as [|[t ev] evs IH]; intros s He Hf; cbn [exchange_con]; [exact Hf|].
  pose proof (evs_tail _ _ He) as He'. destruct ev as [e|x|].
  - apply log_fine; [exact Hf|discriminate].
  - destruct (client_recv E C (at_time s t) x) as [s1 r1] eqn:Er. rx Er Hf He t.
    destruct r1 as [m|e|u|]; try exact F1; [|destruct e; try exact F1; apply IH; assumption].
    destruct (J1 m eq_refl) as (d & J & Hh).
    destruct (_ =? m_id req).
    + destruct (_ =? T_ACK).
      * destruct (msg_is_empty m); [apply exchange_sep_fine; [assumption|apply resp_timer_fine; exact F1]|].
        destruct (match_token req m); [eapply pb_fine; eauto|eapply reject_bad_fine; eauto].
      * destruct (_ =? T_RST); [exact F1|]. eapply reject_bad_fine; eauto.
    + destruct (match_token req m); [eapply sep_fine; eauto|].
      destruct (client_reject E s1 m) as [s2 r2] eqn:Ej. assert (F2 : fine s2) by (eapply reject_fine; eauto).
      destruct r2; try exact F2. apply IH; assumption.
  - destruct (handle_ack_timeout _ _ _) as [s1 r1] eqn:Eh.
    assert (F1 : fine s1).
    { eapply timeout_fine; [exact Ht| |exact Eh]. apply log_fine; [exact Hf|discriminate]. }
    destruct r1; try exact F1. apply IH; assumption.
Qed.
End Loops.

Lemma replies E C s req evs : c_trace s = [] -> m_type req < 4 -> events_ok evs ->
  replies_ok (history (exchange E C s req evs)).
Proof.
  intros Hs Hty He. assert (Hf : fine s) by (unfold fine; rewrite Hs; apply replies_nil).
  change (fine_oc (exchange E C s req evs)). unfold exchange.
  destruct (N.eqb_spec (m_type req) T_ACK) as [T2|T2]; [exact Hf|].
  destruct (N.eqb_spec (m_type req) T_RST) as [T3|T3]; [exact Hf|]. cbn [orb].
  destruct (negb _); [exact Hf|].
  destruct (prepare_req E s req) as [s1 r1] eqn:Ep.
  pose proof (prepare_req_spec _ _ _ _ _ Ep) as (i & tok & -> & _ & _ & _ & (X & _)).
  assert (F1 : fine s1) by (unfold fine; rewrite X, app_nil_r; exact Hf).
  destruct (client_send E s1 _) as [s2 r2] eqn:Es.
  assert (F2 : fine s2).
  { eapply send_fine; [exact F1| |exact Es]. cbn [m_type with_id_token]. unfold T_ACK, T_RST, T_CON, T_NON in *. lia. }
  destruct r2; try exact F2. cbn [m_type with_id_token].
  destruct (N.eqb_spec (m_type req) T_CON) as [T0|T0].
  - apply exchange_con_fine; [exact T0|exact He|]. apply start_timer_fine. exact F2.
  - destruct (_ =? T_NON); [|exact F2]. apply exchange_non_fine; [exact He|]. apply resp_timer_fine. exact F2.
Qed.
