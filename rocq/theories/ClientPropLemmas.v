(** Proofs of the properties of one exchange (C19-C23). *)
From Verif Require Import Base BaseLemmas MsgModel MsgSpec MsgLemmas MsgFormatLemmas ClientModel ClientSpec ClientLemmas.

Lemma pow_ge1 n : 1 <= 2 ^ n.
Proof. pose proof (N.pow_nonzero 2 n). lia. Qed.

(** ** C19: retransmission *)

Lemma double_timeout_spec s x : c_nsec s = x * 1000000 -> x < 1000 -> 1000 * c_sec s + x < 100000 ->
  1000000000 * c_sec (double_timeout s) + c_nsec (double_timeout s) = 2 * (1000000000 * c_sec s + c_nsec s) /\
  exists y, c_nsec (double_timeout s) = y * 1000000 /\ y < 1000 /\
            1000 * c_sec (double_timeout s) + y = 2 * (1000 * c_sec s + x).
Proof.
  intros H Hx Hb. unfold double_timeout. cbv zeta. cbn [c_sec c_nsec set_timeout]. unfold two32. rewrite H.
  rewrite N.div_mul by lia.
  rewrite (N.mod_small (2 * (c_sec s * 1000 + x)) 4294967296) by lia.
  set (q := 2 * (c_sec s * 1000 + x)).
  assert (Hq : q = 1000 * (q / 1000) + q mod 1000) by (apply N.div_mod; lia).
  assert (Hr : q mod 1000 < 1000) by (apply N.mod_lt; lia).
  split; [lia|]. exists (q mod 1000). split; [reflexivity|]. split; [exact Hr|]. lia.
Qed.

(** The part of the history after the request is on its way; [w] is the wait in
    force, [k] the number of retransmissions left, [t0] the time of the last
    transmission. *)
Definition con_ok (b : list N) (w : N) (k : nat) (t0 : N) (tr : list obs) : Prop :=
  Forall (fun p => snd p = b) (sent T_CON tr) /\
  (length (sent T_CON tr) <= k)%nat /\
  (exists j, (j <= k)%nat /\
     (armed tr = waits (2 * w) j \/ armed tr = waits (2 * w) j ++ [30000000000])) /\
  (forall d, (match d with Some d' => t0 + w <= d' | None => True end) ->
     timer_law d tr -> spaced w (t0 :: map fst (sent T_CON tr))) /\
  (ends_with_timer tr -> ~ In 30000000000 (armed tr) -> length (sent T_CON tr) = k).

Lemma timer_law_quiet t tr d tr' : quiet t tr -> timer_law d (tr ++ tr') -> timer_law d tr'.
Proof. intro H. destruct H; cbn; auto. Qed.

Lemma ends_tail a b : ends_with_timer (a ++ b) -> b <> [] -> ends_with_timer b.
Proof.
  intros (l & t & H) Hb. destruct b as [|o b] using rev_ind; [congruence|].
  rewrite app_assoc in H. apply app_inj_tail in H as [_ ->]. exists b, t. reflexivity.
Qed.

Lemma stop_no_timer t tr : stop t tr -> ~ ends_with_timer tr.
Proof.
  intros H (l & t' & Heq). destruct H as [tr H|b i]; [destruct H|];
    destruct l as [|? [|? [|? l]]]; try discriminate.
Qed.
Lemma accept_no_timer C req pb t resp tr : accept C req pb t resp tr -> ~ ends_with_timer tr.
Proof. intros H (l & t' & Heq). destruct H; destruct l as [|? [|? [|? l]]]; try discriminate. Qed.

Lemma con_ok_quiet b w k t0 t tr tr' : quiet t tr -> con_ok b w k t0 tr' -> con_ok b w k t0 (tr ++ tr').
Proof.
  intros Hq (H1 & H2 & H3 & H4 & H5).
  destruct (quiet_sent t tr T_CON Hq) as [Q1 Q2]; [discriminate|].
  unfold con_ok. rewrite sent_app, armed_app, Q1, Q2. cbn [app].
  split; [exact H1|]. split; [exact H2|]. split; [exact H3|]. split.
  - intros d Hd HL. apply (H4 d); auto. eapply timer_law_quiet; eauto.
  - intros He. apply H5. destruct He as (l & t' & He). destruct tr' as [|o tr'] using rev_ind.
    + exfalso. rewrite app_nil_r in He. apply (stop_no_timer t tr); [apply st_quiet; exact Hq|]. exists l, t'. exact He.
    + rewrite app_assoc in He. apply app_inj_tail in He as [_ ->]. exists tr', t'. reflexivity.
Qed.

Lemma con_ok_nosend b w k t0 tr :
  sent T_CON tr = [] -> (armed tr = [] \/ armed tr = [30000000000]) ->
  (ends_with_timer tr -> armed tr = [] -> k = O) -> con_ok b w k t0 tr.
Proof.
  intros Hs Ha He. unfold con_ok. rewrite Hs. cbn [length map].
  split; [constructor|]. split; [lia|]. split; [|split].
  - exists O. split; [lia|]. cbn [waits app]. exact Ha.
  - intros d _ _. exact I.
  - intros E L. destruct Ha as [Ha|Ha]; rewrite Ha in L; [|exfalso; apply L; left; reflexivity]. symmetry. apply He; auto.
Qed.

Lemma run_resp_quiet C req s evs o : run_resp C req s evs o ->
  exists tr, history o = c_trace s ++ tr /\ sent T_CON tr = [] /\ armed tr = [].
Proof.
  induction 1 as [s|s t ev evs s' tr o Hq Hx Hr IH|s t ev evs s' tr r Hs Hx Hn|s t ev evs s' Hx|s t ev evs s' tr resp Ha Hx];
    unfold history in *; cbn [oc_state].
  - exists []. rewrite app_nil_r. auto.
  - destruct IH as (tr' & H1 & H2 & H3). exists (tr ++ tr'). destruct Hx as (Hx & _). rewrite H1, Hx. cbn [c_trace at_time].
    rewrite <- app_assoc, sent_app, armed_app, H2, H3.
    destruct (quiet_sent t tr T_CON Hq) as [-> ->]; [discriminate|auto].
  - exists tr. destruct Hx as (-> & _). split; [reflexivity|]. apply (stop_sent t); [auto|discriminate|discriminate].
  - exists [OTimer t]. destruct Hx as (-> & _). auto.
  - exists tr. destruct Hx as (-> & _). split; [reflexivity|]. eapply accept_sent; [eauto|discriminate].
Qed.

Lemma run_con_retrans E C req b : msg_format req MAX_BUF_LEN = Ok b -> m_type req = T_CON ->
  forall s evs o, run_con E C req s evs o ->
  forall k x w t0, c_retrans s + N.of_nat k = 4 -> c_nsec s = x * 1000000 -> x < 1000 ->
  (1000 * c_sec s + x) * 2 ^ (N.of_nat k) < 50000 -> w = 1000000000 * c_sec s + c_nsec s ->
  exists tr, history o = c_trace s ++ tr /\ con_ok b w k t0 tr.
Proof.
  intros Hfmt Hty s evs o Hrun.
  induction Hrun as [s|s t ev evs s' tr o Hq Hx Hr IH|s t ev evs s' tr r Hs Hx Hn|s t ev evs s' tr resp Ha Hx
    |s t ev evs b' resp s' o Hrc Ht Hi He Hx Hr|s t ev evs s' Hm Hx|s t ev evs s' e sec nsec Hm Hsec Hnsec Htr Hnow
    |s t ev evs s' r sec nsec tr Hm Hsec Hnsec Htr Hnow Htr' Hn
    |s t ev evs s' b' sec nsec o Hm Hsec Hnsec Hb Htr Hnow Hsec' Hnsec' Hret Hr IH];
    intros k x w t0 Hk Hxn Hx1 Hbd Hw; unfold history in *; cbn [oc_state].
  - exists []. rewrite app_nil_r. split; [reflexivity|]. apply con_ok_nosend; auto.
    intros (l & t & Hl) _. destruct l; discriminate.
  - destruct Hx as (X1 & X2 & X3 & X4 & X5). cbn in X3, X4, X5.
    destruct (IH k x w t0) as (tr' & H1 & H2); try congruence.
    exists (tr ++ tr'). rewrite H1, X1. cbn [c_trace at_time]. rewrite <- app_assoc.
    split; [reflexivity|]. eapply con_ok_quiet; eauto.
  - exists tr. destruct Hx as (-> & _). split; [reflexivity|].
    destruct (stop_sent t tr T_CON Hs) as [H1 H2]; try discriminate. apply con_ok_nosend; auto.
    intro He. destruct (stop_no_timer _ _ Hs He).
  - exists tr. destruct Hx as (-> & _). split; [reflexivity|].
    destruct (accept_sent _ _ _ _ _ _ T_CON Ha) as [H1 H2]; try discriminate. apply con_ok_nosend; auto.
    intro He. destruct (accept_no_timer _ _ _ _ _ _ Ha He).
  - destruct (run_resp_quiet _ _ _ _ _ Hr) as (tr & H1 & H2 & H3). destruct Hx as (X1 & _).
    exists ([ORecv t b'] ++ [OArm (c_now s') 30 0 (match e_set E (c_nset (init_resp_timeout s')) with None => true | _ => false end)] ++ tr).
    split.
    + unfold history in H1. rewrite H1. unfold start_resp_timer, start_timer.
      cbn [fst c_trace log init_resp_timeout set_timeout]. rewrite X1. cbn [c_trace at_time].
      rewrite <- !app_assoc. reflexivity.
    + apply con_ok_nosend.
      * cbn [app sent]. exact H2.
      * right. cbn [app armed]. rewrite H3. reflexivity.
      * cbn [app armed]. discriminate.
  - exists [OTimer t]. destruct Hx as (-> & _). split; [reflexivity|]. apply con_ok_nosend; auto.
    intros _ _. unfold MAX_RETRANSMIT in Hm. lia.
  - exists [OTimer t; OArm t sec nsec false]. split; [exact Htr|].
    destruct k as [|k]; [unfold MAX_RETRANSMIT in Hm; lia|].
    destruct (double_timeout_spec s x Hxn Hx1) as [D _].
    { assert (1 <= 2 ^ N.of_nat (S k)) by apply pow_ge1. nia. }
    subst sec nsec. unfold con_ok. cbn [sent armed length map]. rewrite D, <- Hw.
    split; [constructor|]. split; [lia|]. split; [exists 1%nat; split; [lia|left; reflexivity]|].
    split; [intros; exact I|]. intros (l & t' & Hl). destruct l as [|? [|? [|? l]]]; discriminate.
  - exists ([OTimer t; OArm t sec nsec true] ++ tr). split; [exact Htr|].
    destruct k as [|k]; [unfold MAX_RETRANSMIT in Hm; lia|].
    destruct (double_timeout_spec s x Hxn Hx1) as [D _].
    { assert (1 <= 2 ^ N.of_nat (S k)) by apply pow_ge1. nia. }
    subst sec nsec. unfold con_ok.
    assert (Hs : sent T_CON ([OTimer t; OArm t (c_sec (double_timeout s)) (c_nsec (double_timeout s)) true] ++ tr) = [] /\ tr = [] \/
                 sent T_CON ([OTimer t; OArm t (c_sec (double_timeout s)) (c_nsec (double_timeout s)) true] ++ tr) = [(t, b)]
                 /\ tr = [OSend t b false]).
    { destruct Htr' as [->|(b1 & Hb1 & ->)]; [left; auto|right]. assert (b1 = b) as -> by congruence.
      split; [|reflexivity]. cbn [app sent]. rewrite (format_type _ _ _ Hfmt), Hty. reflexivity. }
    assert (Har : armed ([OTimer t; OArm t (c_sec (double_timeout s)) (c_nsec (double_timeout s)) true] ++ tr) = [2 * w]).
    { rewrite Hw, <- D. destruct Hs as [[_ ->]|[_ ->]]; reflexivity. }
    rewrite Har.
    split; [destruct Hs as [[-> _]|[-> _]]; repeat constructor|].
    split; [destruct Hs as [[-> _]|[-> _]]; cbn [length]; lia|].
    split; [exists 1%nat; split; [lia|left; reflexivity]|]. split.
    + intros d Hd HL. destruct Hs as [[-> _]|[-> _]]; cbn [map fst spaced]; auto.
      cbn in HL. destruct d as [d|]; [|tauto]. split; [lia|exact I].
    + intros (l & t' & Hl). destruct Hs as [[_ ->]|[_ ->]]; destruct l as [|? [|? [|? [|? l]]]]; discriminate.
  - destruct k as [|k]; [unfold MAX_RETRANSMIT in Hm; lia|].
    assert (Hpow : 2 ^ N.of_nat (S k) = 2 * 2 ^ N.of_nat k).
    { rewrite Nat2N.inj_succ, N.pow_succ_r by lia. reflexivity. }
    assert (1 <= 2 ^ N.of_nat k) by apply pow_ge1.
    destruct (double_timeout_spec s x Hxn Hx1) as (D & y & Y1 & Y2 & Y3); [nia|].
    destruct (IH k y (2 * w) t) as (tr' & H1 & (G1 & G2 & (j & G3 & G3') & G4 & G5)).
    + rewrite Hret. lia.
    + congruence.
    + exact Y2.
    + rewrite Hsec', Hsec, Y3. rewrite Hpow in Hbd. nia.
    + rewrite Hsec', Hnsec', Hsec, Hnsec, D, Hw. reflexivity.
    + exists ([OTimer t; OArm t sec nsec true; OSend t b' true] ++ tr').
      assert (b' = b) as -> by congruence.
      split; [rewrite H1, Htr, <- app_assoc; reflexivity|].
      assert (Hs : sent T_CON ([OTimer t; OArm t sec nsec true; OSend t b true] ++ tr') = (t, b) :: sent T_CON tr').
      { cbn [app sent]. rewrite (format_type _ _ _ Hfmt), Hty. reflexivity. }
      assert (Har : armed ([OTimer t; OArm t sec nsec true; OSend t b true] ++ tr') = 2 * w :: armed tr').
      { cbn [app armed]. rewrite Hsec, Hnsec, D, <- Hw. reflexivity. }
      unfold con_ok. rewrite Hs, Har. cbn [length map fst].
      split; [constructor; [reflexivity|exact G1]|]. split; [lia|]. split; [|split].
      * exists (S j). split; [lia|]. cbn [waits]. destruct G3' as [-> | ->]; auto.
      * intros d Hd HL. cbn in HL. destruct HL as [HL1 HL2]. destruct d as [d|]; [|tauto].
        cbn [spaced]. split; [lia|]. apply (G4 (Some (t + (1000000000 * sec + nsec)))); [|exact HL2].
        rewrite Hsec, Hnsec, D, <- Hw. lia.
      * intros (l & t' & Hl) Hlen. rewrite G5; [reflexivity| |intro Hin; apply Hlen; right; exact Hin].
        destruct tr' as [|o' tr'] using rev_ind.
        { destruct l as [|? [|? [|? [|? l]]]]; discriminate. }
        rewrite app_assoc in Hl. apply app_inj_tail in Hl as [_ ->]. exists tr', t'. reflexivity.
Qed.

Lemma retransmission E C s req evs : c_trace s = [] -> m_type req = T_CON ->
  let tr := history (exchange E C s req evs) in
  exists b T, 2000000000 <= T < 3000000000 /\
    Forall (fun p => snd p = b) (sent T_CON tr) /\
    (length (sent T_CON tr) <= 5)%nat /\
    (exists k, (k <= 5)%nat /\ (armed tr = waits T k \/ armed tr = waits T k ++ [30000000000])) /\
    (timer_law None tr -> spaced T (map fst (sent T_CON tr))) /\
    (ends_with_timer tr -> ~ In 30000000000 (armed tr) -> length (sent T_CON tr) = 5%nat).
Proof.
  intros Hs Hty. cbv zeta. pose proof (exchange_started E C s req evs) as Hst.
  destruct Hst as [s' r tr Hn Htr Hcase|s1 i tok b r ok o Ht Hi Hl Hb Htr Hnow Hr1000 Hsec Hnsec Hret Hrun|s1 i tok b ok o Ht Hi Hl Hb Htr Hnow Hrun].
  - rewrite Hs in Htr. cbn [app] in Htr. unfold history. cbn [oc_state]. rewrite Htr.
    assert (H0 : forall l : list obs, l = [] \/ (exists t b ok, l = [OSend t b ok]) -> ~ ends_with_timer l).
    { intros l Hl (l' & t' & ->). destruct Hl as [Hl|(t & b & ok & Hl)]; destruct l' as [|? [|? l']]; discriminate. }
    destruct Hcase as [->|(i & tok & b & ok & Hb & ->)].
    + exists [], 2000000000. split; [lia|]. cbn. split; [constructor|]. split; [lia|].
      split; [exists O; split; [lia|auto]|]. split; [auto|]. intro He. destruct (H0 _ (or_introl eq_refl) He).
    + exists b, 2000000000. split; [lia|]. rewrite sent_send, (format_type _ _ _ Hb). cbn [m_type with_id_token]. rewrite Hty.
      change (T_CON mod 4 =? T_CON) with true. cbv iota. cbn. split; [repeat constructor|]. split; [lia|].
      split; [exists O; split; [lia|auto]|]. split; [auto|]. intro He.
      exfalso. refine (H0 _ _ He). right. eauto.
  - rewrite Hs in Htr. cbn [app] in Htr.
    assert (Hbd : (1000 * c_sec s1 + r) * 2 ^ N.of_nat 4 < 50000).
    { rewrite Hsec. change (2 ^ N.of_nat 4) with 16. lia. }
    destruct (run_con_retrans E C _ b Hb Hty _ _ _ Hrun 4 r (2000000000 + r * 1000000) (c_now s)) as (tr & H1 & (G1 & G2 & (j & G3 & G3') & G4 & G5)); auto.
    { rewrite Hret. reflexivity. }
    { rewrite Hsec, Hnsec. lia. }
    exists b, (2000000000 + r * 1000000). split; [lia|]. rewrite H1, Htr. rewrite sent_app, armed_app.
    cbn [sent armed]. rewrite (format_type _ _ _ Hb). cbn [m_type with_id_token]. rewrite Hty. change (T_CON mod 4 =? T_CON) with true.
    cbv iota. cbn [app length map fst].
    split; [constructor; [reflexivity|exact G1]|]. split; [lia|]. split; [|split].
    + exists (S j). split; [lia|]. cbn [waits]. replace (1000000000 * 2 + r * 1000000) with (2000000000 + r * 1000000) by lia.
      destruct G3' as [-> | ->]; auto.
    + intro HL. cbn in HL. destruct ok.
      * apply (G4 _) with (2:=HL). lia.
      * apply (G4 None); auto.
    + intros Hl' Hnin. rewrite G5; [reflexivity| |].
      * apply (ends_tail [_; _]) in Hl'; [exact Hl'|]. intros ->. destruct Hl' as (l & t' & Hl').
        destruct l as [|? [|? [|? l]]]; discriminate.
      * intro Hin. apply Hnin. right. exact Hin.
  - rewrite Hty in Ht. discriminate.
Qed.

(** ** C20-C22: the response *)

Lemma parse_facts sg p len m : msg_parse sg p len = Ok m ->
  known_class (m_class m) /\ m_type m < 4 /\ m_detail m < 32 /\ consistent m.
Proof.
  unfold msg_parse. intro H. apply bind_ok in H as (m0 & Hr & H). apply bind_ok in H as ([] & Hck & H).
  injection H as ->. unfold msg_parse_raw in Hr.
  apply bind_ok in Hr as (h & Hh & Hr). apply bind_ok in Hr as (p1 & _ & Hr). apply bind_ok in Hr as (tok & _ & Hr).
  apply bind_ok in Hr as (p2 & _ & Hr). apply bind_ok in Hr as ([[ops p3] l3] & _ & Hr).
  apply bind_ok in Hr as (pl & _ & Hr). injection Hr as <-. cbn [m_class m_type m_detail].
  unfold parse_hdr in Hh. destruct (_ <? _) in Hh; [discriminate|].
  apply bind_ok in Hh as (b0 & _ & Hh). destruct (negb _) in Hh; [discriminate|].
  destruct (_ <? _) in Hh; [discriminate|]. apply bind_ok in Hh as (b1 & _ & Hh).
  destruct (_ && _) eqn:Ec in Hh; [discriminate|].
  apply bind_ok in Hh as (b2 & _ & Hh). apply bind_ok in Hh as (b3 & _ & Hh). injection Hh as <-.
  cbn [h_class h_type h_detail h_id h_tkl] in *.
  assert (Ht : N.land (N.shiftr b0 4) 3 < 4) by (rewrite land_3; lia).
  split; [|split; [exact Ht|split; [rewrite land_31; lia|apply check_consistent; [exact Ht|exact Hck]]]].
  unfold known_class. rewrite !andb_false_iff, !negb_false_iff, !N.eqb_eq in Ec. unfold CL_REQ, CL_SUCCESS, CL_CLIENT_ERR, CL_SERVER_ERR in Ec. tauto.
Qed.

Lemma check_options_spec C m : client_check_options C m = 0 <-> acceptable (cf_proxy C) m.
Proof.
  assert (Hrec : forall n, op_num_is_recognized n = false <->
            ~ In n [1; 3; 4; 5; 7; 8; 11; 12; 14; 15; 17; 20; 23; 27; 28; 35; 39; 60]).
  { intro n. unfold op_num_is_recognized. rewrite <- not_true_iff_false, existsb_exists. apply not_iff_compat. split.
    - intros (x & Hx & E). apply N.eqb_eq in E. subst. exact Hx.
    - intro H. exists n. split; [exact H|apply N.eqb_refl]. }
  assert (Hin : forall n (l : list N), In n l \/ ~ In n l).
  { intros n l. destruct (in_dec N.eq_dec n l); auto. }
  unfold client_check_options, acceptable. destruct (cf_proxy C).
  - rewrite (proj1 (check_unsafe_spec (m_ops m))). split; intros H o Ho.
    + intro Hb. destruct (Hin (o_num o) [1; 3; 4; 5; 7; 8; 11; 12; 14; 15; 17; 20; 23; 27; 28; 35; 39; 60]) as [Hi|Hi]; [exact Hi|].
      exfalso. apply (H o Ho). split; [exact Hb|apply Hrec; exact Hi].
    + intros [Hb Hr]. apply Hrec in Hr. apply Hr, (H o Ho Hb).
  - rewrite (proj1 (check_critical_spec (m_ops m))). split; intros H o Ho.
    + intro Hb. destruct (Hin (o_num o) [1; 3; 4; 5; 7; 8; 11; 12; 14; 15; 17; 20; 23; 27; 28; 35; 39; 60]) as [Hi|Hi]; [exact Hi|].
      exfalso. apply (H o Ho). split; [exact Hb|apply Hrec; exact Hi].
    + intros [Hb Hr]. apply Hrec in Hr. apply Hr, (H o Ho Hb).
Qed.

Lemma run_resp_no_send C req s evs o ty : ty <> T_RST -> ty <> T_ACK -> run_resp C req s evs o ->
  exists tr, history o = c_trace s ++ tr /\ sent ty tr = [].
Proof.
  intros H3 H2.
  induction 1 as [s|s t ev evs s' tr o Hq Hx Hr IH|s t ev evs s' tr r Hs Hx Hn|s t ev evs s' Hx|s t ev evs s' tr resp Ha Hx];
    unfold history in *; cbn [oc_state].
  - exists []. rewrite app_nil_r. auto.
  - destruct IH as (tr' & H1 & H4). exists (tr ++ tr'). destruct Hx as (Hx & _). rewrite H1, Hx. cbn [c_trace at_time].
    rewrite <- app_assoc, sent_app, H4.
    destruct (quiet_sent t tr ty Hq) as [-> _]; auto.
  - exists tr. destruct Hx as (-> & _). split; [reflexivity|]. apply (stop_sent t); auto.
  - exists [OTimer t]. destruct Hx as (-> & _). auto.
  - exists tr. destruct Hx as (-> & _). split; [reflexivity|]. eapply accept_sent; eauto.
Qed.

(** What a successful exchange is: the request datagram [b] was sent, the
    history ends with the acceptance of the response. *)
Lemma exchange_success E C s req evs s' evs' resp :
  c_trace s = [] -> exchange E C s req evs = Done s' evs' (Ok resp) ->
  (m_type req = T_CON \/ m_type req = T_NON) /\
  exists b i tok tr t trA,
    i <= 65535 /\ length tok = 4%nat /\ dgram_id b = i /\ dgram_token b = tok /\
    (exists t0 ok0, In (OSend t0 b ok0) (c_trace s')) /\
    Forall (fun p => snd p = b) (sent (m_type req) (c_trace s')) /\
    c_trace s' = tr ++ trA /\ sent T_ACK tr = [] /\
    accept C (with_id_token req i tok) (m_type req =? T_CON) t resp trA.
Proof.
  intros Hs Hex. pose proof (exchange_started E C s req evs) as Hst. rewrite Hex in Hst.
  inversion Hst as [s2 r tr Hn Htr Hcase|s1 i tok b r ok o Ht Hi Hl Hb Htr Hnow Hr1000 Hsec Hnsec Hret Hrun|s1 i tok b ok o Ht Hi Hl Hb Htr Hnow Hrun]; subst.
  - exfalso. eapply Hn. reflexivity.
  - split; [auto|]. rewrite Hs in Htr. cbn [app] in Htr.
    destruct (run_con_ok _ _ _ _ _ _ Hrun Ht _ _ _ eq_refl) as (tr & t & trA & H1 & H2 & H3).
    destruct (format_id_token _ _ _ Hb) as [Hdi Hdt]; [exact Hi|cbn [m_token with_id_token]; unfold lenN; rewrite Hl; lia|].
    assert (Hbd : (1000 * c_sec s1 + r) * 2 ^ N.of_nat 4 < 50000).
    { rewrite Hsec. change (2 ^ N.of_nat 4) with 16. lia. }
    destruct (run_con_retrans E C _ b Hb Ht _ _ _ Hrun 4 r (2000000000 + r * 1000000) (c_now s)) as (trr & Hh & (G1 & _)); auto.
    { rewrite Hret. reflexivity. }
    { rewrite Hsec, Hnsec. lia. }
    unfold history in Hh. cbn [oc_state] in Hh.
    exists b, i, tok, (c_trace s1 ++ tr), t, trA.
    split; [exact Hi|]. split; [exact Hl|]. split; [exact Hdi|]. split; [exact Hdt|].
    split; [exists (c_now s), true; rewrite H1, Htr; left; reflexivity|].
    split; [|split; [rewrite <- app_assoc; exact H1|split]].
    + rewrite Hh, Htr, sent_app, Ht. cbn [sent]. rewrite (format_type _ _ _ Hb). cbn [m_type with_id_token]. rewrite Ht.
      change (T_CON mod 4 =? T_CON) with true. cbv iota. constructor; [reflexivity|exact G1].
    + rewrite sent_app, H2, Htr. cbn [sent]. rewrite (format_type _ _ _ Hb). cbn [m_type with_id_token]. rewrite Ht. reflexivity.
    + rewrite Ht. exact H3.
  - split; [auto|]. rewrite Hs in Htr. cbn [app] in Htr.
    destruct (run_resp_ok _ _ _ _ _ Hrun _ _ _ eq_refl) as (tr & t & trA & H1 & H2 & H3).
    destruct (format_id_token _ _ _ Hb) as [Hdi Hdt]; [exact Hi|cbn [m_token with_id_token]; unfold lenN; rewrite Hl; lia|].
    destruct (run_resp_no_send _ _ _ _ _ T_NON ltac:(discriminate) ltac:(discriminate) Hrun) as (trr & Hh & G1).
    unfold history in Hh. cbn [oc_state] in Hh.
    exists b, i, tok, (c_trace s1 ++ tr), t, trA.
    split; [exact Hi|]. split; [exact Hl|]. split; [exact Hdi|]. split; [exact Hdt|].
    split; [exists (c_now s), true; rewrite H1, Htr; left; reflexivity|].
    split; [|split; [rewrite <- app_assoc; exact H1|split]].
    + rewrite Hh, Htr, sent_app, Ht, G1. cbn [sent]. rewrite (format_type _ _ _ Hb). cbn [m_type with_id_token]. rewrite Ht.
      change (T_NON mod 4 =? T_NON) with true. cbv iota. constructor; [reflexivity|constructor].
    + rewrite sent_app, H2, Htr. cbn [sent]. rewrite (format_type _ _ _ Hb). cbn [m_type with_id_token]. rewrite Ht. reflexivity.
    + rewrite Ht. exact H3.
Qed.

Lemma response_matches E C s req evs s' evs' resp :
  c_trace s = [] -> exchange E C s req evs = Done s' evs' (Ok resp) ->
  (exists t d, In (ORecv t d) (c_trace s') /\ received C d resp) /\
  acceptable (cf_proxy C) resp /\
  (exists b, (exists t ok, In (OSend t b ok) (c_trace s')) /\
     Forall (fun p => snd p = b) (sent (m_type req) (c_trace s')) /\
     m_token resp = dgram_token b /\ length (m_token resp) = 4%nat /\
     (m_type resp = T_ACK -> m_type req = T_CON /\ m_id resp = dgram_id b) /\
     (m_type resp <> T_ACK -> (m_type resp = T_CON \/ m_type resp = T_NON) /\ m_id resp <> dgram_id b)).
Proof.
  intros Hs Hex. destruct (exchange_success _ _ _ _ _ _ _ _ Hs Hex) as
    (Hty & b & i & tok & tr & t & trA & Hi & Hl & Hdi & Hdt & Hin & Hall & Htr & _ & Ha).
  assert (Hrecv : exists d, In (ORecv t d) trA /\ received C d resp).
  { destruct Ha as [d|d|d]; exists d; (split; [left; reflexivity|assumption]). }
  assert (Hopt : client_check_options C resp = 0) by (destruct Ha; assumption).
  assert (Htok : m_token resp = tok) by (destruct Ha; assumption).
  split; [destruct Hrecv as (d & H1 & H2); exists t, d; split; [rewrite Htr; apply in_or_app; auto|exact H2]|].
  split; [apply check_options_spec; exact Hopt|].
  exists b. split; [exact Hin|]. split; [exact Hall|]. split; [congruence|]. split; [congruence|].
  destruct Ha as [d Hpb Hr Ht Hc Hy Hid He|d Hr Ht Hc Hy Hid|d Hr Ht Hc Hy Hid]; cbn [m_id with_id_token] in Hid.
  - split; [|congruence]. intros _. split; [apply N.eqb_eq; exact Hpb|congruence].
  - split; [rewrite Hy; discriminate|]. intros _. split; [auto|congruence].
  - split; [rewrite Hy; discriminate|]. intros _. split; [auto|congruence].
Qed.

Lemma response_class E C s req evs s' evs' resp :
  c_trace s = [] -> exchange E C s req evs = Done s' evs' (Ok resp) ->
  (forall t d m, In (ORecv t d) (c_trace s') -> received C d m -> m_class m = 0 -> m_detail m = 0) ->
  m_class resp = 2 \/ m_class resp = 4 \/ m_class resp = 5.
Proof.
  intros Hs Hex Hno. destruct (response_matches _ _ _ _ _ _ _ _ Hs Hex) as
    ((t & d & Hin & Hr) & _ & b & _ & _ & _ & Hlen & _).
  pose proof (Hno _ _ _ Hin Hr) as Hz. destruct Hr as [_ Hp].
  apply parse_facts in Hp as (Hk & _ & _ & Hc). destruct Hk as [Hk|Hk]; [|exact Hk].
  destruct Hc as [Hc _]. destruct Hc as (_ & Htok & _); [auto|]. rewrite Htok in Hlen. discriminate.
Qed.

Lemma sep_acknowledged E C s req evs s' evs' resp :
  c_trace s = [] -> exchange E C s req evs = Done s' evs' (Ok resp) ->
  map snd (sent T_ACK (c_trace s')) = if m_type resp =? T_CON then [ack_dgram (m_id resp)] else [].
Proof.
  intros Hs Hex. destruct (exchange_success _ _ _ _ _ _ _ _ Hs Hex) as
    (Hty & b & i & tok & tr & t & trA & Hi & Hl & Hdi & Hdt & Hin & Hall & Htr & Hack & Ha).
  rewrite Htr, sent_app, Hack. cbn [app].
  destruct Ha as [d Hpb Hr Ht Hc Hy Hid He|d Hr Ht Hc Hy Hid|d Hr Ht Hc Hy Hid]; rewrite Hy; cbn [sent].
  - reflexivity.
  - rewrite empty_bytes_type by reflexivity. reflexivity.
  - reflexivity.
Qed.

(** ** C23: bounded time *)

Lemma quiet_bounded eps d now t tr tr' : quiet t tr -> now <= d ->
  prompt eps (Some d) now (tr ++ tr') -> unstarved (Some d) (tr ++ tr') ->
  now <= t < d /\ Forall (fun o => obs_time o <= d) tr /\ prompt eps (Some d) t tr' /\ unstarved (Some d) tr'.
Proof.
  intros Hq Hn. destruct Hq; cbn [app prompt unstarved]; intros (H1 & H2 & H3) (H4 & H5);
  (split; [lia|split; [|split; assumption]]); repeat constructor; cbn [obs_time]; lia.
Qed.

Lemma stop_bounded eps d now t tr : stop t tr -> now <= d ->
  prompt eps (Some d) now tr -> unstarved (Some d) tr -> Forall (fun o => obs_time o <= d) tr.
Proof.
  intros Hs Hn Hp Hu. destruct Hs as [tr Hq|b i].
  - rewrite <- (app_nil_r tr) in Hp, Hu. eapply quiet_bounded; eauto.
  - cbn in Hp, Hu. repeat constructor; cbn [obs_time]; lia.
Qed.

Lemma accept_bounded C req pb eps d now t resp tr : accept C req pb t resp tr -> now <= d ->
  prompt eps (Some d) now tr -> unstarved (Some d) tr -> Forall (fun o => obs_time o <= d) tr.
Proof.
  intros Ha Hn Hp Hu. destruct Ha; cbn in Hp, Hu; repeat constructor; cbn [obs_time]; lia.
Qed.

Lemma Forall_le (tr : list obs) a b : a <= b ->
  Forall (fun o => obs_time o <= a) tr -> Forall (fun o => obs_time o <= b) tr.
Proof. intros H. apply Forall_impl. intros o Ho. lia. Qed.

Definition still (o : oc) (evs : list event) (b : N) : Prop :=
  forall s, o = Waiting s -> Forall (fun e => fst e <= b) evs.

Lemma still_done s evs0 r evs b : still (Done s evs0 r) evs b.
Proof. intros ? ?. discriminate. Qed.

Lemma still_cons o t ev evs b b' : t <= b' -> b <= b' -> still o evs b -> still o ((t, ev) :: evs) b'.
Proof.
  intros Ht Hb H s Hs. constructor; [exact Ht|]. eapply Forall_impl; [|apply (H s Hs)]. cbn. intros e He. lia.
Qed.

Lemma run_resp_bounded C req eps s evs o : run_resp C req s evs o ->
  forall d now, now <= d -> exists tr, history o = c_trace s ++ tr /\
  (prompt eps (Some d) now tr -> unstarved (Some d) tr ->
   Forall (fun o => obs_time o <= d + eps) tr /\ still o evs (d + eps)).
Proof.
  induction 1 as [s|s t ev evs s' tr o Hq Hx Hr IH|s t ev evs s' tr r Hs Hx Hn|s t ev evs s' Hx|s t ev evs s' tr resp Ha Hx];
    intros d now Hd; unfold history in *; cbn [oc_state].
  - exists []. rewrite app_nil_r. split; [reflexivity|]. intros _ _. split; [constructor|]. intros ? _. constructor.
  - destruct Hx as (Hx & _). destruct (N.le_gt_cases t d) as [Htd|Htd].
    + destruct (IH d t Htd) as (tr' & H1 & H2). exists (tr ++ tr'). rewrite H1, Hx. cbn [c_trace at_time].
      rewrite <- app_assoc. split; [reflexivity|]. intros Hp Hu.
      destruct (quiet_bounded _ _ _ _ _ _ Hq Hd Hp Hu) as (Ht & Hf & Hp' & Hu').
      destruct (H2 Hp' Hu') as [H3 H4]. split.
      * apply Forall_app. split; [|exact H3]. eapply Forall_le; [|exact Hf]. lia.
      * eapply still_cons; [| |exact H4]; lia.
    + destruct (IH t t (N.le_refl t)) as (tr' & H1 & _). exists (tr ++ tr'). rewrite H1, Hx. cbn [c_trace at_time].
      rewrite <- app_assoc. split; [reflexivity|]. intros Hp Hu.
      destruct (quiet_bounded _ _ _ _ _ _ Hq Hd Hp Hu) as (Ht & _). lia.
  - exists tr. destruct Hx as (-> & _). split; [reflexivity|]. intros Hp Hu. split; [|apply still_done].
    eapply Forall_le; [|exact (stop_bounded _ _ _ _ _ Hs Hd Hp Hu)]. lia.
  - exists [OTimer t]. destruct Hx as (-> & _). split; [reflexivity|]. cbn. intros Hp Hu. split; [|apply still_done].
    repeat constructor. cbn [obs_time]. lia.
  - exists tr. destruct Hx as (-> & _). split; [reflexivity|]. intros Hp Hu. split; [|apply still_done].
    eapply Forall_le; [|exact (accept_bounded _ _ _ _ _ _ _ _ _ Ha Hd Hp Hu)]. lia.
Qed.

(** Time still to come after the deadline, with [k] retransmissions left after a
    wait of [w]. *)
Fixpoint rest (eps w : N) (k : nat) : N :=
  match k with
  | O => 30000000000 + 2 * eps
  | S k => eps + 2 * w + rest eps (2 * w) k
  end.

Lemma rest_ge eps w k : 30000000000 + 2 * eps <= rest eps w k.
Proof. revert w. induction k as [|k IH]; intro w; cbn [rest]; [lia|]. specialize (IH (2 * w)). lia. Qed.

Lemma run_con_bounded E C req eps : forall s evs o, run_con E C req s evs o ->
  forall k x w d now, c_retrans s + N.of_nat k = 4 -> c_nsec s = x * 1000000 -> x < 1000 ->
  (1000 * c_sec s + x) * 2 ^ (N.of_nat k) < 50000 -> w = 1000000000 * c_sec s + c_nsec s ->
  now <= d ->
  exists tr, history o = c_trace s ++ tr /\
  (prompt eps (Some d) now tr -> unstarved (Some d) tr ->
   Forall (fun o => obs_time o <= d + rest eps w k) tr /\ still o evs (d + rest eps w k)).
Proof.
  intros s evs o Hrun.
  induction Hrun as [s|s t ev evs s' tr o Hq Hx Hr IH|s t ev evs s' tr r Hs Hx Hn|s t ev evs s' tr resp Ha Hx
    |s t ev evs b' resp s' o Hrc Ht Hi He Hx Hr|s t ev evs s' Hm Hx|s t ev evs s' e sec nsec Hm Hsec Hnsec Htr Hnow
    |s t ev evs s' r sec nsec tr Hm Hsec Hnsec Htr Hnow Htr' Hn
    |s t ev evs s' b' sec nsec o Hm Hsec Hnsec Hb Htr Hnow Hsec' Hnsec' Hret Hr IH];
    intros k x w d now Hk Hxn Hx1 Hbd Hw Hd; unfold history in *; cbn [oc_state];
    pose proof (rest_ge eps w k) as Hrest.
  - exists []. rewrite app_nil_r. split; [reflexivity|]. intros _ _. split; [constructor|]. intros ? _. constructor.
  - destruct Hx as (X1 & X2 & X3 & X4 & X5). cbn in X3, X4, X5.
    destruct (N.le_gt_cases t d) as [Htd|Htd].
    + destruct (IH k x w d t) as (tr' & H1 & H2); try congruence.
      exists (tr ++ tr'). rewrite H1, X1. cbn [c_trace at_time]. rewrite <- app_assoc.
      split; [reflexivity|]. intros Hp Hu.
      destruct (quiet_bounded _ _ _ _ _ _ Hq Hd Hp Hu) as (Ht & Hf & Hp' & Hu').
      destruct (H2 Hp' Hu') as [H3 H4]. split.
      * apply Forall_app. split; [|exact H3]. eapply Forall_le; [|exact Hf]. lia.
      * eapply still_cons; [| |exact H4]; lia.
    + destruct (IH k x w t t) as (tr' & H1 & _); try congruence; try lia.
      exists (tr ++ tr'). rewrite H1, X1. cbn [c_trace at_time]. rewrite <- app_assoc.
      split; [reflexivity|]. intros Hp Hu.
      destruct (quiet_bounded _ _ _ _ _ _ Hq Hd Hp Hu) as (Ht & _). lia.
  - exists tr. destruct Hx as (-> & _). split; [reflexivity|]. intros Hp Hu. split; [|apply still_done].
    eapply Forall_le; [|exact (stop_bounded _ _ _ _ _ Hs Hd Hp Hu)]. lia.
  - exists tr. destruct Hx as (-> & _). split; [reflexivity|]. intros Hp Hu. split; [|apply still_done].
    eapply Forall_le; [|exact (accept_bounded _ _ _ _ _ _ _ _ _ Ha Hd Hp Hu)]. lia.
  - destruct (run_resp_bounded _ _ eps _ _ _ Hr (t + 30000000000) t) as (tr & H1 & H2); [lia|].
    destruct Hx as (X1 & X2 & _). cbn in X2.
    set (ok := match e_set E (c_nset (init_resp_timeout s')) with None => true | _ => false end).
    exists ([ORecv t b'] ++ [OArm t 30 0 ok] ++ tr).
    split.
    + unfold history in H1. rewrite H1. unfold start_resp_timer, start_timer.
      cbn [fst c_trace log init_resp_timeout set_timeout]. rewrite X1. cbn [c_trace at_time].
      unfold init_resp_timeout at 1. cbn [c_now set_timeout]. rewrite X2. unfold ok. rewrite <- !app_assoc. reflexivity.
    + cbn [app prompt unstarved]. intros Hp (Hu1 & Hok & Hu). rewrite Hok in Hp. cbn in Hp. destruct Hp as (Hp1 & Hp2 & Hp).
      change (1000000000 * 30 + 0) with 30000000000 in *.
      destruct (H2 Hp Hu) as [H3 H4]. split.
      * constructor; [cbn [obs_time]; lia|]. constructor; [cbn [obs_time]; lia|]. eapply Forall_le; [|exact H3]. lia.
      * eapply still_cons; [| |exact H4]; lia.
  - exists [OTimer t]. destruct Hx as (-> & _). split; [reflexivity|]. cbn. intros Hp Hu. split; [|apply still_done].
    repeat constructor. cbn [obs_time]. lia.
  - exists [OTimer t; OArm t sec nsec false]. split; [exact Htr|]. cbn. intros _ [Hf _]. discriminate.
  - exists ([OTimer t; OArm t sec nsec true] ++ tr). split; [exact Htr|]. intros Hp Hu. split; [|apply still_done].
    cbn in Hp. apply Forall_app. split; [repeat constructor; cbn [obs_time]; lia|].
    destruct Htr' as [->|(b & _ & ->)]; repeat constructor; cbn [obs_time]; lia.
  - destruct k as [|k]; [unfold MAX_RETRANSMIT in Hm; lia|].
    assert (Hpow : 2 ^ N.of_nat (S k) = 2 * 2 ^ N.of_nat k).
    { rewrite Nat2N.inj_succ, N.pow_succ_r by lia. reflexivity. }
    assert (1 <= 2 ^ N.of_nat k) by apply pow_ge1.
    destruct (double_timeout_spec s x Hxn Hx1) as (D & y & Y1 & Y2 & Y3); [nia|].
    destruct (IH k y (2 * w) (t + 2 * w) t) as (tr' & H1 & H2).
    + rewrite Hret. lia.
    + congruence.
    + exact Y2.
    + rewrite Hsec', Hsec, Y3. rewrite Hpow in Hbd. nia.
    + rewrite Hsec', Hnsec', Hsec, Hnsec, D, Hw. reflexivity.
    + lia.
    + exists ([OTimer t; OArm t sec nsec true; OSend t b' true] ++ tr').
      split; [rewrite H1, Htr, <- app_assoc; reflexivity|]. cbn [app prompt unstarved rest].
      intros (Hp1 & Hp2 & Hp) [_ Hu]. rewrite Hsec, Hnsec, D, <- Hw in Hp, Hu.
      destruct (H2 Hp Hu) as [H3 H4]. cbn [rest] in *. split.
      * repeat (constructor; [cbn [obs_time]; lia|]). eapply Forall_le; [|exact H3]. lia.
      * eapply still_cons; [| |exact H4]; lia.
Qed.

Lemma bounded_time E C s req evs eps : c_trace s = [] ->
  let o := exchange E C s req evs in
  let bound := c_now s + 123000000000 + 6 * eps in
  prompt eps None (c_now s) (history o) -> unstarved None (history o) ->
  Forall (fun x => obs_time x <= bound) (history o) /\
  (forall s', o = Waiting s' -> Forall (fun e => fst e <= bound) evs).
Proof.
  intros Hs. cbv zeta. pose proof (exchange_started E C s req evs) as Hst.
  destruct Hst as [s' r tr Hn Htr Hcase|s1 i tok b r ok o Ht Hi Hl Hb Htr Hnow Hr1000 Hsec Hnsec Hret Hrun|s1 i tok b ok o Ht Hi Hl Hb Htr Hnow Hrun].
  - intros _ _. split; [|intros ? ?; discriminate]. unfold history. cbn [oc_state]. rewrite Htr, Hs.
    destruct Hcase as [->|(i & tok & b & ok & Hb & ->)]; repeat constructor. cbn [obs_time]. lia.
  - rewrite Hs in Htr. cbn [app] in Htr.
    assert (Hbd : (1000 * c_sec s1 + r) * 2 ^ N.of_nat 4 < 50000).
    { rewrite Hsec. change (2 ^ N.of_nat 4) with 16. lia. }
    destruct (run_con_bounded E C _ eps _ _ _ Hrun 4 r (2000000000 + r * 1000000) (c_now s + (2000000000 + r * 1000000)) (c_now s)) as (tr & H1 & H2); auto.
    { rewrite Hret. reflexivity. }
    { rewrite Hsec, Hnsec. lia. }
    { lia. }
    rewrite H1, Htr. cbn [app prompt unstarved]. intros Hp [Hok Hu]. rewrite Hok in Hp.
    change (1000000000 * 2 + r * 1000000) with (2000000000 + r * 1000000) in *.
    destruct (H2 Hp Hu) as [H3 H4]. cbn [rest] in H3, H4. split.
    + repeat (constructor; [cbn [obs_time]; lia|]). eapply Forall_le; [|exact H3]. lia.
    + intros s' Hw. eapply Forall_impl; [|exact (H4 s' Hw)]. cbn beta. intros e He. lia.
  - rewrite Hs in Htr. cbn [app] in Htr.
    destruct (run_resp_bounded C _ eps _ _ _ Hrun (c_now s + 30000000000) (c_now s)) as (tr & H1 & H2); [lia|].
    rewrite H1, Htr. cbn [app prompt unstarved]. intros Hp [Hok Hu]. rewrite Hok in Hp.
    change (1000000000 * 30 + 0) with 30000000000 in *.
    destruct (H2 Hp Hu) as [H3 H4]. split.
    + repeat (constructor; [cbn [obs_time]; lia|]). eapply Forall_le; [|exact H3]. lia.
    + intros s' Hw. eapply Forall_impl; [|exact (H4 s' Hw)]. cbn beta. intros e He. lia.
Qed.

(** *** A flood of unrelated datagrams keeps the client waiting for ever *)

Definition E_ok : env := mkenv (fun _ => None) (fun _ => None) (fun _ => 0).
Definition C_ok : cfg := mkcfg UnsignedChar false.
Definition s_ok : cst := mkcst [] 0 0 0 0 0 0 0.
Definition get_req : msg := mkmsg 1 T_CON 0 1 0 [] [] [].
(** A non-confirmable response with a token of somebody else. *)
Definition junk : list N := [81; 69; 0; 5; 1].

Fixpoint flood (eps t : N) (n : nat) : list event :=
  match n with O => [] | S n => (t + eps, SelRx (RxData junk)) :: flood eps (t + eps) n end.

Lemma junk_step s t evs :
  exchange_con E_ok C_ok (with_id_token get_req 0 [0; 0; 0; 0]) s ((t, SelRx (RxData junk)) :: evs) =
  exchange_con E_ok C_ok (with_id_token get_req 0 [0; 0; 0; 0]) (log (at_time s t) (ORecv t junk)) evs.
Proof.
  cbn [exchange_con]. unfold client_recv.
  replace (rx_cut junk) with junk by (vm_compute; reflexivity).
  replace (msg_parse (cf_sg C_ok) (rx_buf junk) (lenN junk)) with (Ok (mkmsg 1 1 2 5 5 [1] [] [])) by (vm_compute; reflexivity).
  reflexivity.
Qed.

Lemma junk_flood eps n : forall s, exists s' tr,
  exchange_con E_ok C_ok (with_id_token get_req 0 [0; 0; 0; 0]) s (flood eps (c_now s) n) = Waiting s' /\
  c_trace s' = c_trace s ++ tr /\ c_now s' = c_now s + N.of_nat n * eps /\
  (forall d, timer_law d tr) /\ (forall d, prompt eps d (c_now s) tr).
Proof.
  induction n as [|n IH]; intro s.
  - exists s, []. rewrite app_nil_r. split; [reflexivity|]. split; [reflexivity|]. split; [lia|]. split; intro; exact I.
  - cbn [flood]. rewrite junk_step.
    destruct (IH (log (at_time s (c_now s + eps)) (ORecv (c_now s + eps) junk))) as (s' & tr & H1 & H2 & H3 & H4 & H5).
    cbn [c_now log at_time c_trace] in *.
    exists s', (ORecv (c_now s + eps) junk :: tr). split; [exact H1|]. split; [rewrite H2, <- app_assoc; reflexivity|].
    split; [rewrite H3; lia|]. split; [intro d; apply H4|]. intro d. cbn [prompt]. split; [lia|].
    split; [destruct d; [lia|exact I]|apply H5].
Qed.

Definition s_sent : cst := mkcst [OSend 0 [68; 1; 0; 0; 0; 0; 0; 0] true; OArm 0 2 0 true] 0 1 1 7 2 0 0.
Lemma junk_start evs : exchange E_ok C_ok s_ok get_req evs =
  exchange_con E_ok C_ok (with_id_token get_req 0 [0; 0; 0; 0]) s_sent evs.
Proof.
  unfold exchange.
  replace (prepare_req E_ok s_ok get_req) with (mkcst [] 0 0 0 6 0 0 0, Ok (with_id_token get_req 0 [0; 0; 0; 0])) by (vm_compute; reflexivity).
  cbv iota beta.
  replace (client_send E_ok (mkcst [] 0 0 0 6 0 0 0) (with_id_token get_req 0 [0; 0; 0; 0]))
    with (mkcst [OSend 0 [68; 1; 0; 0; 0; 0; 0; 0] true] 0 1 0 6 0 0 0, Ok tt) by (vm_compute; reflexivity).
  cbv iota beta. 
  replace (start_ack_timer E_ok (mkcst [OSend 0 [68; 1; 0; 0; 0; 0; 0; 0] true] 0 1 0 6 0 0 0)) with s_sent by (vm_compute; reflexivity).
  reflexivity.
Qed.

Lemma starvation : forall eps B, 0 < eps -> exists E C s req evs s',
  c_trace s = [] /\ exchange E C s req evs = Waiting s' /\
  timer_law None (c_trace s') /\ prompt eps None (c_now s) (c_trace s') /\ B < c_now s'.
Proof.
  intros eps B He.
  destruct (junk_flood eps (S (N.to_nat B)) s_sent) as (s' & tr & H1 & H2 & H3 & H4 & H5).
  exists E_ok, C_ok, s_ok, get_req, (flood eps 0 (S (N.to_nat B))), s'.
  split; [reflexivity|]. split; [rewrite junk_start; exact H1|].
  rewrite H2. cbn [s_sent c_trace app timer_law prompt]. split; [apply H4|]. split; [apply H5|].
  rewrite H3. cbn [s_sent c_now]. nia.
Qed.
