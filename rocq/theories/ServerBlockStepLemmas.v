(** Blockwise transfers of the server: what one request does. *)
From Coq Require Import Permutation.
From Verif Require Import BaseLemmas MsgModel MsgSpec MsgLemmas MsgFormatLemmas MsgBlockLemmas
  ClientModel ClientSpec ClientLemmas ClientReplyLemmas ServerModel ServerSpec ServerLemmas ClientBlockLemmas
  ServerTraceLemmas ServerPropLemmas ServerHistLemmas ServerBlockSpec ServerBlockLemmas ServerUploadLemmas
  ServerTransferLemmas ServerDownloadLemmas.

Section App.
Context {A : Type} (P : app A) (E : senv) (C : scfg).

Lemma still_calls s : Forall still s -> calls s = [].
Proof. induction 1 as [|o s Ho Hs IH]; [reflexivity|]. destruct o; cbn in *; try contradiction; exact IH. Qed.

Lemma same_slot (v : @srv A) t u : base v -> In t (v_tr v) -> In u (v_tr v) -> t_active t = true -> t_active u = true ->
  t_client t = t_client u -> t = u.
Proof.
  intros Hb Ht Hu At Au Hc. apply In_nth_error in Ht as [i Hi], Hu as [j Hj].
  assert (Hii : nth i (v_tr v) trans_zero = t) by (apply nth_error_nth; exact Hi).
  assert (Hjj : nth j (v_tr v) trans_zero = u) by (apply nth_error_nth; exact Hj).
  assert (Li : (i < 8)%nat) by (rewrite <- (ba_len _ Hb); apply nth_error_Some; congruence).
  assert (Lj : (j < 8)%nat) by (rewrite <- (ba_len _ Hb); apply nth_error_Some; congruence).
  assert (i = j) by (apply (ba_uniq _ Hb i j Li Lj); unfold tr; rewrite ?Hii, ?Hjj; auto). congruence.
Qed.

(** What follows the answer [r2]: it is completed, formatted and sent. *)
Definition reply_run (c : N) (m : msg) (r2 : res msg) (s : list sobs) (rr : res unit) : Prop :=
  (exists e, r2 = Err e /\ s = [SDestroy c] /\ rr = Err e) \/
  ((forall q, r2 <> Ok q) /\ (forall e, r2 <> Err e) /\ s = [] /\ rr = (let* _ := r2 in Ok tt)) \/
  exists resp i, r2 = Ok resp /\ i <= 65535 /\ let f := msg_format (complete resp i (m_token m) (resp_type C m)) MAX_BUF_LEN in
    ((exists b ok, f = Ok b /\ sends s = [(c, b)] /\ In (SSend c b ok) s /\ (rr = Ok tt \/ exists e, rr = Err e)) \/
     (forall b, f <> Ok b) /\ sends s = [] /\
       ((exists e, f = Err e /\ rr = Err e) \/ (forall e, f <> Err e) /\ rr = (let* _ := f in Ok tt))).

Lemma sent_off_reply t2 m resp i t3 s4 rr : i <= 65535 ->
  sent_off t2 m (complete resp i (m_token m) (resp_type C m)) t3 s4 rr ->
  reply_run (t_client t2) m (Ok resp) s4 rr /\ Forall still s4 /\
  (In (SDestroy (t_client t2)) s4 \/ xfer t3 = xfer t2 /\ t_active t3 = t_active t2 /\ t_client t3 = t_client t2).
Proof.
  intros Hi H. split; [|split].
  - right. right. exists resp, i. split; [reflexivity|]. split; [exact Hi|]. cbv zeta.
    destruct H as [e Hf|r Hf N1 N2|b e Hf|b now Hf|b now q Hf _ _|b now q r Hf _ _|b now r e Hf _].
    + right. split; [congruence|]. split; [reflexivity|]. left. eauto.
    + right. rewrite Hf. split; [exact N1|]. split; [reflexivity|]. right. auto.
    + left. exists b, false. repeat split; auto; [left; reflexivity|eauto].
    + left. exists b, true. repeat split; auto; [left; reflexivity|eauto].
    + left. exists b, true. repeat split; auto. left; reflexivity.
    + left. exists b, true. repeat split; auto. left; reflexivity.
    + left. exists b, true. repeat split; auto; [left; reflexivity|eauto].
  - destruct H; repeat constructor.
  - destruct H; try (left; cbn; tauto); right; repeat split; reflexivity.
Qed.

(** A new request: the acknowledgement could not be sent, or there is an answer. *)
Lemma new_request (v : @srv A) c d m v' r s :
  step P E C v (EvRx c d None) v' r s -> reads C d m -> In (SRecv c d) s ->
  m_type m = T_CON \/ m_type m = T_NON -> m_class m = 0 -> fresh_id c (m_id m) (v_trace v) ->
  pwf m /\ exists s0 t now x, s = s0 ++ SRecv c d :: SUse c now :: x /\ t_active t = true /\ t_client t = c /\
  (s0 = [] /\ In c (live (v_trace v)) /\ In t (v_tr v) \/ opening c s0 /\ ~ In c (live (v_trace v)) /\ exists u, t = fresh_trans c u) /\
  (x = [SSend c (ack_dgram (m_id m)) false; SDestroy c] /\ r = None \/
   exists t1 s1 t2 s2 r2 s3 rr, acked C (blank (t_with_last_use t now)) m t1 s1 /\ answered P C t1 (v_app v) m t2 s2 (v_app v') r2 /\
     x = s1 ++ s2 ++ s3 /\ Forall still s3 /\ r = outcome rr /\ reply_run c m r2 s3 rr /\
     (In (SDestroy c) s3 \/ exists t3, In t3 (v_tr v') /\ t_active t3 = true /\ t_client t3 = c /\ xfer t3 = xfer t2)).
Proof.
  intros Hst Hrd Hin Hty Hcl Hf. pose proof Hst as (Hre & _).
  apply reach_all in Hre as (Hb & [Hl Hh] & HS & _).
  assert (Hb' : base v') by (apply step_in in Hst as [_ Hm]; eapply micros_base; eassumption).
  destruct (rx_received P E C v c d m v' r s Hst Hrd Hin)
    as (s0 & t & now & s1 & t' & id' & a' & rr & -> & Hw & Hrun & -> & W & (i & Hi & Hi') & Ha).
  assert (Hm : match_req (t_with_last_use t now) m = false).
  { eapply fresh_no_match; [exact Hf|exact Hl|].
    destruct Hw as [(_ & Hl' & _ & _ & Hct & HI)|(_ & Hn & Hu)]; [left; auto|right; auto]. }
  split; [exact W|]. exists s0, t, now, s1. split; [reflexivity|].
  assert (Hact : t_active t = true /\ t_client t = c).
  { destruct Hw as [(_ & _ & _ & At & Ct & _)|(_ & _ & u & ->)]; [auto|split; reflexivity]. }
  destruct Hact as [At Hct]. split; [exact At|]. split; [exact Hct|].
  split; [destruct Hw as [(-> & Hl' & Ht & _)|Hw]; [left; auto|right; exact Hw]|]. clear Hw.
  inversion Hrun; subst; try congruence;
    try (exfalso; repeat match goal with H : _ \/ _ |- _ => destruct H | H : _ /\ _ |- _ => destruct H end; unfold T_CON, T_NON, T_ACK, T_RST in *; congruence).
  match goal with H : req_run _ _ _ _ _ _ _ _ _ _ _ |- _ => rename H into Hq end.
  assert (Hlast : forall t3 t2, tr v' i = t3 -> xfer t3 = xfer t2 -> t_active t3 = t_active t /\ t_client t3 = t_client t ->
    exists t3, In t3 (v_tr v') /\ t_active t3 = true /\ t_client t3 = t_client t /\ xfer t3 = xfer t2).
  { intros t3 t2 Hi3 Hx Hc3. exists t3. split; [|split; [|split]].
    - rewrite <- Hi3. unfold tr. apply nth_In. rewrite (ba_len _ Hb'). exact Hi.
    - rewrite <- At. apply Hc3.
    - apply Hc3.
    - exact Hx. }
  inversion Hq as [e Hc Hs|t1 s1' t2 s2 a2 e Hak Han|t1 s1' t2 s2 a2 r2 Hak Han N1 N2|t1 s1' t2 s2 a2 resp s3 id2 i2 t3 s4 r3 Hak Han Hid B1 B2 Hso]; subst.
  - left. split; reflexivity.
  - right. exists t1, s1', t2, s2, (Err e), [SDestroy (t_client t)], (Err e). 
    split; [exact Hak|]. split; [exact Han|]. split; [reflexivity|]. split; [repeat constructor|]. split; [reflexivity|].
    split; [left; eauto|]. left. left. reflexivity.
  - right. exists t1, s1', (tr v' i), s2, r2, [], (let* _ := r2 in Ok tt).
    split; [exact Hak|]. split; [exact Han|]. split; [rewrite app_nil_r; reflexivity|]. split; [constructor|]. split; [reflexivity|].
    split; [right; left; auto|]. right. eapply Hlast; [reflexivity|reflexivity|].
    apply answered_fine in Han as (Hc & _). split; [rewrite (core_active _ _ Hc)|rewrite (core_client _ _ Hc)]; inversion Hak; reflexivity.
  - pose proof (answered_fine _ _ _ _ _ _ _ _ _ Han) as (Hc2 & _).
    assert (Hac2 : t_active t2 = t_active t) by (rewrite (core_active _ _ Hc2); inversion Hak; reflexivity).
    assert (Hcl2 : t_client t2 = t_client t) by (rewrite (core_client _ _ Hc2); inversion Hak; reflexivity).
    apply sent_off_reply in Hso as (Hr & Hst4 & Hd); [|exact B2]. rewrite Hcl2 in *.
    right. exists t1, s1', t2, s2, (Ok resp), (s3 ++ s4), rr.
    assert (Hs3 : Forall still s3 /\ sends s3 = []) by (inversion Hid; split; repeat constructor). destruct Hs3 as [St3 Se3].
    split; [exact Hak|]. split; [exact Han|]. split; [reflexivity|]. split; [apply Forall_app; auto|]. split; [reflexivity|]. split.
    + right. right. destruct Hr as [(e & Hr & _)|[(Hr & _)|(resp' & j & Hr & Hj & Hrest)]]; [discriminate|exfalso; eapply Hr; reflexivity|].
      exists resp', j. split; [exact Hr|]. split; [exact Hj|]. cbv zeta in *. rewrite sends_app, Se3. cbn [List.app].
      destruct Hrest as [(b & ok & K1 & K2 & K3 & K4)|(K1 & K2 & K3)]; [left|right; auto].
      exists b, ok. repeat split; auto. apply in_or_app. auto.
    + destruct Hd as [Hd|(Hd1 & Hd2 & Hd3)]; [left; apply in_or_app; auto|]. right.
      eapply Hlast; [reflexivity|exact Hd1|]. split; congruence.
Qed.

(** The same in a transaction that is there. *)
Lemma new_in_slot (v : @srv A) c d m v' r s t :
  step P E C v (EvRx c d None) v' r s -> reads C d m -> In (SRecv c d) s ->
  m_type m = T_CON \/ m_type m = T_NON -> m_class m = 0 -> fresh_id c (m_id m) (v_trace v) ->
  In t (v_tr v) -> t_active t = true -> t_client t = c ->
  pwf m /\ exists now x, s = SRecv c d :: SUse c now :: x /\
  (x = [SSend c (ack_dgram (m_id m)) false; SDestroy c] /\ r = None \/
   exists t1 s1 t2 s2 r2 s3 rr, acked C (blank (t_with_last_use t now)) m t1 s1 /\ answered P C t1 (v_app v) m t2 s2 (v_app v') r2 /\
     x = s1 ++ s2 ++ s3 /\ Forall still s3 /\ r = outcome rr /\ reply_run c m r2 s3 rr /\
     (In (SDestroy c) s3 \/ exists t3, In t3 (v_tr v') /\ t_active t3 = true /\ t_client t3 = c /\ xfer t3 = xfer t2)).
Proof.
  intros Hst Hrd Hin Hty Hcl Hf Ht At Hct. pose proof Hst as (Hre & _).
  apply reach_all in Hre as (Hb & [Hl Hh] & HS & _).
  destruct (new_request v c d m v' r s Hst Hrd Hin Hty Hcl Hf) as (W & s0 & t0 & now & x & -> & At0 & Ct0 & Hw & H).
  split; [exact W|]. exists now, x. destruct Hw as [(-> & _ & Ht0)|(_ & Hn & _)].
  - assert (t0 = t) as -> by (apply (same_slot v); auto; congruence). auto.
  - exfalso. apply Hn, Hh. apply In_nth_error in Ht as [j Hj]. exists j.
    assert (Hjj : nth j (v_tr v) trans_zero = t) by (apply nth_error_nth; exact Hj).
    split; [rewrite <- (ba_len _ Hb); apply nth_error_Some; congruence|]. unfold tr. rewrite Hjj. auto.
Qed.

(** ** Responses that fit *)

Lemma resp_type_lt m : resp_type C m < 3.
Proof. unfold resp_type, T_CON, T_ACK, T_NON. destruct (_ =? _); [destruct (sepb C m)|]; lia. Qed.

Lemma reply_format resp m i : rwf resp -> pwf m -> i <= 65535 -> m_class resp <> 0 ->
  Forall op_ok (m_ops resp) -> Forall len_ok (m_ops resp) -> bytes_ok (m_payload resp) ->
  12 + ops_size 0 (m_ops resp) + lenN (m_payload resp) < 1151 ->
  exists b, msg_format (complete resp i (m_token m) (resp_type C m)) MAX_BUF_LEN = Ok b /\
    nth 1 b 0 = 32 * m_class resp + m_detail resp.
Proof.
  intros Wr Wm Hi Hc Ho Hl Hp Hs. pose proof (resp_type_lt m) as Hty. set (q := complete _ _ _ _).
  assert (W : wf_msg q).
  { split; cbn [q complete m_ver m_type m_class m_detail m_id m_token m_ops m_payload]; try apply Wr; try apply Wm; auto. lia. }
  assert (Hsz : wire_size q < MAX_BUF_LEN).
  { unfold wire_size. cbn [q complete m_token m_ops m_payload]. pose proof (pw_tkl m Wm). unfold MAX_BUF_LEN.
    destruct (m_payload resp) as [|x l]; [lia|]. lia. }
  pose proof (format_result q MAX_BUF_LEN W Hl) as Hr. cbv zeta in Hr.
  destruct Hr as [(Hr & _)|[(_ & Hr)|[(_ & Hr & _)|(_ & Hr & _)]]]; try lia.
  - unfold MAX_BUF_LEN, two64. lia.
  - exists (enc_msg q). split; [exact Hr|]. rewrite (format_code _ _ _ Hr); [reflexivity|apply Wr|apply Wr].
  - exfalso. unfold msg_check in Hr. cbn [q complete m_class m_type] in Hr.
    rewrite (proj2 (N.eqb_neq (m_class resp) 0)) in Hr by exact Hc. cbn [andb] in Hr.
    unfold T_RST in Hr. rewrite (proj2 (N.eqb_neq (resp_type C m) 3)) in Hr by lia. discriminate.
Qed.

(** ** Uploads *)

Lemma min_szx a b : (exists x, x < 7 /\ a = 2 ^ (4 + x)) -> (exists x, x < 7 /\ b = 2 ^ (4 + x)) -> exists x, x < 7 /\ N.min a b = 2 ^ (4 + x).
Proof.
  intros (x & Hx & Ha) (y & Hy & Hb). destruct (N.le_ge_cases a b) as [H|H].
  - rewrite N.min_l by exact H. eauto.
  - rewrite N.min_r by exact H. eauto.
Qed.

Lemma upload_step (v : @srv A) c d m v' r s t :
  sc_large C < large ->
  step P E C v (EvRx c d None) v' r s -> reads C d m -> In (SRecv c d) s ->
  m_type m = T_CON \/ m_type m = T_NON -> m_class m = 0 -> fresh_id c (m_id m) (v_trace v) -> acceptable (sc_proxy C) m ->
  In t (v_tr v) -> t_active t = true -> t_client t = c -> uploading (t_type t) ->
  exists ms size, since_handled C c (v_trace v) ms /\ offered P c ms size /\ consecutive_blocks size 0 ms true /\ same_target ms /\
   (In (SSend c (ack_dgram (m_id m)) false) s \/ block_ub m \/
    readable m /\ fits C size ms m false /\ calls s = [(c, concat (map m_payload (ms ++ [m])))] \/
    readable m /\ fits C size ms m true /\ calls s = [] /\ replies c s 95 /\ keeps v' c s (t_type t) \/
    ~ (readable m /\ exists more, fits C size ms m more) /\ calls s = [] /\
      (replies c s 128 \/ replies c s 136 \/ replies c s 141) /\ keeps v' c s TRegular).
Proof.
  intros HL Hst Hrd Hin Hty Hcl Hf Hac Ht At Hct Hup.
  pose proof Hst as (Hre & He & _). cbn in He.
  destruct (reach_inv P E C (Inv1 P C) v) as [Hb [HS HU]]; auto; [intros; apply Inv1_init|intros v0 v0' s0; apply Inv1_micro; exact HL|].
  destruct (new_in_slot v c d m v' r s t Hst Hrd Hin Hty Hcl Hf Ht At Hct) as (W & now & x & -> & Hx).
  assert (HV : UInv P C (v_trace v) t).
  { apply In_nth_error in Ht as [j Hj]. 
    assert (Hjj : nth j (v_tr v) trans_zero = t) by (apply nth_error_nth; exact Hj).
    assert (Lj : (j < 8)%nat) by (rewrite <- (ba_len _ Hb); apply nth_error_Some; congruence).
    specialize (HU j Lj). unfold tr in HU. rewrite Hjj in HU. apply HU. exact At. }
  destruct (HV Hup) as (ms & buf & s0 & Hsince & U & Of). rewrite Hct in Hsince, Of.
  assert (Hne : ms <> []) by (destruct Hsince as (? & ? & ? & ? & _ & -> & _); discriminate).
  exists ms, s0. split; [eapply since_at_handled; exact Hsince|]. split; [exact Of|]. split; [eapply all_more_blocks; [apply U|exact Hne]|].
  split; [eapply targets; [exact Hup|apply U]|].
  destruct Hx as [(-> & _)|(t1 & s1 & t2 & s2 & r2 & s3 & rr & Hak & Han & -> & St3 & _ & Hrep & Hkeep)].
  { left. right. right. left. reflexivity. }
  right. 
  assert (Hx1 : xfer t1 = xfer t) by (rewrite (acked_xfer _ _ _ _ _ Hak); reflexivity).
  assert (Hc1 : t_client t1 = c) by (rewrite (acked_client _ _ _ _ _ Hak); exact Hct).
  assert (Hty1 : t_type t1 = t_type t) by (injection Hx1; auto).
  assert (U1 : up_state C s0 ms buf t1) by (eapply up_state_xfer; [exact Hx1|exact U]).
  destruct (reads_parts _ _ _ He Hrd) as (Hv & _ & Hpl).
  destruct (acked_still _ _ _ _ _ Hak) as (Q1 & _).
  destruct Han as [Hz|a9 l t9 resp r9 Hz Hn En|a9 e Hz Hn Eh|a9 l Hz Hn Eh|a8 l z1 z2 bd bl rx lg a9 ol t9 resp r9 Hz Hn Eh Eb].
  { exfalso. apply Hz, server_options_spec. exact Hac. }
  2-4: exfalso; rewrite Hty1 in Hn; destruct Hup as [X|X]; congruence.
  pose proof (next_block1_spec P (v_app v) t1 buf m msg_create (us_takes _ _ _ _ _ U1) Hv Hpl rwf_create) as Q. rewrite En in Q.
  set (s := SRecv c d :: SUse c now :: s1 ++ l ++ s3) in *.
  assert (Hcalls : calls s = calls l).
  { unfold s. cbn [calls]. rewrite !calls_app, (still_calls s1 Q1), (still_calls s3 St3), app_nil_r. reflexivity. }
  assert (Hkeeps : keeps v' c s (t_type t9)).
  { destruct Hkeep as [Hd|(t3 & K1 & K2 & K3 & K4)]; [left|right].
    - right. right. apply in_or_app. right. apply in_or_app. right. exact Hd.
    - exists t3. repeat split; auto. injection K4. auto. }
  assert (Hsend : forall code, (forall i, i <= 65535 -> r9 = Ok tt -> exists b, msg_format (complete resp i (m_token m) (resp_type C m)) MAX_BUF_LEN = Ok b /\ nth 1 b 0 = code) ->
     r9 = Ok tt -> replies c s code).
  { intros code Hfm ->. cbn [bind] in Hrep. destruct Hrep as [(e & Hr & _)|[(Hr & _)|(resp' & i & Hr & Hi & Hres)]];
      [discriminate|exfalso; eapply Hr; reflexivity|]. injection Hr as <-.
    destruct (Hfm i Hi eq_refl) as (b & Hb1 & Hb2). cbv zeta in Hres. rewrite Hb1 in Hres.
    destruct Hres as [(b' & ok & [= <-] & _ & Hin' & _)|(Hno & _)]; [|exfalso; eapply Hno; reflexivity].
    exists b, ok. split; [|exact Hb2]. right. right. apply in_or_app. right. apply in_or_app. right. exact Hin'. }
  assert (Hcode : forall d9, d9 <= 31 -> resp = with_code msg_create 4 d9 -> r9 = Ok tt -> replies c s (128 + d9)).
  { intros d9 Hd9 -> ->. apply Hsend; [|reflexivity]. intros i Hi _.
    destruct (reply_format (with_code msg_create 4 d9) m i) as (b & Hb1 & Hb2); auto; try (constructor; fail).
    - split; cbn; try lia; auto; vm_compute; discriminate.
    - discriminate.
    - eexists. split; [exact Hb1|]. rewrite Hb2. cbn [with_code m_class m_detail]. lia. }
  assert (Hfit : forall o1 more, parse_block_op (m_ops m) OP_BLOCK1 = Ok o1 -> fits C s0 ms m more -> due1 t1 buf m o1 /\ more = b_more (blk_or_zero o1)).
  { intros o1 more Ho1 (F1 & F2 & F3).
    destruct (all_more_inv _ _ _ _ _ _ _ (us_blocks _ _ _ _ _ U1) F1) as (num & o & B1 & B2 & B3).
    destruct (block1_inv _ _ _ _ _ Ho1 B1) as (-> & -> & ->). split; [|reflexivity].
    pose proof (all_more_length _ _ _ _ _ (us_blocks _ _ _ _ _ U1)) as Hlen.
    rewrite map_app, concat_app, lenN_app in F3. cbn [map concat] in F3. rewrite app_nil_r in F3.
    destruct F2 as (me & pa & F2). destruct ms as [|m0 ms0]; [congruence|].
    destruct (us_target _ _ _ _ _ U1 m0 (or_introl eq_refl)) as [T1 T2].
    destruct (F2 m0) as [G1 G2]; [left; reflexivity|]. destruct (F2 m) as [G3 G4]; [apply in_or_app; right; left; reflexivity|].
    split; [congruence|]. split; [congruence|]. split; [rewrite resize_smaller; exact B2|]. split; [exact B3|].
    rewrite (us_len _ _ _ _ _ U1). lia. }
  assert (Hdue : forall o1, parse_block_op (m_ops m) OP_BLOCK1 = Ok o1 -> due1 t1 buf m o1 -> fits C s0 ms m (b_more (blk_or_zero o1))).
  { intros o1 Ho1 (D1 & D2 & D3 & D4 & D5).
    pose proof (all_more_length _ _ _ _ _ (us_blocks _ _ _ _ _ U1)) as Hlen.
    split; [|split].
    - eapply all_more_end; [exact (us_blocks _ _ _ _ _ U1)|apply block1_of; exact Ho1| |exact D4]. rewrite <- resize_smaller. exact D3.
    - eapply targets; [rewrite <- Hty1 in Hup; exact Hup|]. intros m' Hm'. apply in_app_iff in Hm' as [Hm'|[<-|[]]]; [apply (us_target _ _ _ _ _ U1 m' Hm')|split; assumption].
    - rewrite map_app, concat_app, lenN_app. cbn [map concat]. rewrite app_nil_r. rewrite (us_len _ _ _ _ _ U1) in D5. lia. }
  inversion Q as [t0 H1 H2|t0 o1 dd H1 H2 H3|t0 u H1 H2|t0 o1 H1 H2 H3|o1 o2 vv E1 E2 D M size Z L Bk Bv|o1 o2 vv rx a0 rr0 l0 x' E1 E2 D M size Z L Bk Bv R Ap Ro]; subst.
  - right. right. right. split; [|split; [exact Hcalls|split]].
    + intros [[[q1 Q1'] [q2 Q2']] _]. destruct H2; congruence.
    + left. apply (Hcode 0); auto. lia.
    + rewrite H1 in Hkeeps. exact Hkeeps.
  - right. right. right. split; [|split; [exact Hcalls|split]].
    + intros [_ (more & Hfm)]. apply (Hfit o1) in Hfm as [(D1 & D2 & D3 & D4 & D5) _]; auto.
      destruct H3 as [(K0 & [(K1 & _)|(K1 & [(K2 & _)|(K2 & K3 & _)])])|(K0 & _)]; try congruence; [lia|]. apply K0. auto.
    + assert (Hd : dd = 8 \/ dd = 0 \/ dd = 13).
      { destruct H3 as [(K0 & [(K1 & K)|(K1 & [(K2 & K)|(K2 & K3 & K)])])|(K0 & K)]; auto. }
      destruct Hd as [->|[->| ->]]; [right; left; apply (Hcode 8)|left; apply (Hcode 0)|right; right; apply (Hcode 13)]; auto; lia.
    + rewrite H1 in Hkeeps. exact Hkeeps.
  - left. exact H2.
  - exfalso. assert (Hz1 : exists szx, szx < 7 /\ resize o1 (t_size1 t1) = 2 ^ (4 + szx)).
    { rewrite resize_smaller. destruct o1 as [b|]; cbn [option_map smaller]; [|apply (us_size _ _ _ _ _ U1 Hne)].
      apply min_szx; [|apply (us_size _ _ _ _ _ U1 Hne)]. apply (parse_block_op_ok _ _ _ Hv H2). }
    destruct Hz1 as (szx & Hs & Hz1). rewrite Hz1, (szx_calc szx Hs) in H3. discriminate.
  - right. right. left. split; [split; eauto|]. split; [rewrite <- M; apply Hdue; assumption|]. split; [exact Hcalls|]. split.
    + apply Hsend; [|reflexivity]. intros i Hi _.
      destruct (reply_format (with_code (with_block1 msg_create vv) 2 31) m i) as (b & Hb1 & Hb2); auto.
      * split; cbn; try lia; auto; try (vm_compute; discriminate).
      * discriminate.
      * repeat constructor; cbn; auto; unfold o_len; cbn; rewrite ?L; vm_compute; auto; discriminate.
      * repeat constructor; cbn; auto; unfold len_ok, o_len; cbn; rewrite ?L; vm_compute; auto; discriminate.
      * constructor.
      * cbn. unfold o_len. cbn. rewrite L. unfold OP_BLOCK1. vm_compute. reflexivity.
      * eexists. split; [exact Hb1|]. exact Hb2.
    + cbn [t_with_block t_type] in Hkeeps. rewrite Hty1 in Hkeeps. exact Hkeeps.
  - right. left. split; [split; eauto|]. split; [rewrite <- M; apply Hdue; assumption|].
    assert (Hin2 : In (SCall (t_client t1) (firstn (N.to_nat (t_next1 t1 + lenN (m_payload m))) (taken t1 buf m)))
                      (snd (fst (a9, SCall (t_client t1) (firstn (N.to_nat (t_next1 t1 + lenN (m_payload m))) (taken t1 buf m)) :: l0, (t9, resp, r9))))) by (left; reflexivity).
    rewrite Hcalls. cbn [calls]. 
    destruct (up_call P C _ _ _ _ _ _ _ _ _ _ U1 Q Hin2) as (_ & _ & B2 & _ & _ & l' & El & Hl').
    cbn [fst snd] in El. injection El as El. rewrite B2, Hc1. f_equal. subst l0.
    clear -Hl'. induction Hl' as [|o l' [b ->] H IH]; [reflexivity|exact IH].
Qed.

(** ** Downloads *)

Lemma wants_of m o2 : parse_block_op (m_ops m) OP_BLOCK2 = Ok o2 -> wants m (b_num (blk_or_zero o2)) (option_map b_size o2).
Proof. intro H. unfold wants. rewrite H. destruct o2; cbn; auto. Qed.
Lemma wants_inv m o2 num o : parse_block_op (m_ops m) OP_BLOCK2 = Ok o2 -> wants m num o ->
  num = b_num (blk_or_zero o2) /\ o = option_map b_size o2.
Proof. intro H. unfold wants. rewrite H. destruct o2; cbn; auto. Qed.

Lemma method_same ty d d' : serving ty -> method_of ty d -> (method_of ty d' <-> d' = d).
Proof. intros [->|[->| ->]]; cbn; intros ->; tauto. Qed.

Lemma download_step (v : @srv A) c d m v' r s t :
  sc_large C < large -> keeps_buffer P -> proper P ->
  step P E C v (EvRx c d None) v' r s -> reads C d m -> In (SRecv c d) s ->
  m_type m = T_CON \/ m_type m = T_NON -> m_class m = 0 -> fresh_id c (m_id m) (v_trace v) -> acceptable (sc_proxy C) m ->
  In t (v_tr v) -> t_active t = true -> t_client t = c -> serving (t_type t) ->
  exists h0 body mid j m0 pos cur, v_trace v = h0 ++ SBody c body :: mid /\ (forall o, In o mid -> ~ boundary c o) /\
   last_id c h0 = Some j /\ last_request C c h0 m0 /\ partway body (answers c j mid) pos (Some cur) /\
   (In (SSend c (ack_dgram (m_id m)) false) s \/ block_ub m \/
    let due := fun num o => readable m /\ wants m num o /\ num * smaller cur o = pos /\ m_detail m = m_detail m0 /\ seen_path m = seen_path m0 in
    (exists num o, due num o /\ sends_block c s body pos (smaller cur o) /\
       keeps v' c s (if pos + smaller cur o <=? lenN body then t_type t else TRegular)) \/
    (~ exists num o, due num o) /\ replies c s 128 /\ keeps v' c s TRegular).
Proof.
  intros HL HK HP Hst Hrd Hin Hty Hcl Hf Hac Ht At Hct Hsv.
  pose proof Hst as (Hre & He & _). cbn in He.
  destruct (reach_inv P E C (Inv2 P C) v) as [Hb [HS [HU HD]]]; auto; [intros; apply Inv2_init|intros v0 v0' s0; apply Inv2_micro; assumption|].
  destruct (new_in_slot v c d m v' r s t Hst Hrd Hin Hty Hcl Hf Ht At Hct) as (W & now & x & -> & Hx).
  assert (HV : DInv C (v_trace v) t).
  { apply In_nth_error in Ht as [j Hj]. 
    assert (Hjj : nth j (v_tr v) trans_zero = t) by (apply nth_error_nth; exact Hj).
    assert (Lj : (j < 8)%nat) by (rewrite <- (ba_len _ Hb); apply nth_error_Some; congruence).
    specialize (HD j Lj). unfold tr in HD. rewrite Hjj in HD. apply HD. exact At. }
  destruct (di_serving _ _ _ HV Hsv) as (body & m0 & (h0 & mid & j & Eh & Hmid & Hj & Hlr) & [Hm0 Hp0]).
  rewrite Hct in *.
  destruct (fold_left (answers_obs c) mid (j, true, [])) as [[i due] bs] eqn:Ef.
  assert (Hpd : pend c (v_trace v) body (i, due, bs)) by (exists h0, mid, j; auto).
  pose proof (di_pend _ _ _ HV) as Hdp. rewrite Hct in Hdp.
  destruct (Hdp _ _ _ _ Hpd) as [_ [Hreg|(_ & buf & HB & Hbody & Hpw & Hbb & Hszx)]].
  { exfalso. apply (proj1 (serving_kind _ Hsv)). exact Hreg. }
  exists h0, body, mid, j, m0, (t_next2 t), (t_size2 t). split; [exact Eh|].
  split; [intros o Ho; rewrite Forall_forall in Hmid; apply (Hmid o Ho)|]. split; [exact Hj|]. split; [exact Hlr|].
  split; [unfold answers; rewrite Ef; exact Hpw|].
  destruct Hx as [(-> & _)|(t1 & s1 & t2 & s2 & r2 & s3 & rr & Hak & Han & -> & St3 & _ & Hrep & Hkeep)].
  { left. right. right. left. reflexivity. }
  right. 
  assert (Hx1 : xfer t1 = xfer t) by (rewrite (acked_xfer _ _ _ _ _ Hak); reflexivity).
  assert (Hc1 : t_client t1 = c) by (rewrite (acked_client _ _ _ _ _ Hak); exact Hct).
  assert (Hty1 : t_type t1 = t_type t) by (injection Hx1; auto).
  assert (HB1 : has_body t1 buf) by (eapply has_body_xfer; [exact Hx1|exact HB]).
  destruct (reads_parts _ _ _ He Hrd) as (Hv & _ & Hpl).
  destruct Han as [Hz|a9 l t9 resp r9 Hz Hn En|a9 e Hz Hn Eh'|a9 l Hz Hn Eh'|a8 l z1 z2 bd bl rx lg a9 ol t9 resp r9 Hz Hn Eh' Eb].
  { exfalso. apply Hz, server_options_spec. exact Hac. }
  2-4: exfalso; rewrite Hty1 in Hn; apply (proj1 (serving_kind _ Hsv)); congruence.
  assert (En' : l = [] /\ next_block2 t1 m msg_create = (t9, resp, r9)).
  { unfold next_block in En. rewrite Hty1 in En. destruct Hsv as [E1|[E1|E1]]; rewrite E1 in En; split; congruence. }
  destruct En' as [-> En']. cbn [List.app] in *.
  assert (Hs1 : serving (t_type t1)) by (rewrite Hty1; exact Hsv).
  pose proof (next_block2_spec t1 buf m msg_create HB1 Hv Hs1) as Q. rewrite En' in Q.
  set (s := SRecv c d :: SUse c now :: s1 ++ s3) in *.
  assert (Hkeeps : keeps v' c s (t_type t9)).
  { destruct Hkeep as [Hd|(t3 & K1 & K2 & K3 & K4)]; [left|right].
    - right. right. apply in_or_app. right. exact Hd.
    - exists t3. repeat split; auto. injection K4. auto. }
  assert (Hsend : r9 = Ok tt -> forall Q : list N -> msg -> Prop,
     (forall i, i <= 65535 -> exists b, msg_format (complete resp i (m_token m) (resp_type C m)) MAX_BUF_LEN = Ok b /\ Q b (complete resp i (m_token m) (resp_type C m))) ->
     exists b ok p, In (SSend c b ok) s /\ Q b p).
  { intros -> QQ Hfm. cbn [bind] in Hrep. destruct Hrep as [(e & Hr & _)|[(Hr & _)|(resp' & k & Hr & Hi & Hres)]];
      [discriminate|exfalso; eapply Hr; reflexivity|]. injection Hr as <-.
    destruct (Hfm k Hi) as (b & Hb1 & Hb2). cbv zeta in Hres. rewrite Hb1 in Hres.
    destruct Hres as [(b' & ok & [= <-] & _ & Hin' & _)|(Hno & _)]; [|exfalso; eapply Hno; reflexivity].
    exists b, ok, (complete resp k (m_token m) (resp_type C m)). split; [|exact Hb2]. right. right. apply in_or_app. right. exact Hin'. }
  set (due0 := fun num o => readable m /\ wants m num o /\ num * smaller (t_size2 t) o = t_next2 t /\ m_detail m = m_detail m0 /\ seen_path m = seen_path m0).
  assert (Hsz2 : t_size2 t1 = t_size2 t) by (injection Hx1; auto).
  assert (Hn2 : t_next2 t1 = t_next2 t) by (injection Hx1; auto).
  assert (Hur : t_uri t1 = t_uri t) by (injection Hx1; auto).
  assert (Hen : t_end t1 = t_end t) by (injection Hx1; auto).
  assert (Hdue : forall o1 o2, parse_block_op (m_ops m) OP_BLOCK1 = Ok o1 -> parse_block_op (m_ops m) OP_BLOCK2 = Ok o2 ->
     (due2 t1 m o2 <-> due0 (b_num (blk_or_zero o2)) (option_map b_size o2))).
  { intros o1 o2 E1 E2. unfold due2, due0. rewrite resize_smaller, Hsz2, Hn2, Hur, Hty1, Hp0, (method_same _ _ _ Hsv Hm0).
    split; [intros (A1 & A2 & A3)|intros (A1 & A2 & A3 & A4 & A5)].
    - split; [split; eauto|]. split; [apply wants_of; exact E2|]. auto.
    - auto. }
  assert (Hno : forall o1 o2, parse_block_op (m_ops m) OP_BLOCK1 = Ok o1 -> parse_block_op (m_ops m) OP_BLOCK2 = Ok o2 ->
      (exists num o, due0 num o) -> due2 t1 m o2).
  { intros o1 o2 E1 E2 (num & o & A1 & A2 & A3). destruct (wants_inv _ _ _ _ E2 A2) as [-> ->].
    apply (Hdue o1 o2 E1 E2). split; [exact A1|]. split; [exact A2|exact A3]. }
  assert (Hszs : forall o2, parse_block_op (m_ops m) OP_BLOCK2 = Ok o2 -> exists szx, szx < 7 /\ resize o2 (t_size2 t1) = 2 ^ (4 + szx)).
  { intros o2 E2. rewrite resize_smaller, Hsz2. destruct o2 as [b|]; cbn [option_map smaller]; [|exact Hszx].
    apply min_szx; [|exact Hszx]. apply (parse_block_op_ok _ _ _ Hv E2). }
  assert (Hlen : lenN body = t_end t) by (rewrite Hbody, lenN_firstn; pose proof (hb_end _ _ HB); lia).
  assert (Hblock : forall vv pl dd num more size, lenN vv = 3 -> bytes_ok vv -> bytes_ok pl -> lenN pl <= 1024 -> dd <= 31 ->
     block_value (be_val vv) (mkblk num more size) -> num * size = t_next2 t ->
     forall i, i <= 65535 -> exists b, msg_format (complete (with_block2 msg_create vv pl dd) i (m_token m) (resp_type C m)) MAX_BUF_LEN = Ok b /\
       block2 b (complete (with_block2 msg_create vv pl dd) i (m_token m) (resp_type C m)) (t_next2 t) size more).
  { intros vv pl dd num more size V3 Vb Pb Pl Hdd Hbv Hpos k Hk.
    destruct (reply_format (with_block2 msg_create vv pl dd) m k) as (b & Hb1 & _); auto.
    - split; cbn; try lia; auto; try (vm_compute; discriminate).
    - discriminate.
    - repeat constructor; cbn; auto; unfold o_len; cbn; rewrite ?V3; vm_compute; auto; discriminate.
    - repeat constructor; cbn; auto; unfold len_ok, o_len; cbn; rewrite ?V3; vm_compute; auto; discriminate.
    - cbn [with_block2 m_ops m_payload]. change (m_ops msg_create) with (@nil op). cbn [op_list_add ops_size].
      unfold o_len. cbn [o_val o_num]. rewrite V3. unfold OP_BLOCK2.
      change (ext_size (23 - 0)) with 1. change (ext_size 3) with 0. lia.
    - exists b. split; [exact Hb1|]. split; [|split; [reflexivity|]].
      { apply reply_encodes; auto; [apply pgood_block2; auto; apply pgood_create|apply W|apply W|apply resp_type_lt4]. }
      exists vv, num. split; [left; reflexivity|]. auto. }
  assert (Hsl : forall n, bytes_ok (firstn n (skipn (N.to_nat (t_next2 t)) body))).
  { intros n. apply firstn_bytes, skipn_bytes. exact Hbb. }
  inversion Q as [t' Ht' Hn'|t' u Ht' Hu|t' o2 Ht' E2 Hz2|o1 o2 vv E1 E2 D size Hsz Hend Hv3 Hvb Hbv|t' o1 o2 vv E1 E2 D size Hsz Ht' Hend Hv3 Hvb Hbv]; subst t9.
  - right. right. split; [|split].
    + intros Hdd. pose proof Hdd as (num & o & [[o1 A1] [o2 A2]] & _). apply (Hn' o1 o2 A1 A2). apply (Hno o1 o2 A1 A2). exact Hdd.
    + destruct (Hsend (eq_sym H1) (fun b _ => nth 1 b 0 = 128)) as (b & ok & p & K1 & K2); [|exists b, ok; auto].
      intros k Hk. destruct (reply_format resp m k) as (b & Hb1 & Hb2); subst resp; auto; try (constructor; fail).
      * split; cbn; try lia; auto; vm_compute; discriminate.
      * discriminate.
      * exists b. split; [exact Hb1|exact Hb2].
    + rewrite Ht' in Hkeeps. exact Hkeeps.
  - left. exact Hu.
  - exfalso. destruct (Hszs o2 E2) as (szx & Hs7 & Hz1). rewrite Hz1, (szx_calc szx Hs7) in Hz2. discriminate.
  - right. left. exists (b_num (blk_or_zero o2)), (option_map b_size o2). split; [apply (Hdue o1 o2 E1 E2); exact D|].
    assert (Esz : size = smaller (t_size2 t) (option_map b_size o2)) by (unfold size; rewrite resize_smaller, Hsz2; reflexivity).
    assert (Hge : t_next2 t + smaller (t_size2 t) (option_map b_size o2) <= lenN body) by (rewrite <- Esz, Hlen, <- Hn2, <- Hen; exact Hend).
    split.
    + rewrite <- Esz in Hge |- *.
      assert (Hpay : firstn (N.to_nat size) (skipn (N.to_nat (t_next2 t1)) buf) = firstn (N.to_nat size) (skipn (N.to_nat (t_next2 t)) body)).
      { rewrite Hbody, Hn2, skipn_firstn_comm, firstn_firstn. f_equal. lia. }
      destruct (Hsend (eq_sym H1) (fun b p => block2 b p (t_next2 t) size true /\ m_payload p = firstn (N.to_nat size) (skipn (N.to_nat (t_next2 t)) body)))
        as (b & ok & p & K1 & K2 & K3).
      * intros k Hk. destruct (Hblock vv (firstn (N.to_nat size) (skipn (N.to_nat (t_next2 t)) body)) 31 (b_num (blk_or_zero o2)) true size) with (i := k) as (b & Hb1 & Hb2); auto.
        -- rewrite lenN_firstn. destruct Hsz as (szx & S7 & Hsz). change (N.min size (lenN (skipn (N.to_nat (t_next2 t)) body)) <= 1024).
           pose proof (pow_szx szx S7) as Hpz. change (size = 2 ^ (4 + szx)) in Hsz. rewrite <- Hsz in Hpz. lia.
        -- lia.
        -- rewrite <- Hn2. apply D.
        -- exists b. rewrite <- H0. fold size. rewrite Hpay. auto.
      * exists b, ok, p, true. split; [exact K1|]. split; [exact K2|]. split; [split; auto|exact K3].
    + apply N.leb_le in Hge. rewrite Hge. cbn [t_with_block t_type] in Hkeeps. rewrite Hty1 in Hkeeps. exact Hkeeps.
  - right. left. exists (b_num (blk_or_zero o2)), (option_map b_size o2). split; [apply (Hdue o1 o2 E1 E2); exact D|].
    assert (Esz : size = smaller (t_size2 t) (option_map b_size o2)) by (unfold size; rewrite resize_smaller, Hsz2; reflexivity).
    assert (Hlt : lenN body < t_next2 t + smaller (t_size2 t) (option_map b_size o2)) by (rewrite <- Esz, Hlen, <- Hn2, <- Hen; exact Hend).
    split.
    + rewrite <- Esz in Hlt |- *.
      assert (Hpay : firstn (N.to_nat (t_end t1 - t_next2 t1)) (skipn (N.to_nat (t_next2 t1)) buf) = firstn (N.to_nat size) (skipn (N.to_nat (t_next2 t)) body)).
      { rewrite Hbody, Hn2, Hen, skipn_firstn_comm, firstn_firstn. f_equal. lia. }
      destruct (Hsend (eq_sym H1) (fun b p => block2 b p (t_next2 t) size false /\ m_payload p = firstn (N.to_nat size) (skipn (N.to_nat (t_next2 t)) body)))
        as (b & ok & p & K1 & K2 & K3).
      * intros k Hk. destruct (Hblock vv (firstn (N.to_nat size) (skipn (N.to_nat (t_next2 t)) body)) (if is_type (t_type t1) TGet then 5 else t_detail t1) (b_num (blk_or_zero o2)) false size) with (i := k) as (b & Hb1 & Hb2); auto.
        -- rewrite lenN_firstn. destruct Hsz as (szx & S7 & Hsz). change (N.min size (lenN (skipn (N.to_nat (t_next2 t)) body)) <= 1024).
           pose proof (pow_szx szx S7) as Hpz. change (size = 2 ^ (4 + szx)) in Hsz. rewrite <- Hsz in Hpz. lia.
        -- destruct (is_type _ _); [lia|]. apply (hb_detail _ _ HB1).
        -- rewrite <- Hn2. apply D.
        -- exists b. rewrite <- H0. rewrite Hpay. auto.
      * exists b, ok, p, false. split; [exact K1|]. split; [exact K2|]. split; [split; [discriminate|lia]|exact K3].
    + apply N.leb_gt in Hlt. rewrite Hlt, <- Ht'. exact Hkeeps.
Qed.

(** ** The first request of a transfer *)

Lemma new_regular (v : @srv A) c d m v' r s a1 res :
  step P E C v (EvRx c d None) v' r s -> reads C d m -> In (SRecv c d) s ->
  m_type m = T_CON \/ m_type m = T_NON -> m_class m = 0 -> fresh_id c (m_id m) (v_trace v) -> acceptable (sc_proxy C) m ->
  (forall t, In t (v_tr v) -> t_active t = true -> t_client t = c -> t_type t = TRegular) ->
  ap_handle P (v_app v) c m = (a1, res) -> (exists l s1 s2 body bl rx, res = HBlock l s1 s2 body bl rx) ->
  (calls s = [] /\ forall b, In (c, b) (sends s) -> b = ack_dgram (m_id m)) \/
  exists l s1 s2 body bl rx lg t1 ol t2 resp r2 s3 rr, res = HBlock l s1 s2 body bl rx /\
    handle_blockwise P C lg a1 t1 m (msg_build l) s1 s2 body bl rx = (v_app v', ol, (t2, resp, r2)) /\
    t_client t1 = c /\ pwf m /\ calls s = calls ol /\ reply_run c m (let* _ := r2 in Ok resp) s3 rr /\
    (forall b, In (c, b) (sends s) -> b = ack_dgram (m_id m) \/ In (c, b) (sends ol) \/ In (c, b) (sends s3)) /\
    (In (SDestroy c) s \/ exists t3, In t3 (v_tr v') /\ t_active t3 = true /\ t_client t3 = c /\ xfer t3 = xfer t2).
Proof.
  intros Hst Hrd Hin Hty Hcl Hf Hac Hreg Hh (l & s1 & s2 & body & bl & rx & ->).
  destruct (new_request v c d m v' r s Hst Hrd Hin Hty Hcl Hf) as (W & s0 & t0 & now & x & -> & At0 & Ct0 & Hw & H).
  assert (Ht0 : t_type t0 = TRegular).
  { destruct Hw as [(_ & _ & Ht0)|(_ & _ & u & ->)]; [auto|reflexivity]. }
  assert (Hs0 : sends s0 = [] /\ calls s0 = []).
  { destruct (opening_nothing c s0) as (H1 & _ & _ & H2 & _); [|auto]. destruct Hw as [(-> & _)|(Hw & _)]; auto. }
  destruct Hs0 as [Se0 Ca0]. rewrite sends_app, calls_app, Se0, Ca0. cbn [sends calls List.app].
  destruct H as [(-> & _)|(t1 & x1 & t2 & x2 & r2 & s3 & rr & Hak & Han & -> & St3 & _ & Hrep & Hkeep)].
  { left. split; [reflexivity|]. intros b [Hb|[]]. injection Hb as <-. reflexivity. }
  right. assert (Hc1 : t_client t1 = c) by (rewrite (acked_client _ _ _ _ _ Hak); exact Ct0).
  assert (Ht1 : t_type t1 = TRegular) by (pose proof (acked_xfer _ _ _ _ _ Hak) as Hx; injection Hx as -> _; exact Ht0).
  destruct (acked_still _ _ _ _ _ Hak) as (Q1 & _).
  destruct Han as [Hz|a9 l9 t9 resp r9 Hz Hn En|a9 e Hz Hn Eh|a9 l9 Hz Hn Eh|a8 l9 z1 z2 bd bl9 rx9 lg a9 ol t9 resp r9 Hz Hn Eh Eb].
  { exfalso. apply Hz, server_options_spec. exact Hac. }
  { contradiction. }
  1,2: rewrite Hc1, Hh in Eh; discriminate.
  rewrite Hc1, Hh in Eh. injection Eh as <- <- <- <- <- <- <-.
  exists l, s1, s2, body, bl, rx, lg, t1, ol, t9, resp, r9, s3, rr. split; [reflexivity|]. split; [exact Eb|].
  split; [exact Hc1|]. split; [exact W|]. split; [|split; [exact Hrep|split]].
  - rewrite !calls_app, (still_calls x1 Q1), (still_calls s3 St3), app_nil_r. reflexivity.
  - intros b Hb. rewrite !sends_app in Hb. apply in_app_iff in Hb as [Hb|Hb].
    + left. destruct Hak; cbn [sends] in Hb; [destruct Hb|]. destruct Hb as [Hb|[]]. injection Hb as _ <-. reflexivity.
    + cbn [List.app sends] in Hb. apply in_app_iff in Hb as [Hb|Hb]; auto.
  - destruct Hkeep as [Hd|Hk]; [left|right; exact Hk]. apply in_or_app. right. right. right. apply in_or_app. right. apply in_or_app. right. exact Hd.
Qed.

Lemma reply_sent c m r2 s rr b : reply_run c m r2 s rr -> In (c, b) (sends s) ->
  exists resp i, r2 = Ok resp /\ i <= 65535 /\ msg_format (complete resp i (m_token m) (resp_type C m)) MAX_BUF_LEN = Ok b.
Proof.
  intros [(e & -> & -> & _)|[(_ & _ & -> & _)|(resp & i & -> & Hi & H)]] Hb; [destruct Hb|destruct Hb|].
  cbv zeta in H. destruct H as [(b' & ok & Hf & Hs & _)|(_ & Hs & _)]; rewrite Hs in Hb; [|destruct Hb].
  destruct Hb as [Hb|[]]. injection Hb as <-. eauto.
Qed.

Lemma download_begins (v : @srv A) c d m v' r s a1 l s1 s2 body bl rx :
  sc_large C < large -> proper P ->
  step P E C v (EvRx c d None) v' r s -> reads C d m -> In (SRecv c d) s ->
  m_type m = T_CON \/ m_type m = T_NON -> m_class m = 0 -> fresh_id c (m_id m) (v_trace v) -> acceptable (sc_proxy C) m ->
  (forall t, In t (v_tr v) -> t_active t = true -> t_client t = c -> t_type t = TRegular) ->
  ap_handle P (v_app v) c m = (a1, HBlock l s1 s2 body bl rx) -> m_detail m = 1 -> bl <= lenN body ->
  forall b, In (c, b) (sends s) ->
  b = ack_dgram (m_id m) \/
  (~ exists o, readable m /\ wants m 0 o) /\ nth 1 b 0 = 128 \/
  exists p o more, readable m /\ wants m 0 o /\ block2 b p 0 (smaller s2 o) more /\ (more = true <-> smaller s2 o <= bl) /\
    m_payload p = firstn (N.to_nat (smaller s2 o)) (firstn (N.to_nat bl) body) /\
    keeps v' c s (if smaller s2 o <=? bl then TGet else TRegular).
Proof.
  intros HL HP Hst Hrd Hin Hty Hcl Hf Hac Hreg Hh Hget Hbl b Hb. destruct (proj1 HP _ _ _ _ _ _ _ _ _ _ Hh) as [P1 P2]. pose proof Hst as (_ & He & _). cbn in He.
  destruct (reads_parts _ _ _ He Hrd) as (Hv & _ & Hpl).
  destruct (new_regular v c d m v' r s _ _ Hst Hrd Hin Hty Hcl Hf Hac Hreg Hh) as [(_ & H)|(l' & s1' & s2' & body' & bl' & rx' & lg & t1 & ol & t2 & resp & r2 & s3 & rr & Eq & Eb & Hc1 & W & _ & Hrep & Hsd & Hkeep)];
    [eauto 10|left; auto|].
  injection Eq as <- <- <- <- <- <-.
  pose proof (handle_blockwise_spec P C lg a1 t1 m (msg_build l) s1 s2 body bl rx HL) as Q. rewrite Eb in Q.
  specialize (Hsd b Hb). destruct Hsd as [Hsd|Hsd]; [left; exact Hsd|]. right.
  assert (Hb3 : In (c, b) (sends s3)).
  { destruct Hsd as [Hsd|Hsd]; [|exact Hsd]. exfalso.
    inversion Q; subst; try (destruct Hsd; fail).
    match goal with H : takes_body ?u _ |- _ => pose proof (tb_type _ _ H) as Hu end.
    match goal with H : method_of _ _ |- _ => rewrite Hget in H; destruct Hu as [Hu|Hu]; rewrite Hu in H; discriminate end. }
  destruct (reply_sent _ _ _ _ _ _ Hrep Hb3) as (q & i & Hq & Hi & Hfm).
  destruct r2 as [[]|e|u|]; cbn [bind] in Hq; try discriminate. injection Hq as <-.
  inversion Q as [|t0 H1 H2|t0 u H1 H2 H3|u1 buf H1 H2 H3 H4 H5 H6 H7 H8 H9 H10|u1 buf H1 H2 H3 H4 H5 H6 H7]; subst.
  - exfalso. tauto.
  - match goal with Hn : next_block2 _ _ _ = _ |- _ => rename Hn into En end.
    assert (Hsv : serving (t_type u1)) by (left; exact H4).
    pose proof (next_block2_spec u1 buf m (msg_build l) H3 Hv Hsv) as Q2. rewrite En in Q2.
    assert (Hdue : forall o2, parse_block_op (m_ops m) OP_BLOCK2 = Ok o2 -> b_num (blk_or_zero o2) = 0 -> due2 u1 m o2).
    { intros o2 E2 E0. split; [rewrite H4; exact Hget|]. split; [congruence|]. rewrite E0, H5. lia. }
    assert (Hblk : forall pl dd vv num more size p, lenN vv = 3 -> bytes_ok vv ->
       msg_format p 1152 = Ok b -> p = complete (with_block2 (msg_build l) vv pl dd) i (m_token m) (resp_type C m) -> dd <= 31 -> bytes_ok pl ->
       block_value (be_val vv) (mkblk num more size) -> num * size = 0 -> block2 b p 0 size more).
    { intros pl dd vv num more size p V3 Vb Hp -> Hdd Hpb Hbv H0. split; [|split; [reflexivity|]].
      { apply reply_encodes; auto; [|apply W|apply W|apply resp_type_lt4].
        apply pgood_block2; auto. apply pgood_setters; [apply pgood_create|exact P1]. } exists vv, num. split; [|auto].
      cbn [complete with_block2 m_ops]. eapply Permutation_in; [apply Permutation_sym, op_list_add_perm, rw_sorted, rwf_build|left; reflexivity]. }
    assert (Hzero : forall o2, due2 u1 m o2 -> (exists szx, szx < 7 /\ resize o2 (t_size2 u1) = 2 ^ (4 + szx)) -> b_num (blk_or_zero o2) = 0).
    { intros o2 (_ & _ & D3) (szx & S7 & Sz). rewrite H5 in D3. rewrite Sz in D3. pose proof (pow_szx szx S7). nia. }
    assert (Hbody : firstn (N.to_nat (t_end u1)) buf = firstn (N.to_nat (t_end u1)) body) by assumption.
    assert (Hbf : forall n, n <= t_end u1 -> bytes_ok (firstn (N.to_nat n) buf)).
    { intros n Hn. replace (firstn (N.to_nat n) buf) with (firstn (N.to_nat n) body).
      - apply firstn_bytes. exact P2.
      - transitivity (firstn (N.to_nat n) (firstn (N.to_nat (t_end u1)) body)); [rewrite firstn_firstn; f_equal; lia|].
        rewrite <- Hbody, firstn_firstn. f_equal. lia. }
    assert (Hkeeps : keeps v' (t_client t1) s (t_type t2)).
    { destruct Hkeep as [Hd|(t3 & K1 & K2 & K3 & K4)]; [left; exact Hd|right]. exists t3. repeat split; auto. injection K4. auto. }
    inversion Q2 as [t' Ht' Hn'|t' u Ht' Hu|t' o2 Ht' E2 Hz2|o1 o2 vv E1 E2 D size Hsz Hend Hv3 Hvb Hbv|t' o1 o2 vv E1 E2 D size Hsz Ht' Hend Hv3 Hvb Hbv]; subst.
    + left. split.
      * intros (o & [[o1 A1] [o2 A2]] & Hw). apply (Hn' o1 o2 A1 A2). destruct (wants_inv _ _ _ _ A2 Hw) as [E0 _]. apply Hdue; auto.
      * rewrite (format_code _ _ _ Hfm); cbn [complete with_code m_class m_detail]; try lia.
    + right. assert (Esz : size = smaller (t_size2 u1) (option_map b_size o2)) by (unfold size; rewrite resize_smaller; reflexivity).
      pose proof (Hzero o2 D Hsz) as E0.
      eexists (complete (with_block2 (msg_build l) vv _ 31) i (m_token m) (resp_type C m)), (option_map b_size o2), true.
      split; [split; eauto|]. split; [rewrite <- E0; apply wants_of; exact E2|]. rewrite <- Esz. split; [|split; [|split]].
      * eapply Hblk; [exact Hv3|exact Hvb|exact Hfm|reflexivity|lia| |exact Hbv|rewrite E0; lia]. rewrite H5. change (skipn (N.to_nat 0) buf) with buf. apply Hbf. rewrite H5 in Hend. exact Hend.
      * split; [intros _; rewrite H5 in Hend; exact Hend|reflexivity].
      * cbn [complete with_block2 m_payload]. fold size. rewrite H5. cbn [N.to_nat skipn]. rewrite <- Hbody, firstn_firstn. f_equal. 
        rewrite H5 in Hend. change (0 + size <= t_end u1) in Hend. lia.
      * replace (size <=? t_end u1) with true by (symmetry; apply N.leb_le; rewrite H5 in Hend; exact Hend).
        cbn [t_with_block t_type] in Hkeeps. rewrite H4 in Hkeeps. exact Hkeeps.
    + right. assert (Esz : size = smaller (t_size2 u1) (option_map b_size o2)) by (unfold size; rewrite resize_smaller; reflexivity).
      pose proof (Hzero o2 D Hsz) as E0.
      eexists (complete (with_block2 (msg_build l) vv _ _) i (m_token m) (resp_type C m)), (option_map b_size o2), false.
      split; [split; eauto|]. split; [rewrite <- E0; apply wants_of; exact E2|]. rewrite <- Esz. rewrite H5 in Hend. change (t_end u1 < 0 + size) in Hend. split; [|split; [|split]].
      * eapply Hblk; [exact Hv3|exact Hvb|exact Hfm|reflexivity| | |exact Hbv|rewrite E0; lia]. 
        -- destruct (is_type _ _); [lia|]. apply (hb_detail _ _ H3).
        -- rewrite H5, N.sub_0_r. change (skipn (N.to_nat 0) buf) with buf. apply Hbf. lia.
      * split; [discriminate|]. intro. lia.
      * cbn [complete with_block2 m_payload]. rewrite H5, N.sub_0_r. change (skipn (N.to_nat 0) buf) with buf. rewrite Hbody, firstn_firstn. f_equal. lia.
      * replace (size <=? t_end u1) with false by (symmetry; apply N.leb_gt; lia). rewrite <- Ht'. exact Hkeeps.
  - exfalso. match goal with H : takes_body ?u _ |- _ => pose proof (tb_type _ _ H) as Hu end.
    match goal with H : method_of _ _ |- _ => rewrite Hget in H; destruct Hu as [Hu|Hu]; rewrite Hu in H; discriminate end.
Qed.

Lemma upload_begins (v : @srv A) c d m v' r s a1 l s1 s2 body bl rx :
  sc_large C < large ->
  step P E C v (EvRx c d None) v' r s -> reads C d m -> In (SRecv c d) s ->
  m_type m = T_CON \/ m_type m = T_NON -> m_class m = 0 -> fresh_id c (m_id m) (v_trace v) -> acceptable (sc_proxy C) m ->
  (forall t, In t (v_tr v) -> t_active t = true -> t_client t = c -> t_type t = TRegular) ->
  ap_handle P (v_app v) c m = (a1, HBlock l s1 s2 body bl rx) -> m_detail m = 3 \/ m_detail m = 2 ->
  forall b, In (c, b) (sends s) ->
  b = ack_dgram (m_id m) \/
  readable m /\ fits C s1 [] m false /\ calls s = [(c, m_payload m)] \/
  readable m /\ fits C s1 [] m true /\ calls s = [] /\ nth 1 b 0 = 95 /\ keeps v' c s (if m_detail m =? 3 then TPut1 else TPost1) \/
  ~ (readable m /\ exists more, fits C s1 [] m more) /\ calls s = [] /\
    (nth 1 b 0 = 128 \/ nth 1 b 0 = 136 \/ nth 1 b 0 = 141) /\ keeps v' c s TRegular.
Proof.
  intros HL Hst Hrd Hin Hty Hcl Hf Hac Hreg Hh Hput b Hb. pose proof Hst as (_ & He & _). cbn in He.
  destruct (reads_parts _ _ _ He Hrd) as (Hv & _ & Hpl).
  destruct (new_regular v c d m v' r s _ _ Hst Hrd Hin Hty Hcl Hf Hac Hreg Hh) as [(_ & H)|(l' & s1' & s2' & body' & bl' & rx' & lg & t1 & ol & t2 & resp & r2 & s3 & rr & Eq & Eb & Hc1 & W & Hcalls & Hrep & Hsd & Hkeep)];
    [eauto 10|left; auto|].
  injection Eq as <- <- <- <- <- <-.
  pose proof (handle_blockwise_spec P C lg a1 t1 m (msg_build l) s1 s2 body bl rx HL) as Q. rewrite Eb in Q.
  specialize (Hsd b Hb). destruct Hsd as [Hsd|Hsd]; [left; exact Hsd|]. right.
  assert (Hkeeps : keeps v' c s (t_type t2)).
  { destruct Hkeep as [Hd|(t3 & K1 & K2 & K3 & K4)]; [left; exact Hd|right]. exists t3. repeat split; auto. injection K4. auto. }
  inversion Q as [t0 e H1|t0 H1 H2|t0 u H1 H2 H3|u1 buf H1 H2 H3 H4 H5 H6 H7 H8 H9 H10|u1 buf H1 H2 H3 H4 H5 H6 H7 Hnb]; subst.
  - exfalso. destruct Hsd as [[]|Hsd]. destruct (reply_sent _ _ _ _ _ _ Hrep Hsd) as (q & i & Hq & _). discriminate.
  - exfalso. tauto.
  - exfalso. destruct Hput; congruence.
  - exfalso. destruct Hput; congruence.
  - pose proof (next_block1_spec P a1 u1 buf m (msg_build l) H1 Hv Hpl (rwf_build l)) as Q1. rewrite Hnb in Q1.
    assert (Hcu : t_client u1 = t_client t1) by (rewrite (core_client _ _ H4); reflexivity).
    assert (Hfit : forall o1 more, parse_block_op (m_ops m) OP_BLOCK1 = Ok o1 -> fits C (t_size1 u1) [] m more ->
       due1 u1 buf m o1 /\ more = b_more (blk_or_zero o1)).
    { intros o1 more Ho1 (F1 & F2 & F3). cbn [List.app] in F1. cbn [map concat List.app] in F3. rewrite app_nil_r in F3.
      assert (Hb1 : exists num o, block1 m num more o /\ num * smaller (t_size1 u1) o = 0 /\ m_payload m <> []).
      { inversion F1 as [? ? ? num ? o G1 G2 G3|? ? ? num o ms ? G1 G2 G3 G4]; subst; [eauto|inversion G4]. }
      destruct Hb1 as (num & o & B1 & B2 & B3). destruct (block1_inv _ _ _ _ _ Ho1 B1) as (-> & -> & ->). split; [|reflexivity].
      split; [exact H5|]. split; [congruence|]. rewrite resize_smaller, H2. split; [exact B2|]. split; [exact B3|]. lia. }
    assert (Hdue : forall o1, parse_block_op (m_ops m) OP_BLOCK1 = Ok o1 -> due1 u1 buf m o1 -> fits C (t_size1 u1) [] m (b_more (blk_or_zero o1))).
    { intros o1 Ho1 (D1 & D2 & D3 & D4 & D5). rewrite H2 in D3, D5. split; [|split].
      - eapply cb_last; [apply block1_of; exact Ho1| |exact D4]. rewrite <- resize_smaller. exact D3.
      - exists (m_detail m), (seen_path m). intros m' [<-|[]]. auto.
      - cbn [List.app map concat]. rewrite app_nil_r. lia. }
    assert (Hty1 : t_type u1 = if m_detail m =? 3 then TPut1 else TPost1).
    { pose proof (tb_type _ _ H1) as Hu. destruct Hput as [Hp|Hp]; rewrite Hp in *; destruct Hu as [Hu|Hu]; rewrite Hu in *; try discriminate; reflexivity. }
    inversion Q1 as [t0 G1 G2|t0 o1 dd G1 G2 G3|t0 u G1 G2|t0 o1 G1 G2 G3|o1 o2 vv E1 E2 D M size Z L Bk Bv|o1 o2 vv rx9 a0 rr0 l0 x' E1 E2 D M size Z L Bk Bv R Ap Ro]; subst;
      try (destruct Hsd as [[]|Hsd]; destruct (reply_sent _ _ _ _ _ _ Hrep Hsd) as (q & i & Hq & Hi & Hfm); try discriminate;
           cbn [bind] in Hq; injection Hq as <-).
    + right. right. split; [|split; [exact Hcalls|split]].
      * intros [[[q1 Q1'] [q2 Q2']] _]. destruct G2; congruence.
      * left. rewrite (format_code _ _ _ Hfm); cbn [complete with_code m_class m_detail]; lia.
      * rewrite G1 in Hkeeps. exact Hkeeps.
    + right. right. split; [|split; [exact Hcalls|split]].
      * intros [_ (more & Hfm')]. apply (Hfit o1) in Hfm' as [(D1 & D2 & D3 & D4 & D5) _]; auto.
        destruct G3 as [(K0 & [(K1 & _)|(K1 & [(K2 & _)|(K2 & K3 & _)])])|(K0 & _)]; try congruence; [lia|]. apply K0. auto.
      * assert (Hd : dd = 8 \/ dd = 0 \/ dd = 13).
        { destruct G3 as [(K0 & [(K1 & K)|(K1 & [(K2 & K)|(K2 & K3 & K)])])|(K0 & K)]; auto. }
        rewrite (format_code _ _ _ Hfm); cbn [complete with_code m_class m_detail]; lia.
      * rewrite G1 in Hkeeps. exact Hkeeps.
    + right. left. split; [split; eauto|]. split; [rewrite <- M; apply Hdue; assumption|]. split; [exact Hcalls|]. split.
      * rewrite (format_code _ _ _ Hfm); cbn [complete with_code m_class m_detail]; lia.
      * cbn [t_with_block t_type] in Hkeeps. rewrite Hty1 in Hkeeps. exact Hkeeps.
    + left. split; [split; eauto|]. split; [rewrite <- M; apply Hdue; assumption|].
      rewrite Hcalls. cbn [calls]. destruct D as (D1 & D2 & D3 & D4 & D5). rewrite (taken_prefix u1 buf m D5), H2, Hcu. cbn [N.to_nat firstn List.app].
      f_equal. inversion Ro; reflexivity.
Qed.

End App.
