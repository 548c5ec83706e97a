(** The two libraries together: messages on the wire, one exchange over the
    network. *)
From Coq Require Import Permutation.
From Verif Require Import BaseLemmas MsgModel MsgSpec MsgLemmas MsgFormatLemmas MsgBlockLemmas ClientModel ClientSpec
  ClientLemmas ClientPropLemmas ClientBlockLemmas ServerModel ServerSpec ServerLemmas ServerPropLemmas ServerBlockSpec
  ServerBlockLemmas ServerUploadLemmas E2EModel E2ESpec.

(** ** Options *)

Lemma room_app l1 l2 : room (l1 ++ l2) = room l1 + room l2.
Proof. induction l1 as [|o l IH]; cbn [room fold_right List.app]; [reflexivity|]. fold (room (l ++ l2)) (room l). lia. Qed.
Lemma room_perm l1 l2 : Permutation l1 l2 -> room l1 = room l2.
Proof.
  induction 1 as [|x a b H IH|x y a|a b d H1 IH1 H2 IH2]; [reflexivity| | |congruence]; unfold room in *; cbn [fold_right]; lia.
Qed.
Lemma room_in l : Forall (fun o => o_len o <= room l) l.
Proof.
  induction l as [|o l IH]; constructor; cbn [room fold_right]; fold (room l); [lia|].
  eapply Forall_impl; [|exact IH]. cbn. intros. lia.
Qed.

Definition low (l : list op) : Prop := Forall (fun o => o_num o <= 140) l.
Lemma low_sizes prev l : low l -> Forall (fun o => o_len o <= 140) l ->
  deltas_ok prev l /\ exts_low prev l /\ ops_size prev l <= room l.
Proof.
  revert prev. induction l as [|o l IH]; intros prev H1 H2; cbn; [repeat split; lia|].
  inversion H1; inversion H2; subst. destruct (IH (o_num o)) as (A1 & A2 & A3); auto.
  fold (room l). unfold ext_low, ext_size.
  destruct (N.leb_spec 269 (o_num o - prev)); [lia|]. destruct (N.leb_spec 269 (o_len o)); [lia|].
  destruct (13 <=? o_num o - prev), (13 <=? o_len o); repeat split; auto; lia.
Qed.

(** ** On the wire *)

Lemma wire sg m : wf_msg m -> known_class (m_class m) -> consistent m -> low (m_ops m) -> room (m_ops m) <= 112 ->
  lenN (m_payload m) <= 1024 ->
  exists b, msg_format m MAX_BUF_LEN = Ok b /\ lenN b < 1152 /\
    msg_parse sg (b ++ repeat 0 (N.to_nat (1152 - lenN b))) (lenN b) = Ok m.
Proof.
  intros W Hk Hc Hl Hr Hp. exists (enc_msg m).
  assert (Hlen : Forall (fun o => o_len o <= 140) (m_ops m)).
  { eapply Forall_impl; [|apply room_in]. cbn. intros. lia. }
  destruct (low_sizes 0 _ Hl Hlen) as (D & X & S).
  assert (Hw : wire_size m < 1152).
  { unfold wire_size. pose proof (wf_tkl _ W). destruct (m_payload m); [lia|]. lia. }
  assert (Hck : msg_check m = Ok tt) by (apply check_consistent; [apply W|exact Hc]).
  pose proof (format_result m MAX_BUF_LEN W (deltas_len_ok _ _ D) ltac:(reflexivity)) as H. cbv zeta in H.
  unfold MAX_BUF_LEN in *.
  split.
  { destruct H as [(H & _)|[(_ & H)|[(_ & H & _)|(_ & H & _)]]]; [exact H|congruence|lia|lia]. }
  rewrite lenN_enc_msg. split; [exact Hw|]. rewrite <- lenN_enc_msg.
  apply parse_complete.
  - apply encodes_enc; [exact W|split; assumption|exact Hc].
  - rewrite lenN_enc_msg. unfold two16. lia.
  - right. exact X.
  - left. rewrite lenN_enc_msg. intro E. apply (f_equal (@length N)) in E. rewrite repeat_length in E. cbn in E. lia.
Qed.

Lemma rx_cut_id b : lenN b <= 1152 -> rx_cut b = b.
Proof. intro H. unfold rx_cut, MAX_BUF_LEN. apply firstn_all2. unfold lenN in H. lia. Qed.
Lemma rx_buf_id b : lenN b <= 1152 -> rx_buf b = b ++ repeat 0 (N.to_nat (1152 - lenN b)).
Proof. intro H. unfold rx_buf. rewrite rx_cut_id by exact H. reflexivity. Qed.

(** ** The client *)

Definition token_of (E : env) (n : nat) : list N :=
  [e_rand E n mod 256; e_rand E (S n) mod 256; e_rand E (S (S n)) mod 256; e_rand E (S (S (S n))) mod 256].

Lemma prepare_eq E s req :
  prepare_req E s req =
  (mkcst (c_trace s) (c_now s) (c_nsend s) (c_nset s) (6 + c_nrand s) (c_sec s) (c_nsec s) (c_retrans s),
   Ok (with_id_token req (req_id E (c_nrand s)) (token_of E (2 + c_nrand s)))).
Proof.
  unfold prepare_req. cbn [gen_rand_str do_rand nth c_nrand c_trace c_now c_nsend c_nset c_sec c_nsec c_retrans].
  rewrite !land_255. rewrite lor_8 by (apply N.mod_lt; discriminate).
  fold (req_id E (c_nrand s)). unfold set_msg_id, MAX_MSG_ID.
  assert (H : req_id E (c_nrand s) <= 65535).
  { unfold req_id. pose proof (N.mod_lt (e_rand E (c_nrand s)) 256 ltac:(discriminate)).
    pose proof (N.mod_lt (e_rand E (S (c_nrand s))) 256 ltac:(discriminate)). lia. }
  destruct (N.ltb_spec 65535 (req_id E (c_nrand s))); [lia|]. unfold set_token, MAX_TOKEN_LEN.
  reflexivity.
Qed.

Lemma req_id_ok E n : req_id E n <= 65535.
Proof.
  unfold req_id. pose proof (N.mod_lt (e_rand E n) 256 ltac:(discriminate)).
  pose proof (N.mod_lt (e_rand E (S n)) 256 ltac:(discriminate)). lia.
Qed.
Lemma token_ok E n : bytes_ok (token_of E n) /\ lenN (token_of E n) = 4.
Proof. split; [|reflexivity]. repeat constructor; unfold byte_ok; apply N.mod_lt; discriminate. Qed.

(** The request as it is sent. *)
Definition stamped_req (E : env) (n : nat) (m : msg) : msg := with_id_token m (req_id E n) (token_of E (2 + n)).

Lemma app_assoc_2 {T} (l : list T) x y : l ++ [x; y] = (l ++ [x]) ++ [y].
Proof. rewrite <- app_assoc. reflexivity. Qed.
Lemma ack_timer_fields E s : exists o,
  c_trace (start_ack_timer E s) = c_trace s ++ [o] /\ sent_by_client [o] = [] /\
  c_now (start_ack_timer E s) = c_now s /\ c_nrand (start_ack_timer E s) = S (c_nrand s).
Proof. destruct s. eexists. split; [reflexivity|]. repeat split. Qed.

Lemma client_out E C s m b evs :
  m_type m = 0 -> m_class m = 0 -> (forall n, e_send E n = None) ->
  msg_format (stamped_req E (c_nrand s) m) MAX_BUF_LEN = Ok b ->
  exists s1, exchange E C s m evs = exchange_con E C (stamped_req E (c_nrand s) m) s1 evs /\
    (exists o, c_trace s1 = c_trace s ++ [OSend (c_now s) b true; o] /\ sent_by_client [o] = []) /\
    c_now s1 = c_now s /\ c_nrand s1 = (7 + c_nrand s)%nat.
Proof.
  intros Ht Hc Hs Hf. unfold exchange. rewrite Ht, Hc.
  change ((0 =? T_ACK) || (0 =? T_RST) || negb (0 =? CL_REQ)) with false. cbv iota.
  rewrite prepare_eq. cbv iota. fold (stamped_req E (c_nrand s) m). unfold client_send. rewrite Hf.
  cbn [c_nsend]. rewrite Hs. cbv iota zeta.
  change (m_type (stamped_req E (c_nrand s) m)) with (m_type m). rewrite Ht. change (0 =? T_CON) with true. cbv iota.
  eexists. split; [reflexivity|].
  destruct (ack_timer_fields E (mkcst (c_trace s ++ [OSend (c_now s) b true]) (c_now s) (S (c_nsend s)) (c_nset s) (6 + c_nrand s)
     (c_sec s) (c_nsec s) (c_retrans s))) as (o & H1 & H2 & H3 & H4).
  cbn [c_trace c_now c_nrand] in H1, H3, H4.
  split; [exists o; split; [rewrite app_assoc_2; exact H1|exact H2]|]. split; [exact H3|exact H4].
Qed.

Lemma client_in E C req s t b q evs :
  lenN b <= 1152 -> received C b q -> m_id q = m_id req -> m_type q = T_ACK -> msg_is_empty q = false ->
  m_token q = m_token req -> acceptable (cf_proxy C) q ->
  exists s', exchange_con E C req s ((t, SelRx (RxData b)) :: evs) = Done s' evs (Ok q) /\ c_nrand s' = c_nrand s.
Proof.
  intros Hb [_ Hp] Hi Ht He Hk Ho. cbn [exchange_con client_recv]. rewrite rx_buf_id, rx_cut_id, Hp by exact Hb.
  rewrite Hi, N.eqb_refl, Ht, He. change (T_ACK =? T_ACK) with true. cbv iota.
  unfold match_token. rewrite Hk, bytes_eqb_refl. unfold handle_piggybacked_response.
  rewrite (proj2 (check_options_spec C q) Ho). cbn [N.eqb negb done fst snd]. eexists. split; reflexivity.
Qed.

(** ** The server *)

Section Net.
Context {A : Type} (P : app A) (Ec : env) (Cc : cfg) (Es : senv) (Cs : scfg) (c : N).
Context (HF : no_failures Ec Es).

(** What the application and the blockwise functions make of a request. *)
Definition reply_of (a : A) (t : trans) (m : msg) : @nbres A :=
  if is_type (t_type t) TRegular then
    match ap_handle P a c m with
    | (a1, HBlock l s1 s2 body bl rx) =>
      let '(a2, ol, x) := handle_blockwise P Cs true a1 t m (msg_build l) s1 s2 body bl rx in
      (a2, SHandle c m :: ol, x)
    | (a1, HResp l) => (a1, [SHandle c m], (t, msg_build l, Ok tt))
    | (a1, HErr e) => (a1, [SHandle c m], (t, msg_create, Err e))
    end
  else next_block P a t m msg_create.

Lemma blk_obs_no_send l : Forall (blk_obs c) l -> sent_to c l = [].
Proof. induction 1 as [|o l [[b ->]|[b ->]] H IH]; cbn; auto. Qed.

Lemma reply_fine a t m a' l t2 resp r : t_client t = c -> reply_of a t m = (a', l, (t2, resp, r)) ->
  Forall (fun o => blk_obs c o \/ o = SHandle c m) l /\ sent_to c l = [] /\ core t2 = core t /\ rwf resp.
Proof.
  intros Hc. unfold reply_of. destruct (is_type (t_type t) TRegular).
  2: { intro H. pose proof (next_block_fine P a t m msg_create rwf_create) as [F [G W]]. rewrite H in F, G, W.
       cbn [fst snd] in F, G, W. rewrite Hc in F. split; [eapply Forall_impl; [|exact F]; auto|].
       split; [apply blk_obs_no_send; exact F|]. auto. }
  destruct (ap_handle P a c m) as [a1 [e|ls|ls s1 s2 body bl rx]].
  - intros [= <- <- <- <- <-]. split; [constructor; auto|]. split; [reflexivity|]. split; [reflexivity|apply rwf_create].
  - intros [= <- <- <- <- <-]. split; [constructor; auto|]. split; [reflexivity|]. split; [reflexivity|apply rwf_build].
  - pose proof (handle_blockwise_fine P Cs true a1 t m (msg_build ls) s1 s2 body bl rx (rwf_build ls)) as [F [G W]].
    destruct (handle_blockwise P Cs true a1 t m (msg_build ls) s1 s2 body bl rx) as [[a2 ol] x].
    intros [= <- <- ->]. cbn [fst snd] in F, G, W. rewrite Hc in F.
    split; [constructor; [auto|eapply Forall_impl; [|exact F]; auto]|].
    split; [cbn; apply blk_obs_no_send; exact F|]. auto.
Qed.

Lemma answer_eq (v : @srv A) i m a' l t2 resp :
  t_client (tr v i) = c -> (i < length (v_tr v))%nat ->
  server_check_options Cs m = 0 -> reply_of (v_app v) (tr v i) m = (a', l, (t2, resp, Ok tt)) ->
  exists v', exchange_answer P Es Cs v i m = (v', Ok resp) /\ up Es v i t2 l (v_id v) a' v'.
Proof.
  intros Hc Hi Ho Hr.
  assert (Hl : forall n n', Forall (stamped Es n n') l).
  { intros n n'. destruct (reply_fine _ _ _ _ _ _ _ _ Hc Hr) as (F & _). eapply Forall_impl; [|exact F].
    intros o [[[b ->]|[b ->]]| ->]; exact I. }
  unfold exchange_answer. rewrite Ho, Hc. change (negb (0 =? 0)) with false. cbv iota zeta.
  unfold reply_of in Hr. destruct (is_type (t_type (tr v i)) TRegular) eqn:Et; cbn [negb].
  2: { rewrite Hr. eexists. split; [reflexivity|]. exists (v_n v). split; [lia|]. split; [reflexivity|apply Hl]. }
  cbn [slog v_app]. destruct (ap_handle P (v_app v) c m) as [a1 [e|ls|ls s1 s2 body bl rx]].
  - discriminate.
  - injection Hr as <- <- <- <-. eexists. split; [reflexivity|]. exists (v_n v). split; [lia|]. split; [|apply Hl].
    unfold tr. rewrite set_nth_same. reflexivity.
  - destruct HF as (_ & _ & _ & _ & HL). rewrite HL.
    change (v_app (tick (set_app (slog v (SHandle c m)) a1))) with a1.
    change (tr (tick (set_app (slog v (SHandle c m)) a1)) i) with (tr v i).
    fold (msg_build ls).
    destruct (handle_blockwise P Cs true a1 (tr v i) m (msg_build ls) s1 s2 body bl rx) as [[a2 ol] x].
    injection Hr as <- <- ->. eexists. split; [reflexivity|]. exists (S (v_n v)). split; [lia|]. split; [|apply Hl].
    unfold set_tr, set_app, slogs, tick, slog. cbn [v_trace v_n v_id v_tr v_app]. rewrite <- app_assoc. reflexivity.
Qed.

Lemma respond_eq (v : @srv A) i m resp bq :
  t_client (tr v i) = c -> (i < length (v_tr v))%nat ->
  rwf m -> rwf resp -> m_type m = 0 ->
  msg_format (complete resp (m_id m) (m_token m) T_ACK) MAX_BUF_LEN = Ok bq ->
  exists v' now, exchange_respond Es v i m resp false = (v', Ok tt) /\
    up Es v i (t_with_msgs (t_with_last_use (tr v i) now) m (complete resp (m_id m) (m_token m) T_ACK))
       [SSend c bq true; SUse c now] (v_id v) (v_app v) v'.
Proof.
  intros Hc Hi Wm Wr Ht Hb. unfold exchange_respond. rewrite Ht. change (0 =? T_CON) with true. cbn [andb negb].
  rewrite complete_eq by (try apply Wm; reflexivity).
  destruct (trans_send Es v i (complete resp (m_id m) (m_token m) T_ACK)) as [v1 r1] eqn:Es1.
  assert (Hr1 : r1 = Ok tt).
  { unfold trans_send in Es1. rewrite Hb in Es1. destruct HF as (_ & HS & _). rewrite HS in Es1. congruence. }
  subst r1. apply up_send in Es1; [|exact Hi]. cbv zeta in Es1. rewrite Hb in Es1.
  destruct Es1 as [(b & now & Eb & _ & Hu)|[(b & e & _ & Er & _)|(Hn & _)]]; [|discriminate|destruct (Hn bq eq_refl)].
  injection Eb as <-. destruct HF as (_ & _ & _ & HC & _). rewrite !HC. cbn [andb negb].
  assert (Wc : rwf (complete resp (m_id m) (m_token m) T_ACK)).
  { apply rwf_complete; [exact Wr|apply Wm|apply Wm|reflexivity]. }
  rewrite (copy_rwf m Wm), (copy_rwf _ Wc). change (m_type (complete _ _ _ _) =? T_CON) with false. cbv iota.
  eexists. exists now. split; [reflexivity|]. rewrite Hc in Hu.
  assert (Hi1 : (i < length (v_tr v1))%nat) by (rewrite (up_len _ _ _ _ _ _ _ _ Hu); exact Hi).
  pose proof (up_tr _ _ _ _ _ _ _ _ Hi Hu) as Ht1.
  change [SSend c bq true; SUse c now] with ([SSend c bq true; SUse c now] ++ []).
  eapply (up_trans Es v i _ [SSend c bq true; SUse c now]); [exact Hu|].
  change (tr (tick (tick v1)) i) with (tr v1 i). rewrite Ht1.
  exists (S (S (v_n v1))). split; [lia|]. split; [|constructor].
  rewrite app_nil_r, <- (up_id _ _ _ _ _ _ _ _ Hu), <- (up_app _ _ _ _ _ _ _ _ Hu). reflexivity.
Qed.

(** One request, answered. *)
Definition stripped (t u : trans) : Prop :=
  xfer u = xfer t /\ t_client u = t_client t /\ t_active u = t_active t.

Lemma turn (v : @srv A) i m d a' l t2 resp bq :
  base v -> (i < 8)%nat -> t_active (tr v i) = true -> t_client (tr v i) = c ->
  reads Cs d m -> rwf m -> m_type m = 0 -> m_class m = 0 ->
  match_req (tr v i) m = false -> sepb Cs m = false -> server_check_options Cs m = 0 ->
  let u := t_with_msgs (t_with_last_use (tr v i) (se_time Es (v_n v))) msg_zero msg_zero in
  reply_of (v_app v) u m = (a', l, (t2, resp, Ok tt)) ->
  msg_format (complete resp (m_id m) (m_token m) T_ACK) MAX_BUF_LEN = Ok bq ->
  exists v' now s, 
    (let (v1, r) := trans_recv Es Cs v i d None in
     match r with Ok m => exchange_msg P Es Cs v1 i m | _ => (v1, Err EOTHER) end) = (v', Ok tt) /\
    trans_recv Es Cs v i d None = (touch Es (slog v (SRecv c d)) i, Ok m) /\
    up Es v i (t_with_msgs (t_with_last_use t2 now) m (complete resp (m_id m) (m_token m) T_ACK)) s (v_id v) a' v' /\
    sent_to c s = [bq] /\ calls s = calls l.
Proof.
  intros Hb Hi Ha Hc [Hd Hp] Wm Ht Hcl Hm Hsep Ho u Hr Hf.
  assert (Hlen : (i < length (v_tr v))%nat) by (rewrite (ba_len _ Hb); exact Hi).
  assert (Erx : trans_recv Es Cs v i d None = (touch Es (slog v (SRecv c d)) i, Ok m)).
  { unfold trans_recv. rewrite rx_buf_id, rx_cut_id, Hp, Hc by exact Hd. reflexivity. }
  rewrite Erx. cbv iota.
  set (v1 := touch Es (slog v (SRecv c d)) i).
  assert (Hu1 : up Es v i (t_with_last_use (tr v i) (se_time Es (v_n v))) [SRecv c d; SUse c (se_time Es (v_n v))] (v_id v) (v_app v) v1).
  { change [SRecv c d; SUse c (se_time Es (v_n v))] with ([SRecv c d] ++ [SUse c (se_time Es (v_n v))]).
    eapply up_trans; [apply up_log; exact I|]. pose proof (up_touch Es (slog v (SRecv c d)) i) as H. cbv zeta in H.
    change (tr (slog v (SRecv c d)) i) with (tr v i) in H. rewrite Hc in H. exact H. }
  assert (Ht1 := up_tr _ _ _ _ _ _ _ _ Hlen Hu1). clearbody v1.
  unfold exchange_msg. rewrite Ht1.
  change (match_req (t_with_last_use (tr v i) _) m) with (match_req (tr v i) m). rewrite Hm. cbn [andb].
  rewrite Ht. change ((0 =? T_ACK) || (0 =? T_RST)) with false. rewrite andb_false_r. rewrite Hcl.
  change (false || negb (0 =? CL_REQ)) with false. cbv iota.
  unfold exchange_request. rewrite Ht1. rewrite Ht. change (0 =? T_CON) with true. cbv iota zeta.
  rewrite get_resp_type_ok, Hsep. cbn [andb].
  fold u. set (v2 := set_tr v1 i u).
  assert (Hu2 : up Es v i u ([SRecv c d; SUse c (se_time Es (v_n v))] ++ []) (v_id v) (v_app v) v2).
  { eapply up_trans; [exact Hu1|]. rewrite <- (up_id _ _ _ _ _ _ _ _ Hu1), <- (up_app _ _ _ _ _ _ _ _ Hu1). apply up_set. }
  clearbody v2. rewrite app_nil_r in Hu2.
  assert (Ht2 := up_tr _ _ _ _ _ _ _ _ Hlen Hu2).
  assert (Hl2 : (i < length (v_tr v2))%nat) by (rewrite (up_len _ _ _ _ _ _ _ _ Hu2); exact Hlen).
  assert (Huc : t_client u = c) by exact Hc.
  destruct (reply_fine _ _ _ _ _ _ _ _ Huc Hr) as (_ & Hns & Hcore & Wr).
  destruct (answer_eq v2 i m a' l t2 resp) as (v3 & -> & Hu3).
  { rewrite Ht2. exact Huc. } { exact Hl2. } { exact Ho. } { rewrite Ht2, (up_app _ _ _ _ _ _ _ _ Hu2). exact Hr. }
  rewrite (up_id _ _ _ _ _ _ _ _ Hu2) in Hu3.
  pose proof (up_trans _ _ _ _ _ _ _ _ _ _ _ _ _ Hu2 Hu3) as Hu4.
  assert (Ht3 := up_tr _ _ _ _ _ _ _ _ Hlen Hu4).
  assert (Hl3 : (i < length (v_tr v3))%nat) by (rewrite (up_len _ _ _ _ _ _ _ _ Hu4); exact Hlen).
  assert (Hc2 : t_client t2 = c) by (rewrite (core_client _ _ Hcore); exact Huc).
  destruct (respond_eq v3 i m resp bq) as (v4 & now & Her & Hu5); auto.
  { rewrite Ht3. exact Hc2. }
  rewrite Ht3, (up_id _ _ _ _ _ _ _ _ Hu4), (up_app _ _ _ _ _ _ _ _ Hu4) in Hu5.
  exists v4, now, (([SRecv c d; SUse c (se_time Es (v_n v))] ++ l) ++ [SSend c bq true; SUse c now]).
  split; [exact Her|]. split; [reflexivity|]. split; [eapply up_trans; eassumption|].
  assert (Happ : forall l1 l2, sent_to c (l1 ++ l2) = sent_to c l1 ++ sent_to c l2).
  { induction l1 as [|o l1 IH]; intro l2; cbn; [reflexivity|]. destruct o; auto. destruct ok; auto. destruct (_ =? _); cbn; rewrite IH; reflexivity. }
  rewrite !Happ, Hns, !calls_app. cbn [sent_to calls List.app]. rewrite N.eqb_refl, app_nil_r. auto.
Qed.

(** The transaction that a datagram of [c] goes to. *)
Record ready (v v1 : @srv A) (i : nat) : Prop := {
  re_get : get_trans Es v c = (v1, Ok i);
  re_trace : exists s, v_trace v1 = v_trace v ++ s /\ sent_to c s = [] /\ calls s = [];
  re_base : base v1;
  re_lt : (i < 8)%nat;
  re_active : t_active (tr v1 i) = true;
  re_client : t_client (tr v1 i) = c;
  re_app : v_app v1 = v_app v
}.

Lemma ready_again v i : base v -> (i < 8)%nat -> t_active (tr v i) = true -> t_client (tr v i) = c -> ready v v i.
Proof.
  intros Hb Hi Ha Hc.
  assert (Hg : get_trans Es v c = (v, Ok i)).
  { destruct (get_trans Es v c) as [v1 r] eqn:Eg. apply get_trans_spec in Eg as (s & oi & Hg & Hr); [|exact Hb].
    destruct Hg as [j Hj Aj Cj|j now v1 Hj Aj Hn Hu|j v1 Hj Aj Hn Hu|v0 v1 s' oi' j Hj Aj Hn Hu0 H].
    - rewrite Hr. f_equal. f_equal. apply (ba_uniq _ Hb); auto; congruence.
    - destruct (Hn i Hi Ha Hc).
    - destruct (Hn i Hi Ha Hc).
    - destruct (Hn i Hi Hc). }
  split; auto. exists []. rewrite app_nil_r. auto.
Qed.

Lemma get_trans_ok (v : @srv A) : exists v1 i, get_trans Es v c = (v1, Ok i).
Proof.
  unfold get_trans. destruct (find_trans (v_tr v) 0 c) as [i|]; [eauto|].
  destruct HF as (_ & _ & HC & _).
  destruct (find_empty_trans (v_tr v) 0) as [i|]; unfold trans_create; cbv zeta; cbn [tick v_n]; rewrite HC; do 2 eexists; reflexivity.
Qed.

Lemma ready_first v id : reachable P Es Cs v -> idle v c -> fresh_id c id (v_trace v) ->
  exists v1 i, ready v v1 i /\ t_type (tr v1 i) = TRegular /\ forall m, m_id m = id -> match_req (tr v1 i) m = false.
Proof.
  intros Hre Hid Hf. apply reach_all in Hre as (Hb & HL & HS & _). pose proof HL as [Hl Hh].
  destruct (get_trans_ok v) as (v1 & i & Eg). pose proof Eg as Eg'.
  apply get_trans_spec in Eg as (s & oi & Hg & Hr); [|exact Hb].
  destruct oi as [j|]; [|destruct Hr; discriminate]. injection Hr as <-.
  pose proof (micros_base _ _ _ _ _ _ _ Hb (got_micros P Es Cs _ _ _ _ _ Hb Hg)) as Hb1.
  destruct (got_slot _ _ _ _ _ _ Hb Hg) as (Hi & Ha & Hc & Hw & Happ & _).
  assert (Hs : v_trace v1 = v_trace v ++ s /\ sent_to c s = [] /\ calls s = []).
  { destruct Hg as [j Hj Aj Cj|j now v1 Hj Aj Hn Hu|j v1 Hj Aj Hn Hu|v0 v1 s' oi' j Hj Aj Hn Hu0 H].
    - rewrite app_nil_r. auto.
    - rewrite (up_trace _ _ _ _ _ _ _ _ Hu). auto.
    - rewrite (up_trace _ _ _ _ _ _ _ _ Hu). auto.
    - destruct H as [(_ & now & -> & Hu)|(_ & -> & Hu)];
      rewrite (up_trace _ _ _ _ _ _ _ _ Hu), (up_trace _ _ _ _ _ _ _ _ Hu0), <- app_assoc; auto. }
  exists v1, i. split; [split; auto; exists s; exact Hs|].
  destruct (in_dec N.eq_dec c (live (v_trace v))) as [Hin|Hin].
  - pose proof Hin as Hin'. apply Hh in Hin' as (j & Hj & Aj & Cj).
    pose proof (re_get _ _ _ (ready_again v j Hb Hj Aj Cj)) as Eg2. rewrite Eg' in Eg2. injection Eg2 as -> ->.
    split; [apply (Hid (tr v j)); auto; apply nth_In; rewrite (ba_len _ Hb); exact Hj|].
    intros m Hm. rewrite <- Hm in Hf. apply (fresh_no_match v c m (tr v j) 0 Hf Hl). left.
    split; [exact Hin|]. split; [exact Cj|apply HS; auto].
  - destruct Hw as [(Ht & -> & _)|(now & Ht)].
    { destruct Hin. apply Hh. exists i. auto. }
    rewrite Ht. split; [reflexivity|]. intros m Hm. rewrite <- Hm in Hf.
    apply (fresh_no_match v c m (fresh_trans c now) 0 Hf Hl). right. split; [exact Hin|eauto].
Qed.

(** ** One exchange *)

Record light (n : N) (m : msg) : Prop := {
  li_wf : wf_msg m;
  li_low : low (m_ops m);
  li_room : room (m_ops m) <= n;
  li_payload : lenN (m_payload m) <= 1024
}.

Lemma wf_rwf m : wf_msg m -> rwf m.
Proof. intros []. split; assumption. Qed.
Lemma wf_stamped_req E n m : wf_msg m -> wf_msg (stamped_req E n m).
Proof.
  intros []. destruct (token_ok E (2 + n)) as [H1 H2]. pose proof (req_id_ok E n).
  split; cbn [stamped_req with_id_token m_ver m_type m_class m_detail m_id m_token m_ops m_payload]; auto. lia.
Qed.
Lemma wf_complete resp id tok ty : wf_msg resp -> id <= 65535 -> lenN tok <= 8 -> bytes_ok tok -> ty < 4 ->
  wf_msg (complete resp id tok ty).
Proof. intros []. split; cbn; auto. Qed.

Lemma skipn_app_l {T} (l1 l2 : list T) : skipn (length l1) (l1 ++ l2) = l2.
Proof. rewrite skipn_app, skipn_all, Nat.sub_diag. reflexivity. Qed.

Definition reply_to (m resp : msg) : msg := complete resp (m_id m) (m_token m) T_ACK.

Lemma net_round (Q : A -> list sobs -> trans -> msg -> Prop) s v v1 i m0 :
  let m := stamped_req Ec (c_nrand s) m0 in
  ready v v1 i ->
  light 112 m0 -> m_type m0 = 0 -> m_class m0 = 0 -> m_detail m0 <> 0 ->
  match_req (tr v1 i) m = false -> sepb Cs m = false -> acceptable (sc_proxy Cs) m ->
  (forall u, stripped (tr v1 i) u -> exists a' l t2 resp,
     reply_of (v_app v1) u m = (a', l, (t2, resp, Ok tt)) /\ Q a' l t2 resp /\
     light 112 resp /\ (m_class resp = 2 \/ m_class resp = 4 \/ m_class resp = 5) /\ acceptable (cf_proxy Cc) resp) ->
  exists s' v' a' l t2 resp t3 h,
    net_exch P Ec Cc Es Cs c (s, v) m0 = ((s', v'), Ok (reply_to m resp)) /\ Q a' l t2 resp /\
    c_nrand s' = (7 + c_nrand s)%nat /\ ready v' v' i /\ v_app v' = a' /\ tr v' i = t3 /\
    xfer t3 = xfer t2 /\ m_id (t_req t3) = m_id m /\ v_trace v' = v_trace v ++ h /\ calls h = calls l.
Proof.
  intros m Hre [W Hlow Hroom Hpay] Ht Hcl Hdet Hm Hsep Hacc Hreply.
  assert (Wm : wf_msg m) by (apply wf_stamped_req; exact W).
  destruct (wire (sc_sg Cs) m) as (d & Hd & Hdl & Hdp); auto.
  { left. exact Hcl. }
  { split; [intros [_ H]; destruct (Hdet H)|]. intro H. change (m_type m) with (m_type m0) in H. rewrite Ht in H. discriminate. }
  destruct Hre as [Hget (s0 & Htr & Hs0 & Hc0) Hb Hi Ha Hc Happ].
  set (u := t_with_msgs (t_with_last_use (tr v1 i) (se_time Es (v_n v1))) msg_zero msg_zero).
  destruct (Hreply u) as (a' & l & t2 & resp & Hr & HQ & [Wr Hrl Hrr Hrp] & Hrc & Hra).
  { split; [reflexivity|]. split; reflexivity. }
  assert (Wq : wf_msg (reply_to m resp)).
  { apply wf_complete; [exact Wr|apply Wm|apply Wm|apply Wm|reflexivity]. }
  assert (Hne : m_class resp <> 0) by (destruct Hrc as [H|[H|H]]; rewrite H; discriminate).
  destruct (wire (cf_sg Cc) (reply_to m resp)) as (b & Hbf & Hbl & Hbp); auto.
  { right. exact Hrc. }
  { split; [intros [H _]; destruct (Hne H)|]. intro H. discriminate H. }
  destruct (turn v1 i m d a' l t2 resp b) as (v2 & now & h & Hx & Hrx & Hu & Hsent & Hcalls); auto.
  { split; [lia|exact Hdp]. } { apply wf_rwf. exact Wm. } { apply server_options_spec. exact Hacc. }
  destruct (client_out Ec Cc s m0 d []) as (s1 & He1 & (o & Ho1 & Ho2) & Hnow1 & Hn1); auto.
  { destruct HF as [H _]. exact H. }
  destruct (client_out Ec Cc s m0 d [(c_now s, SelRx (RxData b))]) as (s2 & He2 & _ & Hnow2 & Hn2); auto.
  { destruct HF as [H _]. exact H. }
  fold m in He1, He2.
  destruct (client_in Ec Cc m s2 (c_now s) b (reply_to m resp) []) as (s3 & He3 & Hn3); auto.
  { lia. } { split; [lia|exact Hbp]. }
  { unfold msg_is_empty. change (m_class (reply_to m resp)) with (m_class resp).
    destruct (N.eqb_spec (m_class resp) 0); [contradiction|reflexivity]. }
  unfold net_exch. rewrite He1. cbn [exchange_con]. rewrite Ho1, skipn_app_l.
  change (sent_by_client [OSend (c_now s) d true; o]) with (d :: sent_by_client [o]). rewrite Ho2. cbn [map server_run server_step].
  unfold server_exchange. rewrite Hget. rewrite Hrx in Hx |- *. rewrite Hx. cbv iota.
  rewrite (up_trace _ _ _ _ _ _ _ _ Hu), Htr, <- app_assoc, skipn_app_l.
  assert (Happs : forall l1 l2, sent_to c (l1 ++ l2) = sent_to c l1 ++ sent_to c l2).
  { induction l1 as [|x l1 IH]; intro l2; cbn; [reflexivity|]. destruct x; auto. destruct ok; auto. destruct (_ =? _); cbn; rewrite IH; reflexivity. }
  rewrite Happs, Hs0, Hsent. cbn [List.app map]. rewrite He2, He3.
  assert (Hlen : (i < length (v_tr v1))%nat) by (rewrite (ba_len _ Hb); exact Hi).
  pose proof (up_tr _ _ _ _ _ _ _ _ Hlen Hu) as Ht3.
  destruct (reply_fine (v_app v1) u m _ _ _ _ _ Hc Hr) as (_ & _ & Hcore & _).
  assert (Hact : t_active (tr v2 i) = true).
  { rewrite Ht3. cbn [t_with_msgs t_with_last_use t_active]. rewrite (core_active _ _ Hcore). exact Ha. }
  assert (Hcli : t_client (tr v2 i) = c).
  { rewrite Ht3. cbn [t_with_msgs t_with_last_use t_client]. rewrite (core_client _ _ Hcore). exact Hc. }
  exists s3, v2, a', l, t2, resp, (tr v2 i), (s0 ++ h).
  split; [reflexivity|]. split; [exact HQ|]. split; [lia|].
  split.
  { apply ready_again; auto. eapply up_base; [exact Hb|exact Hi|apply Hb|exact Hu|].
    intros _ j Hj Hne' Aj Cj. apply Hne'. apply (ba_uniq _ Hb); auto. rewrite Cj.
    rewrite Ht3 in Hcli. congruence. }
  split; [exact (up_app _ _ _ _ _ _ _ _ Hu)|]. split; [reflexivity|]. rewrite Ht3. split; [reflexivity|]. split; [reflexivity|].
  split; [rewrite (up_trace _ _ _ _ _ _ _ _ Hu), Htr, app_assoc; reflexivity|].
  rewrite calls_app, Hc0. exact Hcalls.
Qed.
End Net.
