(** Lemmas on the time server. *)
From Verif Require Import Base BaseLemmas MsgModel MsgSpec MsgFormatLemmas ClientModel ClientLemmas ServerModel ServerSpec ServerPropLemmas
  ServerBlockSpec ServerBlockLemmas TableSpec TableLemmas RegSpec RegLemmas TimeModel TimeSpec.

Lemma newline_cut l : cstr (match find_newline l with None => l | Some p => firstn p l ++ 0 :: skipn (S p) l end) = first_line (until_nul l).
Proof.
  induction l as [|x l IH]; [reflexivity|]. cbn [find_newline until_nul].
  destruct (N.eqb_spec x 10) as [->|Hx]; [reflexivity|]. destruct (N.eqb_spec x 0) as [->|H0]; [reflexivity|].
  cbn [first_line]. destruct (N.eqb_spec x 10); [contradiction|]. rewrite <- IH.
  destruct (find_newline l) as [p|]; cbn [option_map firstn skipn List.app cstr]; destruct (N.eqb_spec x 0); try contradiction; reflexivity.
Qed.

Section Time.
Context (clock : nat -> option (list N)).
Context (Hclock : forall n s, clock n = Some s -> lenN s < 32).

Lemma payload_ok n : exists buf, time_payload_buf clock n = Ok buf /\
  cstr buf = first_line (until_nul (match clock n with Some s => s | None => [] end)).
Proof.
  unfold time_payload_buf, TIME_PAYLOAD_BUF_LEN. cbv zeta. destruct (clock n) as [s|] eqn:Es.
  - pose proof (Hclock n s Es). destruct (N.ltb_spec 32 (lenN s + 1)); [lia|]. cbn [bind].
    set (buf := s ++ repeat 0 (N.to_nat 32 - length s)). pose proof (newline_cut buf) as K.
    assert (until_nul buf = until_nul s) as E by (rewrite <- !until_nul_cstr; apply cstr_zeros). rewrite E in K.
    destruct (find_newline buf); eauto.
  - eexists. split; vm_compute; reflexivity.
Qed.

Lemma built p : m_class (msg_build [SetCode 2 5; AddOp 11 time_text; SetPayload p]) = 2 /\
  m_detail (msg_build [SetCode 2 5; AddOp 11 time_text; SetPayload p]) = 5 /\
  m_ops (msg_build [SetCode 2 5; AddOp 11 time_text; SetPayload p]) = [mkop 11 [116; 105; 109; 101]] /\
  m_payload (msg_build [SetCode 2 5; AddOp 11 time_text; SetPayload p]) = p.
Proof. vm_compute. destruct p; auto. Qed.

Lemma time_step a c m :
  ts_n (fst (time_handle clock a c m)) = S (ts_n a) /\ ts_mem (fst (time_handle clock a c m)) = ts_mem a /\
  let h := snd (time_handle clock a c m) in
  if (m_ver m =? 1) && (lenN (req_path m) <? 32) then
    exists l, h = HResp l /\
    (if key_eqb (until_nul (req_path m)) time_uri then
       if m_detail m =? 1 then
         m_class (msg_build l) = 2 /\ m_detail (msg_build l) = 5 /\ m_ops (msg_build l) = [mkop 11 [116; 105; 109; 101]] /\
         m_payload (msg_build l) = first_line (until_nul (match clock (ts_n a) with Some s => s | None => [] end))
       else m_class (msg_build l) = 5 /\ m_detail (msg_build l) = 1 /\ m_payload (msg_build l) = []
     else m_class (msg_build l) = 4 /\ m_detail (msg_build l) = 4 /\ m_payload (msg_build l) = [])
  else exists e, h = HErr e.
Proof.
  unfold time_handle. cbv zeta. change COAP_VER with 1.
  destruct (m_ver m =? 1); cbn [negb andb]; [|cbn; eauto].
  pose proof (uri_path_spec (m_ops m) TIME_URI_PATH_BUF_LEN ltac:(discriminate)) as H. cbv zeta in H.
  fold (req_path m) in H. rewrite H. clear H. unfold TIME_URI_PATH_BUF_LEN.
  destruct (N.ltb_spec 32 (lenN (req_path m) + 1)) as [Hl|Hl].
  { destruct (N.ltb_spec (lenN (req_path m)) 32); [lia|]. cbn; eauto. }
  destruct (N.ltb_spec (lenN (req_path m)) 32); [|lia].
  unfold cstr_eqb. rewrite cstr_zeros, !until_nul_cstr. rewrite firstn_all2 by (unfold lenN in Hl; lia).
  change (cstr time_path) with time_uri.
  destruct (bytes_eqb (until_nul (req_path m)) time_uri) eqn:Eb.
  2:{ destruct (key_eqb (until_nul (req_path m)) time_uri) eqn:Ek.
      { apply key_eqb_iff in Ek. rewrite Ek in Eb. discriminate. }
      cbn [negb fst snd ts_n ts_mem]. split; [reflexivity|]. split; [reflexivity|]. eexists. split; [reflexivity|]. vm_compute. auto. }
  apply bytes_eqb_eq in Eb. rewrite Eb, key_eqb_refl. cbn [negb]. unfold time_handle_time. cbv zeta. change M_GET with 1.
  destruct (m_detail m =? 1); cbn [negb].
  2:{ cbn [fst snd ts_n ts_mem]. split; [reflexivity|]. split; [reflexivity|]. eexists. split; [reflexivity|]. vm_compute. auto. }
  destruct (payload_ok (ts_n a)) as (buf & -> & <-). cbn [fst snd ts_n ts_mem].
  split; [reflexivity|]. split; [reflexivity|]. eexists. split; [reflexivity|]. apply built.
Qed.

Lemma time_steps l : forall a, ts_n (fold_left (fun a x => fst (time_handle clock a (fst x) (snd x))) l a) = (ts_n a + length l)%nat /\
  ts_mem (fold_left (fun a x => fst (time_handle clock a (fst x) (snd x))) l a) = ts_mem a.
Proof.
  induction l as [|[c m] l IH]; intro a; cbn [fold_left length fst snd]; [split; [lia|reflexivity]|].
  destruct (IH (fst (time_handle clock a c m))) as [H1 H2]. destruct (time_step a c m) as (K1 & K2 & _). rewrite H1, H2, K1, K2. split; [lia|reflexivity].
Qed.

Lemma time_state E C id evs v r : server_run (time_server clock) E C (server_init id time_start) evs = (v, r) ->
  ts_n (v_app v) = length (handled (v_trace v)) /\ ts_mem (v_app v) = Ok tt.
Proof.
  intro H. destruct (follows_run (time_server clock) (fun a x => fst (time_handle clock a (fst x) (snd x))) (fun a c m => eq_refl) (fun rx a buf e m => eq_refl) E C evs (server_init id time_start)) as (l & H1 & H2).
  rewrite H in H1, H2. cbn [fst] in H1, H2. cbn [server_init v_trace v_app handled List.app] in H1, H2. rewrite H1, H2.
  apply (time_steps l time_start).
Qed.
End Time.
