(** Property theorems for the sample applications (C90 to C93): the transfer client and
    server of SampleModel.v, on top of the two libraries.  The statements use [saved]
    and [transfer_uri] of SampleSpec.v and the predicates of E2ESpec.v. *)
From Verif Require Import Base BaseLemmas MsgModel MsgSpec MsgFormatLemmas ClientModel ClientSpec ClientPropLemmas ServerModel ServerSpec ServerPropLemmas
  ServerFixtures ServerBlockSpec E2EModel E2ESpec E2EDownloadLemmas SampleModel SampleSpec SampleLemmas Properties_E2E Properties_ServerBlock.

(** C90: at every time the file of the transfer server holds what the bodies passed to
    the receive callback so far, and nothing else, make of it; in every execution,
    whatever the clients send, the operating system does, and the attempts to write the
    file give. *)
Theorem C90_file :
  forall F E C id file evs v r,
  server_run (transfer_server F) E C (server_init id (mktserver 0 file)) evs = (v, r) ->
  ts_file (v_app v) = saved F 0 file (map snd (calls (v_trace v))).
Proof.
  intros F E C id file evs v r H.
  destruct (transfer_follows F E C (server_init id (mktserver 0 file)) evs) as (l & H1 & H2). rewrite H in H1, H2. cbn [fst] in H1, H2.
  cbn [server_init v_trace v_app calls List.app] in H1, H2. rewrite H1, H2, saves. reflexivity.
Qed.
Print Assumptions C90_file.

(** C90, in part: the transfer client that is given a file makes the transfer server
    store exactly the contents of this file, returns 0 and reports 2.04.  For every
    file that fits into a large buffer, every earlier history of the server and every
    client state.
    Missing, as they are false of the libraries (see C41): that it holds whatever the
    message IDs are, and that it holds of the empty file. *)
Theorem C90_transfer_partial :
  forall F Ec Cc Es sg c s v body k fuel,
  let P := transfer_server F in let Cs := transfer_cfg sg in
  no_failures Ec Es -> F (ts_n (v_app v)) = Some k -> lenN body <= k ->
  reachable P Es Cs v -> idle v c ->
  bytes_ok body -> body <> [] -> lenN body <= 8192 -> lenN body / 16 < N.of_nat fuel ->
  fresh_id c (id_no Ec (c_nrand s) 0) (v_trace v) ->
  (forall k, (k < 2 * fuel)%nat -> id_no Ec (c_nrand s) k <> id_no Ec (c_nrand s) (S k)) ->
  exists s' v',
    transfer_client_execute (net_exch P Ec Cc Es Cs c) fuel (s, v) (Ok body) = ((s', v'), Ok tt, Some (2, 4)) /\
    ts_file (v_app v') = Some body.
Proof.
  intros F Ec Cc Es sg c s v body k fuel P Cs HF Hk Hkb Hr Hi Hb Hne Hl Hfu Hfr Hids.
  set (lr := [SetType T_CON; SetCode CL_REQ M_PUT; AddOp OP_URI_PATH client_text; AddOp OP_URI_PATH transfer_text]).
  destruct (C41_upload_partial tserver P Ec Cc Es Cs c s v lr [] [SetCode 2 4] 64 64 body [] 64 64 fuel)
    as (s' & v' & buf & kk & resp & h & H1 & H2 & H3 & H4 & H5).
  { repeat constructor; try apply bytes_okb_spec; vm_compute; reflexivity || discriminate. }
  { split; auto.
    - split; [split; [repeat constructor; vm_compute; discriminate|vm_compute; discriminate]|]. split; [vm_compute; discriminate|]. split.
      + intros o Ho _. vm_compute in Ho. destruct Ho as [<-|[<-|[]]]; cbn; auto 20.
      + intros p [].
    - exists [], 0, 0. split; [vm_compute; discriminate|]. intros m Hm. exists (v_app v).
      pose proof (asks_path _ _ Hm) as Hpa. destruct Hm as (M1 & M2 & M3 & _). split.
      { apply transfer_handle_put; [exact M3|rewrite M1; reflexivity|rewrite M2; reflexivity|rewrite Hpa; reflexivity]. }
      intros m' buf _ Hbuf Hlen _. exists (save F (v_app v) body), buf. cbn [ap_rx P transfer_server length firstn].
      split; [|split; [reflexivity|split; [change (lenN (@nil N)) with 0; lia|exact Hlen]]].
      pose proof (transfer_rx_save F (v_app v) buf (lenN body)) as Hs. rewrite to_nat_lenN, Hbuf in Hs.
      unfold transfer_handle_rx in *. rewrite Hk in *. cbv zeta in *.
      replace (N.min k (lenN body)) with (lenN body) in * by lia. rewrite N.eqb_refl in *. cbn [negb fst] in *. rewrite Hs. reflexivity.
    - split; [repeat constructor; vm_compute; reflexivity || discriminate|]. split; [reflexivity|]. intro m. cbn. auto.
    - split; [split; [constructor|vm_compute; discriminate]|]. intros o [].
    - unfold block_size. cbn. auto 20.
    - split; [exact Hb|]. split; [exact Hne|]. split; [exact Hl|]. eapply N.le_lt_trans; [exact Hl|]. vm_compute. reflexivity.
    - vm_compute. reflexivity. }
  exists s', v'. unfold transfer_client_execute. change transfer_request with (msg_build lr).
  change TRANSFER_BLOCK1_SIZE with 64. change TRANSFER_BLOCK2_SIZE with 64. split.
  { rewrite H1, H2, H3. reflexivity. }
  assert (HR : follows (save F) v v').
  { pose proof (across (net_exch P Ec Cc Es Cs c) (fun x y => follows (save F) (snd x) (snd y))
      (fun x => follows_refl _ _) (fun x y z => follows_trans _ _ _ _)) as Q.
    specialize (Q (fun st m => match st with (s0, v0) => follows_net P (save F) (fun a _ m => transfer_handle_same a m)
      (fun _ a b e _ => transfer_rx_save F a b e) Es Cs Ec Cc c s0 v0 m end) fuel (s, v) (msg_build lr) None 64 64 body).
    rewrite H1 in Q. exact Q. }
  destruct HR as (l & L1 & L2). rewrite H4, calls_app, H5 in L1. apply app_inv_head in L1. subst l.
  rewrite L2, saves. cbn [map snd saved]. rewrite Hk. rewrite firstn_all2; [reflexivity|]. unfold lenN in Hkb. lia.
Qed.
Print Assumptions C90_transfer_partial.

(** For the examples: 70 bytes; another client has asked for something before; the
    file can be written, or can not be opened. *)
Definition tbody : list N := map N.of_nat (seq 100 70).
Definition tF_ok : nat -> option N := fun _ => Some 100000.
Definition tF_none : nat -> option N := fun _ => None.
Definition tC : scfg := transfer_cfg UnsignedChar.
Definition tv (F : nat -> option N) (evs : list sev) : @srv tserver :=
  fst (server_run (transfer_server F) sE_ok tC (server_init 10 (mktserver 0 None)) evs).
(** Two requests with a body in one datagram each: PUT of "abc" and of "de". *)
Definition tput (i : N) (pl : list N) : list N :=
  [64; 3; 0; i; 182] ++ client_text ++ [8] ++ transfer_text ++ [255] ++ pl.
Definition tevs : list sev := [EvRx 7 (tput 1 [97; 98; 99]) None; EvRx 8 [64; 1; 1; 2] None; EvRx 7 (tput 2 [100; 101]) None].

Example C90_file_example :
  ts_file (v_app (tv tF_ok (firstn 2 tevs))) = Some [97; 98; 99] /\ ts_file (v_app (tv tF_ok tevs)) = Some [100; 101] /\
  map snd (calls (v_trace (tv tF_ok tevs))) = [[97; 98; 99]; [100; 101]] /\
  ts_file (v_app (tv (fun n => if (n =? 0)%nat then Some 2 else None) tevs)) = Some [97; 98].
Proof. vm_compute. repeat split; reflexivity. Qed.

Lemma exec_b (r : (cst * @srv tserver) * res unit * option (N * N)) log f :
  snd r = log -> match snd (fst r) with Ok _ => true | _ => false end = true -> ts_file (v_app (snd (fst (fst r)))) = f ->
  exists s' v', r = ((s', v'), Ok tt, log) /\ ts_file (v_app v') = f.
Proof. destruct r as [[[s v] [[]| | |]] l]; cbn; try discriminate. intros <- _ <-. eauto. Qed.

Example C90_transfer_example :
  no_failures nE sE_ok /\ tF_ok (ts_n (v_app (tv tF_ok tevs))) = Some 100000 /\
  reachable (transfer_server tF_ok) sE_ok tC (tv tF_ok tevs) /\ idle (tv tF_ok tevs) 5 /\ bytes_ok tbody /\
  fresh_id 5 (id_no nE (c_nrand s_ok) 0) (v_trace (tv tF_ok tevs)) /\
  (forall k, (k < 2 * 5)%nat -> id_no nE (c_nrand s_ok) k <> id_no nE (c_nrand s_ok) (S k)) /\
  exists s' v', transfer_client_execute (net_exch (transfer_server tF_ok) nE C_ok sE_ok tC 5) 5 (s_ok, tv tF_ok tevs) (Ok tbody) =
    ((s', v'), Ok tt, Some (2, 4)) /\ ts_file (v_app v') = Some tbody.
Proof.
  split; [repeat split|]. split; [reflexivity|]. split.
  { exists 10, (mktserver 0 None), tevs. split; [lia|]. split; [apply sevs_ok; reflexivity|]. vm_compute. reflexivity. }
  split; [apply idle_b; vm_compute; reflexivity|]. split; [apply bytes_okb_spec; vm_compute; reflexivity|].
  split; [vm_compute; discriminate|]. split; [intros k Hk; do 10 (destruct k as [|k]; [vm_compute; discriminate|]); lia|].
  apply exec_b; vm_compute; reflexivity.
Qed.

(** C91, refuted: the value returned by the transfer client tells whether the file has
    been transferred.  It is 0 although nothing could be sent and the server has
    nothing; and it is 0 although the server could not store the file and said so. *)
Definition nE_down : env := mkenv (fun _ => Some EIO) (fun _ => None) (fun n => N.of_nat n).

Theorem C91_return_refuted :
  (exists F Ec Cc Es Cs c s v body fuel s' v',
     reachable (transfer_server F) Es Cs v /\
     transfer_client_execute (net_exch (transfer_server F) Ec Cc Es Cs c) fuel (s, v) (Ok body) = ((s', v'), Ok tt, None) /\
     ts_file (v_app v') = None) /\
  (exists F Ec Cc Es Cs c s v body fuel s' v',
     reachable (transfer_server F) Es Cs v /\
     transfer_client_execute (net_exch (transfer_server F) Ec Cc Es Cs c) fuel (s, v) (Ok body) = ((s', v'), Ok tt, Some (5, 0)) /\
     ts_file (v_app v') = None).
Proof.
  split.
  - exists tF_ok, nE_down, C_ok, sE_ok, tC, 5, s_ok, (tv tF_ok []), tbody, 5%nat.
    destruct (exec_b (transfer_client_execute (net_exch (transfer_server tF_ok) nE_down C_ok sE_ok tC 5) 5 (s_ok, tv tF_ok []) (Ok tbody)) None None)
      as (s' & v' & H1 & H2); [vm_compute; reflexivity..|].
    exists s', v'. split; [|auto]. exists 10, (mktserver 0 None), []. split; [lia|]. split; [constructor|reflexivity].
  - exists tF_none, nE, C_ok, sE_ok, tC, 5, s_ok, (tv tF_none []), tbody, 5%nat.
    destruct (exec_b (transfer_client_execute (net_exch (transfer_server tF_none) nE C_ok sE_ok tC 5) 5 (s_ok, tv tF_none []) (Ok tbody)) (Some (5, 0)) None)
      as (s' & v' & H1 & H2); [vm_compute; reflexivity..|].
    exists s', v'. split; [|auto]. exists 10, (mktserver 0 None), []. split; [lia|]. split; [constructor|reflexivity].
Qed.
Print Assumptions C91_return_refuted.

(** C91, what is true of it: an error is returned exactly if the file can not be
    loaded, and then nothing is sent.  Missing, as it is false: that a transfer that
    fails makes the client return an error. *)
Theorem C91_return_partial :
  forall St (exch : St -> msg -> St * res msg) fuel st file st' e log,
  transfer_client_execute exch fuel st file = (st', Err e, log) <-> file = Err e /\ st' = st /\ log = None.
Proof.
  intros St exch fuel st file st' e log. unfold transfer_client_execute. destruct file as [body|e'|u|].
  - destruct (exchange_blockwise _ _ _ _ _ _ _ _) as [[st1 b] [[n resp]| | |]]; split; intro H; try discriminate; destruct H; discriminate.
  - split; [intro H; injection H as -> -> <-; auto|]. intros (H & -> & ->). injection H as ->. reflexivity.
  - split; intro H; [discriminate|destruct H; discriminate].
  - split; intro H; [discriminate|destruct H; discriminate].
Qed.
Print Assumptions C91_return_partial.

Example C91_return_example :
  transfer_client_execute (net_exch (transfer_server tF_ok) nE C_ok sE_ok tC 5) 5 (s_ok, tv tF_ok []) (Err EIO) = ((s_ok, tv tF_ok []), Err EIO, None).
Proof. reflexivity. Qed.

(** C92: every body that the transfer server stores, in every execution, was sent to
    it by one client in PUT requests for "/client/transfer": it is made of the payloads
    of consecutive blocks from position 0, the last without the more flag. *)
Theorem C92_source :
  forall F E sg id file evs v r tr1 c body tr2,
  id <= 65535 -> Forall sev_ok evs ->
  server_run (transfer_server F) E (transfer_cfg sg) (server_init id (mktserver 0 file)) evs = (v, r) ->
  v_trace v = tr1 ++ SCall c body :: tr2 ->
  exists ms, since_handled (transfer_cfg sg) c tr1 ms /\ consecutive_blocks 64 0 ms false /\ body = concat (map m_payload ms) /\
    lenN body <= 8192 /\ forall m, In m ms -> m_detail m = 3 /\ seen_path m = transfer_uri.
Proof.
  intros F E sg id file evs v r tr1 c body tr2 Hid Hev Hrun Htr.
  destruct (C37_upload_assembles _ _ E (transfer_cfg sg) id _ evs v r tr1 c body tr2 ltac:(reflexivity) Hid Hev Hrun Htr)
    as (ms & size & H1 & (m & ms' & a & a' & l & size2 & b & len & rx & -> & Hh) & H3 & H4 & (me & pa & H5) & H6).
  destruct (transfer_handle_block _ _ _ _ _ _ _ _ _ Hh) as (Hd & Hp & ->). change transfer_path with transfer_uri in Hp.
  exists (m :: ms'). split; [exact H1|]. split; [exact H3|]. split; [exact H4|]. split; [exact H6|].
  destruct (H5 m (or_introl eq_refl)) as [E1 E2]. intros m' Hm'. destruct (H5 m' Hm') as [E3 E4]. split; congruence.
Qed.
Print Assumptions C92_source.

Example C92_example :
  Forall sev_ok tevs /\ exists tr1 tr2, v_trace (tv tF_ok tevs) = tr1 ++ SCall 7 [100; 101] :: tr2 /\ In (SHandle 7 (mkmsg 1 0 0 3 2 [] [mkop 11 client_text; mkop 11 transfer_text] [100; 101])) tr1.
Proof.
  split; [apply sevs_ok; reflexivity|]. exists (firstn 18 (v_trace (tv tF_ok tevs))), (skipn 19 (v_trace (tv tF_ok tevs))).
  split; [vm_compute; reflexivity|]. vm_compute. tauto.
Qed.

(** C93: the receive callback of the transfer server sets a success code only if the
    file then holds the whole body, and otherwise 5.00; whatever the attempts to write
    the file give and whatever it held before. *)
Theorem C93_acknowledged :
  forall F a rx buf e req a' l b e', e <= lenN buf ->
  ap_rx (transfer_server F) rx a buf e req = (a', RxDone l b e') ->
  forall resp, let r := fold_left run_setter l resp in
  m_class r = 2 /\ m_detail r = 4 /\ e' = 0 /\ ts_file a' = Some (firstn (N.to_nat e) buf) \/
  m_class r = 5 /\ m_detail r = 0 /\ (F (ts_n a) = None /\ ts_file a' = ts_file a \/ exists k, F (ts_n a) = Some k /\ k < e).
Proof.
  intros F a rx buf e req a' l b e' He. cbn [ap_rx transfer_server]. unfold transfer_handle_rx.
  destruct (F (ts_n a)) as [k|] eqn:Ek; cbv zeta.
  - destruct (N.eqb_spec (N.min k e) e) as [Hm|Hm]; cbn [negb]; intro H; injection H as <- <- <- <-; intro resp; cbn.
    + left. rewrite Hm. repeat split. rewrite firstn_firstn. do 2 f_equal. lia.
    + right. repeat split. right. exists k. split; [reflexivity|lia].
  - intro H. injection H as <- <- <- <-. intro resp. cbn. right. repeat split. left. auto.
Qed.
Print Assumptions C93_acknowledged.

Example C93_example :
  ap_rx (transfer_server tF_ok) 0 (mktserver 3 (Some [1])) [5; 6; 7; 8] 3 msg_create = (mktserver 4 (Some [5; 6; 7]), RxDone [SetCode 2 4] [5; 6; 7; 8] 0) /\
  ap_rx (transfer_server (fun _ => Some 2)) 0 (mktserver 3 (Some [1])) [5; 6; 7; 8] 3 msg_create = (mktserver 4 (Some [5; 6]), RxDone [SetCode 5 0] [5; 6; 7; 8] 3).
Proof. split; reflexivity. Qed.
