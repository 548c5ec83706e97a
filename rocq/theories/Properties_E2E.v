(** Property theorems for the two libraries together (C40, C41, C89): the client of
    ClientModel.v and the server of ServerModel.v joined by the network of
    E2EModel.v.  The statements use the predicates of E2ESpec.v. *)
From Coq Require Import Permutation.
From Verif Require Import Base BaseLemmas MsgModel MsgSpec MsgFormatLemmas ClientModel ClientSpec ClientPropLemmas ServerModel ServerSpec
  ServerFixtures ServerBlockSpec E2EModel E2ESpec E2ELemmas E2EDownloadLemmas E2EUploadLemmas.

(** C40, in part: a client library that downloads a resource from the server library
    ends with exactly the body the application serves, for every body that fits, every
    block size either side asks for, every earlier history of the server and every
    client state.
    Missing, as it is false (see below): that it holds whatever the message IDs are.
    The client draws them at random, and two neighbouring requests with the same one
    break the transfer.  Missing as well: requests and responses with options of more
    than 100 bytes or numbers above 140 besides the Block options. *)
Theorem C40_download_partial :
  forall A (P : app A) Ec Cc Es Cs c s v lr l s1 s2 body rx size1 size2 buf fuel,
  let req := msg_build lr in let n := c_nrand s in
  (* the world *)
  no_failures Ec Es -> reachable P Es Cs v -> idle v c -> sc_large Cs < 2 ^ 63 -> lenN buf < 2 ^ 63 ->
  (* the request *)
  Forall setter_ok lr -> m_type req = 0 -> m_class req = 0 -> m_detail req = 1 -> plain (m_ops req) ->
  lenN (m_payload req) <= 1024 -> direct Cs req ->
  (* the application *)
  (forall m, asks req m -> exists a, ap_handle P (v_app v) c m = (a, HBlock l s1 s2 body (lenN body) rx)) ->
  Forall setter_ok l -> plain (m_ops (msg_build l)) -> acceptable (cf_proxy Cc) (msg_build l) ->
  bytes_ok body ->
  (* sizes *)
  s1 = 0 \/ block_size s1 -> block_size s2 -> block_size size2 ->
  lenN body <= sc_large Cs -> lenN body <= lenN buf -> lenN body < 2 ^ 20 * N.min s2 size2 ->
  lenN body / 16 < N.of_nat fuel ->
  (* the message IDs *)
  fresh_id c (id_no Ec n 0) (v_trace v) -> (forall k, (k < fuel)%nat -> id_no Ec n k <> id_no Ec n (S k)) ->
  exists st' resp,
    exchange_blockwise (net_exch P Ec Cc Es Cs c) fuel (s, v) req None size1 size2 buf =
      (st', body ++ skipn (length body) buf, Ok (lenN body, resp)) /\
    m_class resp = 2 /\ m_detail resp = 5.
Proof.
  intros A P Ec Cc Es Cs c s v lr l s1 s2 body rx size1 size2 buf fuel req n
    HF Hr Hi HL Hb Hlr Ht Hc Hd Hp Hpl Hdir Hh Hl Hpp Hac Hbb H1 H2 H3 Hf1 Hf2 Hf3 Hfu Hfr Hids.
  destruct (download_all P Ec Cc Es Cs c HF s v req l s1 s2 body rx size2 buf fuel) as (s' & v' & resp & H & Hcl & Hdt); auto.
  { split; auto.
    - apply plain_light; assumption.
    - apply plain_none. exact Hp.
    - apply plain_none. exact Hp. }
  exists (s', v'), resp. unfold exchange_blockwise. rewrite Hd. change (1 =? M_GET) with true. cbv iota. auto.
Qed.
Print Assumptions C40_download_partial.

Lemma idle_b {A} (v : @srv A) c :
  forallb (fun t => negb (t_active t) || negb (t_client t =? c) || is_type (t_type t) TRegular) (v_tr v) = true -> idle v c.
Proof.
  rewrite forallb_forall. intros H t Ht Ha Hc. specialize (H t Ht). rewrite Ha, Hc, N.eqb_refl in H.
  destruct (t_type t); try discriminate. reflexivity.
Qed.
Lemma run_ok {S} (r : S * list N * res (N * msg)) buf k :
  snd (fst r) = buf -> match snd r with Ok (n, _) => n =? k | _ => false end = true -> exists st' resp, r = (st', buf, Ok (k, resp)).
Proof.
  destruct r as [[st b] x]. cbn. intros <- H. destruct x as [[n m]| | |]; try discriminate. apply N.eqb_eq in H as ->. eauto.
Qed.
Lemma run_err {S} (r : S * list N * res (N * msg)) e : snd r = Err e -> exists st' buf, r = (st', buf, Err e).
Proof. destruct r as [[st b] x]. cbn. intros ->. eauto. Qed.

(** For the examples: random bytes 0, 1, 2, ...; a server that serves a body of 40
    bytes in blocks of 32 to a client that asks for blocks of 16, and that accepts
    bodies in blocks of 32 and answers them with 2.04. *)
Definition nE : env := mkenv (fun _ => None) (fun _ => None) (fun n => N.of_nat n).
Definition nC : scfg := mkscfg UnsignedChar false [[47; 120]] 64.
Definition nbody : list N := map N.of_nat (seq 100 40).
Definition nP : app unit :=
  mkapp (fun a _ m => (a, if m_detail m =? 1 then HBlock [AddOp 12 [0]] 0 32 nbody 40 None else HBlock [AddOp 12 [0]] 32 32 [] 0 (Some 0)))
        (fun _ a buf e m => (a, RxDone [SetCode 2 4] buf 0)).
Definition nget : list setter := [SetType 0; SetCode 0 1; AddOp 11 [114; 101; 115]].
Definition nput : list setter := [SetType 0; SetCode 0 3; AddOp 11 [114; 101; 115]].
Definition nv (evs : list sev) : @srv unit := fst (server_run nP sE_ok nC (server_init 10 tt) evs).
(** What another client has done before. *)
Definition before : list sev := [EvRx 7 [64; 1; 1; 2] None].

Example C40_example :
  no_failures nE sE_ok /\ reachable nP sE_ok nC (nv before) /\ idle (nv before) 5 /\
  Forall setter_ok nget /\ plain (m_ops (msg_build nget)) /\ direct nC (msg_build nget) /\
  (forall m, asks (msg_build nget) m -> exists a, ap_handle nP tt 5 m = (a, HBlock [AddOp 12 [0]] 0 32 nbody (lenN nbody) None)) /\
  plain (m_ops (msg_build [AddOp 12 [0]])) /\ acceptable false (msg_build [AddOp 12 [0]]) /\
  fresh_id 5 (id_no nE 0 0) (v_trace (nv before)) /\ (forall k, (k < 3)%nat -> id_no nE 0 k <> id_no nE 0 (S k)) /\
  exists st' resp, exchange_blockwise (net_exch nP nE C_ok sE_ok nC 5) 3 (s_ok, nv before) (msg_build nget) None 0 16 (repeat 0 50) =
    (st', nbody ++ repeat 0 10, Ok (40, resp)).
Proof.
  split; [repeat split|]. split.
  { exists 10, tt, before. split; [lia|]. split; [apply sevs_ok; reflexivity|]. vm_compute. reflexivity. }
  split.
  { apply idle_b. vm_compute. reflexivity. }
  split; [repeat constructor; try apply bytes_okb_spec; vm_compute; reflexivity || discriminate|].
  split; [split; [repeat constructor; vm_compute; discriminate|vm_compute; discriminate]|]. split.
  { split.
    - intros o Ho _. vm_compute in Ho. destruct Ho as [<-|[]]. cbn. auto 20.
    - intros p [<-|[]]. vm_compute. discriminate. }
  split; [intros m (_ & Hd & _); exists tt; cbn; rewrite Hd; reflexivity|].
  split; [split; [repeat constructor; vm_compute; discriminate|vm_compute; discriminate]|]. split.
  { intros o Ho _. vm_compute in Ho. destruct Ho as [<-|[]]. cbn. auto 20. }
  split; [vm_compute; discriminate|]. split.
  { intros k Hk. destruct k as [|[|[|k]]]; [vm_compute; discriminate..|lia]. }
  apply run_ok; vm_compute; reflexivity.
Qed.

(** C40 without the hypothesis on the message IDs: with a generator that returns the
    same number each time, the server takes the second request for a repetition of the
    first and answers it with the first block again, which the client refuses. *)
Definition nE1 : env := mkenv (fun _ => None) (fun _ => None) (fun _ => 1).
Theorem C40_download_any_ids_refuted :
  exists A (P : app A) Ec Cc Es Cs c s v lr l s2 body size2 buf fuel,
  no_failures Ec Es /\ reachable P Es Cs v /\ idle v c /\ direct Cs (msg_build lr) /\ plain (m_ops (msg_build lr)) /\
  m_type (msg_build lr) = 0 /\ m_class (msg_build lr) = 0 /\ m_detail (msg_build lr) = 1 /\
  (forall a m, ap_handle P a c m = (a, HBlock l 0 s2 body (lenN body) None)) /\
  block_size s2 /\ block_size size2 /\ lenN body <= sc_large Cs /\ lenN body <= lenN buf /\ lenN body / 16 < N.of_nat fuel /\
  fresh_id c (id_no Ec (c_nrand s) 0) (v_trace v) /\
  exists st' buf', exchange_blockwise (net_exch P Ec Cc Es Cs c) fuel (s, v) (msg_build lr) None 0 size2 buf = (st', buf', Err EBADMSG).
Proof.
  exists unit, (mkapp (fun a _ _ => (a, HBlock [] 0 16 nbody 40 None)) (fun _ a buf e m => (a, RxFail EINVAL))), nE1, C_ok, sE_ok, nC, 5, s_ok,
    (server_init 10 tt), nget, [], 16, nbody, 16, (repeat 0 64), 10%nat.
  split; [repeat split|]. split; [exists 10, tt, []; split; [lia|split; [constructor|reflexivity]]|]. split.
  { apply idle_b. vm_compute. reflexivity. }
  split.
  { split.
    - intros o Ho _. vm_compute in Ho. destruct Ho as [<-|[]]. cbn. auto 20.
    - intros p [<-|[]]. vm_compute. discriminate. }
  split; [split; [repeat constructor; vm_compute; discriminate|vm_compute; discriminate]|].
  split; [reflexivity|]. split; [reflexivity|]. split; [reflexivity|]. split; [intros; reflexivity|].
  split; [left; reflexivity|]. split; [left; reflexivity|]. split; [vm_compute; discriminate|]. split; [vm_compute; discriminate|].
  split; [vm_compute; reflexivity|]. split; [vm_compute; discriminate|].
  apply run_err. vm_compute. reflexivity.
Qed.
Print Assumptions C40_download_any_ids_refuted.

(** What both theorems on uploads rest on. *)
Lemma upload_ends :
  forall A (P : app A) Ec Cc Es Cs c s v lr l0 l s1 s2 body rbody size1 size2 fuel,
  Forall setter_ok lr -> uploading P Ec Cc Es Cs c s v (msg_build lr) l0 l s1 s2 body rbody size1 size2 fuel ->
  exists s' v' resp h,
    exchange_blockwise (net_exch P Ec Cc Es Cs c) fuel (s, v) (msg_build lr) None size1 size2 body =
      ((s', v'), rbody ++ skipn (length rbody) body, Ok (lenN rbody, resp)) /\
    m_class resp = 2 /\ m_detail resp = m_detail (msg_build (l0 ++ l)) /\
    v_trace v' = v_trace v ++ h /\ calls h = [(c, body)].
Proof.
  intros A P Ec Cc Es Cs c s v lr l0 l s1 s2 body rbody size1 size2 fuel Hlr
    [HF Hr Hi (Ht & Hc & Hd) (Hp & Hpl & Hdir) (hb & bl & rx & Hbl & Hh) (Hl & Hp0 & Hla) (Hpp & Hac)
     (H1 & H2 & H3 & H4) (Hbb & Hne & Hf1 & Hf3) Hrb HL Hfu Hfr Hids].
  destruct (build_ops_spec (l0 ++ l)) as (_ & Hbp & _).
  assert (Hrb' : bytes_ok rbody /\ (rbody <> [] -> block_size s2) /\ lenN rbody <= lenN body /\ (rbody <> [] -> lenN rbody < 2 ^ 20 * N.min s2 size2)).
  { destruct Hrb as [-> | (R1 & R2 & R3 & R4)]; [|auto].
    split; [constructor|]. split; [intro H; destruct (H eq_refl)|]. split; [apply N.le_0_l|intro H; destruct (H eq_refl)]. }
  destruct Hrb' as (R1 & R2 & R3 & R4).
  assert (HG : good_req Cs (msg_build lr)).
  { split; try assumption.
    - apply plain_light; assumption.
    - apply plain_none. exact Hp.
    - apply plain_none. exact Hp.
    - right. exact Hd. }
  destruct (accepts_code l Hla) as (d & HD & Hlad).
  assert (Hdd : m_detail (msg_build (l0 ++ l)) = d) by (unfold msg_build; rewrite fold_left_app; apply Hlad).
  rewrite Hdd.
  eapply (upload_all P Ec Cc Es Cs c HF (msg_build lr) HG Hd d HD s v l0 l s1 s2 hb bl rx body rbody size1 size2 fuel); try assumption.
  - intros m Hm. destruct (Hh m Hm) as (a & Ha & Hta). exists a. split; [exact Ha|]. intros m' buf Hm' Hb Hlb Hok.
    rewrite to_nat_lenN in Hb. destruct (Hta m' buf Hm' Hb Hlb Hok) as (a' & b' & T1 & T2 & T3 & T4).
    exists a', b'. rewrite to_nat_lenN. auto.
  - destruct Hpp as [P1 P2]. split.
    + rewrite Forall_forall in P1 |- *. intros o Ho. apply P1. apply (Permutation_in _ (Permutation_sym Hbp)). exact Ho.
    + rewrite <- (room_perm _ _ Hbp). exact P2.
  - intros mm Hmm o Ho Hbit. rewrite Hmm in Ho. apply (Hac o); [|exact Hbit]. apply (Permutation_in _ (Permutation_sym Hbp)). exact Ho.
  - eapply N.le_trans; eassumption.
Qed.

(** C41, in part: a client library that uploads a body to the server library makes the
    server hand exactly this body to the application's callback, once, and ends with
    the code of success the application gave.  For every body that fits, every block
    size either side asks for, every earlier history of the server and every client
    state.
    Missing, as they are false (see below): that it holds whatever the message IDs are,
    and that it holds of the empty body.  Missing as well: requests and responses with
    options of more than 100 bytes or numbers above 140 besides the Block options. *)
Theorem C41_upload_partial :
  forall A (P : app A) Ec Cc Es Cs c s v lr l0 l s1 s2 body rbody size1 size2 fuel,
  Forall setter_ok lr -> uploading P Ec Cc Es Cs c s v (msg_build lr) l0 l s1 s2 body rbody size1 size2 fuel ->
  exists s' v' buf k resp h,
    exchange_blockwise (net_exch P Ec Cc Es Cs c) fuel (s, v) (msg_build lr) None size1 size2 body = ((s', v'), buf, Ok (k, resp)) /\
    m_class resp = 2 /\ m_detail resp = m_detail (msg_build (l0 ++ l)) /\
    v_trace v' = v_trace v ++ h /\ calls h = [(c, body)].
Proof.
  intros A P Ec Cc Es Cs c s v lr l0 l s1 s2 body rbody size1 size2 fuel H1 H2.
  destruct (upload_ends _ _ _ _ _ _ _ _ _ _ _ _ _ _ _ _ _ _ _ H1 H2) as (s' & v' & resp & h & H). eauto 10.
Qed.
Print Assumptions C41_upload_partial.

(** C89, in part: the body with which the application answers an upload is what the
    client ends with, at the beginning of the buffer that held the uploaded body, whose
    other bytes are unchanged.  For all that C41 is stated for and every response body
    that is not longer than the uploaded one.
    Missing, as it is false (see below): responses longer than the uploaded body. *)
Theorem C89_upload_response_partial :
  forall A (P : app A) Ec Cc Es Cs c s v lr l0 l s1 s2 body rbody size1 size2 fuel,
  Forall setter_ok lr -> uploading P Ec Cc Es Cs c s v (msg_build lr) l0 l s1 s2 body rbody size1 size2 fuel ->
  exists st' resp,
    exchange_blockwise (net_exch P Ec Cc Es Cs c) fuel (s, v) (msg_build lr) None size1 size2 body =
      (st', rbody ++ skipn (length rbody) body, Ok (lenN rbody, resp)).
Proof.
  intros A P Ec Cc Es Cs c s v lr l0 l s1 s2 body rbody size1 size2 fuel H1 H2.
  destruct (upload_ends _ _ _ _ _ _ _ _ _ _ _ _ _ _ _ _ _ _ _ H1 H2) as (s' & v' & resp & h & H & _). eauto.
Qed.
Print Assumptions C89_upload_response_partial.

(** For the examples: an application that answers with the first [k] bytes of the
    large buffer in reverse. *)
Definition nrev (k : nat) : app unit :=
  mkapp (fun a _ _ => (a, HBlock [AddOp 12 [0]] 32 32 [] 0 (Some 0)))
        (fun _ a buf e m => (a, RxDone [SetCode 2 4] (rev (firstn k buf) ++ skipn k buf) (N.of_nat k))).
Definition nrv (evs : list sev) : @srv unit := fst (server_run (nrev 20) sE_ok nC (server_init 10 tt) evs).
Lemma ok_code {S} (r : S * list N * res (N * msg)) cl d :
  match snd r with Ok (_, m) => (m_class m =? cl) && (m_detail m =? d) | _ => false end = true ->
  exists st' buf k resp, r = (st', buf, Ok (k, resp)) /\ m_class resp = cl /\ m_detail resp = d.
Proof.
  destruct r as [[st b] x]. cbn. intro H. destruct x as [[n m]| | |]; try discriminate. apply andb_prop in H as [H1 H2].
  apply N.eqb_eq in H1, H2. exists st, b, n, m. auto.
Qed.

Example C41_example :
  Forall setter_ok nput /\
  uploading (nrev 20) nE C_ok sE_ok nC 5 s_ok (nrv before) (msg_build nput) [AddOp 12 [0]] [SetCode 2 4] 32 32 nbody (rev (firstn 20 nbody)) 16 16 10 /\
  exists st' resp, exchange_blockwise (net_exch (nrev 20) nE C_ok sE_ok nC 5) 10 (s_ok, nrv before) (msg_build nput) None 16 16 nbody =
    (st', rev (firstn 20 nbody) ++ skipn 20 nbody, Ok (20, resp)).
Proof.
  split; [repeat constructor; try apply bytes_okb_spec; vm_compute; reflexivity || discriminate|]. split; [split|].
  - repeat split.
  - exists 10, tt, before. split; [lia|]. split; [apply sevs_ok; reflexivity|]. vm_compute. reflexivity.
  - apply idle_b. vm_compute. reflexivity.
  - split; [reflexivity|]. split; [reflexivity|]. right. reflexivity.
  - split; [split; [repeat constructor; vm_compute; discriminate|vm_compute; discriminate]|]. split; [vm_compute; discriminate|]. split.
    + intros o Ho _. vm_compute in Ho. destruct Ho as [<-|[]]. cbn. auto 20.
    + intros p [<-|[]]. vm_compute. discriminate.
  - exists [], 0, 0. split; [vm_compute; discriminate|]. intros m _. exists tt. split; [reflexivity|].
    intros m' buf _ Hb Hl _. eexists _, _. split; [cbn [ap_rx nrev]; reflexivity|].
    assert (H20 : firstn 20 buf = firstn 20 nbody).
    { rewrite <- Hb, firstn_firstn. reflexivity. }
    split; [|split].
    + rewrite H20. reflexivity.
    + unfold lenN in *. rewrite app_length, !rev_length, H20, skipn_length. cbn [length firstn nbody map seq]. lia.
    + rewrite <- Hl. unfold lenN in *. rewrite app_length, rev_length, firstn_length, skipn_length. f_equal. lia.
  - split; [repeat constructor; try apply bytes_okb_spec; vm_compute; reflexivity || discriminate|]. split; [reflexivity|].
    intros m. cbn. auto.
  - split; [split; [repeat constructor; vm_compute; discriminate|vm_compute; discriminate]|].
    intros o Ho _. vm_compute in Ho. destruct Ho as [<-|[]]. cbn. auto 20.
  - unfold block_size. cbn. auto 20.
  - split; [apply bytes_okb_spec; vm_compute; reflexivity|]. split; [discriminate|]. split; [vm_compute; discriminate|vm_compute; reflexivity].
  - right. split; [apply bytes_okb_spec; vm_compute; reflexivity|]. split; [unfold block_size; cbn; auto|].
    split; [vm_compute; discriminate|vm_compute; reflexivity].
  - vm_compute. reflexivity.
  - vm_compute. reflexivity.
  - vm_compute. discriminate.
  - intros k Hk. do 20 (destruct k as [|k]; [vm_compute; discriminate|]). lia.
  - apply run_ok; vm_compute; reflexivity.
Qed.

(** What the refutations below have in common with [uploading]: the application takes
    every body. *)
Definition willing {A} (P : app A) (C : scfg) (c : N) (l0 l : list setter) (s1 s2 rx : N) (answer : list N -> list N) : Prop :=
  (forall a m, ap_handle P a c m = (a, HBlock l0 s1 s2 [] 0 (Some rx))) /\ accepts l /\
  forall a buf e m, lenN buf = sc_large C -> let r := answer buf in
    exists a' buf', ap_rx P rx a buf e m = (a', RxDone l buf' (lenN r)) /\ firstn (length r) buf' = r /\ lenN buf' = sc_large C.

Lemma nrev_willing k : (k <= 64)%nat -> willing (nrev k) nC 5 [AddOp 12 [0]] [SetCode 2 4] 32 32 0 (fun buf => rev (firstn k buf)).
Proof.
  intro Hk. split; [reflexivity|]. split; [intro m; cbn; auto|]. intros a buf e m Hl r. eexists _, _.
  assert (Hr : length r = k) by (unfold r, lenN in *; rewrite rev_length, firstn_length; cbn in Hl; lia).
  split; [cbn [ap_rx nrev]; unfold lenN; rewrite Hr; reflexivity|]. rewrite Hr. split.
  - unfold r in *. rewrite firstn_app, Hr, Nat.sub_diag, firstn_O, app_nil_r. rewrite firstn_all2 by (rewrite Hr; apply le_n). reflexivity.
  - rewrite <- Hl. unfold lenN in *. rewrite app_length, rev_length, firstn_length, skipn_length. f_equal. lia.
Qed.

(** C41 without the hypothesis on the message IDs: the callback is never called. *)
Theorem C41_upload_any_ids_refuted :
  exists A (P : app A) Ec Cc Es Cs c s v lr l0 l s1 s2 rx answer size1 size2 body fuel,
  no_failures Ec Es /\ reachable P Es Cs v /\ idle v c /\ direct Cs (msg_build lr) /\ plain (m_ops (msg_build lr)) /\
  m_type (msg_build lr) = 0 /\ m_class (msg_build lr) = 0 /\ m_detail (msg_build lr) = 3 /\
  willing P Cs c l0 l s1 s2 rx answer /\ block_size s1 /\ block_size s2 /\ block_size size1 /\ block_size size2 /\
  body <> [] /\ lenN body <= sc_large Cs /\ lenN body / 16 < N.of_nat fuel /\
  fresh_id c (id_no Ec (c_nrand s) 0) (v_trace v) /\
  let r := exchange_blockwise (net_exch P Ec Cc Es Cs c) fuel (s, v) (msg_build lr) None size1 size2 body in
  snd r = Err EBADMSG /\ calls (v_trace (snd (fst (fst r)))) = [].
Proof.
  exists unit, (nrev 20), nE1, C_ok, sE_ok, nC, 5, s_ok, (server_init 10 tt), nput, [AddOp 12 [0]], [SetCode 2 4], 32, 32, 0,
    (fun buf => rev (firstn 20 buf)), 16, 16, nbody, 10%nat.
  split; [repeat split|]. split; [exists 10, tt, []; split; [lia|split; [constructor|reflexivity]]|]. split.
  { apply idle_b. vm_compute. reflexivity. }
  split.
  { split.
    - intros o Ho _. vm_compute in Ho. destruct Ho as [<-|[]]. cbn. auto 20.
    - intros p [<-|[]]. vm_compute. discriminate. }
  split; [split; [repeat constructor; vm_compute; discriminate|vm_compute; discriminate]|].
  split; [reflexivity|]. split; [reflexivity|]. split; [reflexivity|]. split; [apply nrev_willing; lia|].
  unfold block_size. do 4 (split; [cbn; auto|]). split; [discriminate|]. split; [vm_compute; discriminate|].
  split; [vm_compute; reflexivity|]. split; [vm_compute; discriminate|]. split; vm_compute; reflexivity.
Qed.
Print Assumptions C41_upload_any_ids_refuted.

(** C41 of the empty body: the server answers 4.00, and the callback is never called. *)
Theorem C41_empty_upload_refuted :
  exists A (P : app A) Ec Cc Es Cs c s v lr l0 l s1 s2 rx answer size1 size2 fuel,
  no_failures Ec Es /\ reachable P Es Cs v /\ idle v c /\ direct Cs (msg_build lr) /\ plain (m_ops (msg_build lr)) /\
  m_type (msg_build lr) = 0 /\ m_class (msg_build lr) = 0 /\ m_detail (msg_build lr) = 3 /\
  willing P Cs c l0 l s1 s2 rx answer /\ block_size s1 /\ block_size s2 /\ block_size size1 /\ block_size size2 /\
  fresh_id c (id_no Ec (c_nrand s) 0) (v_trace v) /\ (forall k, (k < 2 * fuel)%nat -> id_no Ec (c_nrand s) k <> id_no Ec (c_nrand s) (S k)) /\
  let r := exchange_blockwise (net_exch P Ec Cc Es Cs c) fuel (s, v) (msg_build lr) None size1 size2 [] in
  (exists st' buf k resp, r = (st', buf, Ok (k, resp)) /\ m_class resp = 4 /\ m_detail resp = 0) /\
  calls (v_trace (snd (fst (fst r)))) = [].
Proof.
  exists unit, (nrev 20), nE, C_ok, sE_ok, nC, 5, s_ok, (server_init 10 tt), nput, [AddOp 12 [0]], [SetCode 2 4], 32, 32, 0,
    (fun buf => rev (firstn 20 buf)), 16, 16, 10%nat.
  split; [repeat split|]. split; [exists 10, tt, []; split; [lia|split; [constructor|reflexivity]]|]. split.
  { apply idle_b. vm_compute. reflexivity. }
  split.
  { split.
    - intros o Ho _. vm_compute in Ho. destruct Ho as [<-|[]]. cbn. auto 20.
    - intros p [<-|[]]. vm_compute. discriminate. }
  split; [split; [repeat constructor; vm_compute; discriminate|vm_compute; discriminate]|].
  split; [reflexivity|]. split; [reflexivity|]. split; [reflexivity|]. split; [apply nrev_willing; lia|].
  unfold block_size. do 4 (split; [cbn; auto|]). split; [vm_compute; discriminate|]. split.
  { intros k Hk. do 20 (destruct k as [|k]; [vm_compute; discriminate|]). lia. }
  split; [apply ok_code; vm_compute; reflexivity|vm_compute; reflexivity].
Qed.
Print Assumptions C41_empty_upload_refuted.

(** C89 of a response longer than the uploaded body: the application has taken the
    body, and the client reports ENOSPC, as it has no other buffer for the response
    than the one that held the body. *)
Theorem C89_longer_response_refuted :
  exists A (P : app A) Ec Cc Es Cs c s v lr l0 l s1 s2 rx answer size1 size2 body fuel,
  no_failures Ec Es /\ reachable P Es Cs v /\ idle v c /\ direct Cs (msg_build lr) /\ plain (m_ops (msg_build lr)) /\
  m_type (msg_build lr) = 0 /\ m_class (msg_build lr) = 0 /\ m_detail (msg_build lr) = 3 /\
  willing P Cs c l0 l s1 s2 rx answer /\ block_size s1 /\ block_size s2 /\ block_size size1 /\ block_size size2 /\
  body <> [] /\ lenN body <= sc_large Cs /\ lenN body / 16 < N.of_nat fuel /\
  fresh_id c (id_no Ec (c_nrand s) 0) (v_trace v) /\ (forall k, (k < 2 * fuel)%nat -> id_no Ec (c_nrand s) k <> id_no Ec (c_nrand s) (S k)) /\
  let r := exchange_blockwise (net_exch P Ec Cc Es Cs c) fuel (s, v) (msg_build lr) None size1 size2 body in
  snd r = Err ENOSPC /\ calls (v_trace (snd (fst (fst r)))) = [(c, body)].
Proof.
  exists unit, (nrev 50), nE, C_ok, sE_ok, nC, 5, s_ok, (server_init 10 tt), nput, [AddOp 12 [0]], [SetCode 2 4], 32, 32, 0,
    (fun buf => rev (firstn 50 buf)), 16, 16, nbody, 10%nat.
  split; [repeat split|]. split; [exists 10, tt, []; split; [lia|split; [constructor|reflexivity]]|]. split.
  { apply idle_b. vm_compute. reflexivity. }
  split.
  { split.
    - intros o Ho _. vm_compute in Ho. destruct Ho as [<-|[]]. cbn. auto 20.
    - intros p [<-|[]]. vm_compute. discriminate. }
  split; [split; [repeat constructor; vm_compute; discriminate|vm_compute; discriminate]|].
  split; [reflexivity|]. split; [reflexivity|]. split; [reflexivity|]. split; [apply nrev_willing; lia|].
  unfold block_size. do 4 (split; [cbn; auto|]). split; [discriminate|]. split; [vm_compute; discriminate|].
  split; [vm_compute; reflexivity|]. split; [vm_compute; discriminate|]. split.
  { intros k Hk. do 20 (destruct k as [|k]; [vm_compute; discriminate|]). lia. }
  split; vm_compute; reflexivity.
Qed.
Print Assumptions C89_longer_response_refuted.
