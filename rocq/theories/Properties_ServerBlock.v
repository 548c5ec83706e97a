(** Property theorems for the server's blockwise transfers (C37-C39).  The statements
    use the predicates of ServerSpec.v and ServerBlockSpec.v on the history of what the
    server did. *)
From Verif Require Import Base BaseLemmas MsgModel MsgSpec ClientModel ClientSpec ServerModel ServerSpec ServerLemmas ServerHistLemmas
  ServerBlockSpec ServerBlockLemmas ServerUploadLemmas ServerTransferLemmas ServerDownloadLemmas ServerBlockStepLemmas ServerSafeLemmas
  ServerFixtures.

(** For the examples: buffers of 64 bytes; a handler that serves a body of 40 bytes in
    blocks of 16 and accepts bodies in blocks of 16, answering a PUT with 2.04 and a
    POST with the body it was sent.  [get_b i v] is a GET with message ID [i] and the
    byte [v] in its Block2 option, [put_b i v p] a PUT with [v] in its Block1 option
    and payload [p]. *)
Definition body40 : list N := map N.of_nat (seq 100 40).
Definition bC : scfg := mkscfg UnsignedChar false [] 64.
Definition bP : app unit :=
  mkapp (fun a _ m => (a, if m_detail m =? 1 then HBlock [] 16 16 body40 40 None else HBlock [] 16 16 [] 0 (Some 0)))
        (fun _ a buf e m => (a, RxDone [SetCode 2 4] buf (if m_detail m =? 3 then 0 else N.min e (lenN buf)))).
Definition get_b (i v : N) : list N := [65; 1; i / 256; i mod 256; 7; 209; 10; v].
Definition get_bm (i v : N) : msg := mkmsg 1 T_CON 0 1 i [7] [mkop 23 [v]] [].
Definition put_b (i v : N) (p : list N) : list N := [65; 3; i / 256; i mod 256; 7; 209; 14; v; 255] ++ p.
Definition put_bm (i v : N) (p : list N) : msg := mkmsg 1 T_CON 0 3 i [7] [mkop 27 [v]] p.
Definition bafter (evs : list sev) : @srv unit := fst (server_run bP sE_ok bC (server_init 10 tt) evs).
Definition p16 (k : N) : list N := repeat k 16.

Lemma bafter_step evs e v' r s : forallb sev_okb (evs ++ [e]) = true ->
  snd (server_run bP sE_ok bC (server_init 10 tt) evs) = None ->
  server_step bP sE_ok bC (bafter evs) e = (v', r) -> v_trace v' = v_trace (bafter evs) ++ s ->
  step bP sE_ok bC (bafter evs) e v' r s.
Proof.
  intros H1 H2 H3 H4. rewrite forallb_app in H1. apply andb_true_iff in H1 as [H1 H1']. cbn in H1'.
  split; [|split; [|auto]].
  - exists 10, tt, evs. split; [lia|]. split; [apply sevs_ok; exact H1|].
    unfold bafter. rewrite <- H2. apply surjective_pairing.
  - destruct e; cbn in *; auto. apply bytes_okb_spec. destruct (bytes_okb b); [reflexivity|discriminate].
Qed.
Lemma no_boundary c s :
  forallb (fun o => match o with SHandle _ _ | SCall _ _ | SBody _ _ | SCreate _ | SDestroy _ => false | _ => true end) s = true ->
  forall o, In o s -> ~ boundary c o.
Proof. rewrite forallb_forall. intros H o Ho Hb. specialize (H o Ho). destruct o; try discriminate; exact Hb. Qed.
Lemma bP_proper : proper bP.
Proof.
  split.
  - intros a c m a' l s1 s2 body bl rx H. cbn in H. destruct (m_detail m =? 1); injection H as _ <- _ _ <- _ _; (split; [constructor|]).
    + apply bytes_okb_spec. reflexivity.
    + constructor.
  - intros rx a buf e m a' l b' e' H. unfold bP in H. cbn in H. injection H as _ <- <- _. split; [repeat constructor|auto].
Qed.
Ltac bsteps := eapply bafter_step; [reflexivity|vm_compute; reflexivity|vm_compute; reflexivity|vm_compute; reflexivity].

(** C37: the body passed to the receive callback is made of the payloads of the
    requests since the transfer began: consecutive blocks from position 0, all with
    the same method and path, the last one without the more flag.  Buffers are smaller
    than 2^63 bytes. *)
Theorem C37_upload_assembles :
  forall A (P : app A) E C id a evs v r tr1 c body tr2,
  sc_large C < 2 ^ 63 ->
  id <= 65535 -> Forall sev_ok evs -> server_run P E C (server_init id a) evs = (v, r) ->
  v_trace v = tr1 ++ SCall c body :: tr2 ->
  exists ms size, since_handled C c tr1 ms /\ offered P c ms size /\ consecutive_blocks size 0 ms false /\
    body = concat (map m_payload ms) /\ same_target ms /\ lenN body <= sc_large C.
Proof. exact @upload_delivered. Qed.
Print Assumptions C37_upload_assembles.

(** Two blocks of 16 bytes and one of 3. *)
Definition upload : list sev :=
  [EvRx 1 (put_b 258 8 (p16 1)) None; EvRx 1 (put_b 259 24 (p16 2)) None; EvRx 1 (put_b 260 32 [3; 4; 5]) None].
Example C37_assembles_example :
  Forall sev_ok upload /\ exists tr2,
  v_trace (bafter upload) = v_trace (bafter (firstn 2 upload)) ++ SRecv 1 (put_b 260 32 [3; 4; 5]) :: SUse 1 1013 ::
    SCall 1 (p16 1 ++ p16 2 ++ [3; 4; 5]) :: tr2.
Proof. split; [apply sevs_ok; reflexivity|]. eexists. vm_compute. reflexivity. Qed.

(** C37: a new request while a body is received.  The requests so far are consecutive
    blocks; unless the acknowledgement of a separate response fails or a block option
    is too short to be read (C10), either this is the next block and the last, and the
    callback is called once with the whole body; or it is the next block, the callback
    is not called, the answer is 2.31 and the transfer goes on; or it is not the next
    block (out of sequence, without payload, for another resource, or too long for the
    buffer), the answer is 4.00, 4.08 or 4.13 and the transfer is over. *)
Theorem C37_upload_step :
  forall A (P : app A) E C v c d m v' r s t,
  sc_large C < 2 ^ 63 ->
  step P E C v (EvRx c d None) v' r s -> reads C d m -> In (SRecv c d) s ->
  m_type m = T_CON \/ m_type m = T_NON -> m_class m = 0 -> fresh_id c (m_id m) (v_trace v) -> acceptable (sc_proxy C) m ->
  In t (v_tr v) -> t_active t = true -> t_client t = c -> uploading (t_type t) ->
  exists ms size, since_handled C c (v_trace v) ms /\ offered P c ms size /\ consecutive_blocks size 0 ms true /\ same_target ms /\
   (In (SSend c (ack_dgram (m_id m)) false) s \/ block_ub m \/
    readable m /\ fits C size ms m false /\ calls s = [(c, concat (map m_payload (ms ++ [m])))] \/
    readable m /\ fits C size ms m true /\ calls s = [] /\ replies c s 95 /\ keeps v' c s (t_type t) \/
    ~ (readable m /\ exists more, fits C size ms m more) /\ calls s = [] /\
      (replies c s 128 \/ replies c s 136 \/ replies c s 141) /\ keeps v' c s TRegular).
Proof. exact @upload_step. Qed.
Print Assumptions C37_upload_step.

(** The second block in sequence; the second block skipped. *)
Example C37_step_example :
  let v := bafter (firstn 1 upload) in
  let t := tr v 0 in
  (exists v' s, step bP sE_ok bC v (EvRx 1 (put_b 259 24 (p16 2)) None) v' None s /\ In (SRecv 1 (put_b 259 24 (p16 2))) s) /\
  (exists v' s, step bP sE_ok bC v (EvRx 1 (put_b 259 32 (p16 2)) None) v' None s /\ In (SRecv 1 (put_b 259 32 (p16 2))) s) /\
  reads bC (put_b 259 24 (p16 2)) (put_bm 259 24 (p16 2)) /\ reads bC (put_b 259 32 (p16 2)) (put_bm 259 32 (p16 2)) /\
  fresh_id 1 259 (v_trace v) /\ (forall x, acceptable false (put_bm 259 x (p16 2))) /\
  In t (v_tr v) /\ t_active t = true /\ t_client t = 1 /\ uploading (t_type t).
Proof.
  cbv zeta. split; [do 2 eexists; split; [bsteps|left; reflexivity]|].
  split; [do 2 eexists; split; [bsteps|left; reflexivity]|].
  split; [readsok|]. split; [readsok|]. split; [newid|]. split.
  - intros x o [<-|[]]. vm_compute. auto 20.
  - split; [apply nth_In; vm_compute; lia|]. split; [vm_compute; reflexivity|]. split; [vm_compute; reflexivity|]. left. vm_compute. reflexivity.
Qed.

(** C37: the first request of an upload, when no transfer is under way and the handler
    accepts a body in blocks of [size].  What is sent is the acknowledgement of a
    separate response, or: the block is the whole body, and the callback was called
    with it; or it is the first block, the answer is 2.31 and the transfer begins; or
    it is not the first block, the answer is 4.00, 4.08 or 4.13 and no transfer
    begins. *)
Theorem C37_upload_begins :
  forall A (P : app A) E C v c d m v' r s a1 l size size2 body bl rx,
  sc_large C < 2 ^ 63 ->
  step P E C v (EvRx c d None) v' r s -> reads C d m -> In (SRecv c d) s ->
  m_type m = T_CON \/ m_type m = T_NON -> m_class m = 0 -> fresh_id c (m_id m) (v_trace v) -> acceptable (sc_proxy C) m ->
  (forall t, In t (v_tr v) -> t_active t = true -> t_client t = c -> t_type t = TRegular) ->
  ap_handle P (v_app v) c m = (a1, HBlock l size size2 body bl rx) -> m_detail m = 3 \/ m_detail m = 2 ->
  forall b, In (c, b) (sends s) ->
  b = ack_dgram (m_id m) \/
  readable m /\ fits C size [] m false /\ calls s = [(c, m_payload m)] \/
  readable m /\ fits C size [] m true /\ calls s = [] /\ nth 1 b 0 = 95 /\
    keeps v' c s (if m_detail m =? 3 then TPut1 else TPost1) \/
  ~ (readable m /\ exists more, fits C size [] m more) /\ calls s = [] /\
    (nth 1 b 0 = 128 \/ nth 1 b 0 = 136 \/ nth 1 b 0 = 141) /\ keeps v' c s TRegular.
Proof. exact @upload_begins. Qed.
Print Assumptions C37_upload_begins.

Example C37_begins_example :
  exists v' s, step bP sE_ok bC (bafter []) (EvRx 1 (put_b 258 8 (p16 1)) None) v' None s /\
  reads bC (put_b 258 8 (p16 1)) (put_bm 258 8 (p16 1)) /\ In (SRecv 1 (put_b 258 8 (p16 1))) s /\
  fresh_id 1 258 (v_trace (bafter [])) /\ acceptable false (put_bm 258 8 (p16 1)) /\
  (forall t, In t (v_tr (bafter [])) -> t_active t = true -> t_client t = 1 -> t_type t = TRegular) /\
  ap_handle bP tt 1 (put_bm 258 8 (p16 1)) = (tt, HBlock [] 16 16 [] 0 (Some 0)) /\
  sends s = [(1, [97; 95; 1; 2; 7; 211; 14; 0; 0; 8])].
Proof.
  do 2 eexists. split; [bsteps|]. split; [readsok|]. split; [right; right; left; reflexivity|]. split; [newid|].
  split; [intros o [<-|[]]; vm_compute; auto 20|]. split.
  - intros t Ht Ha. exfalso. vm_compute in Ht. repeat destruct Ht as [<-|Ht]; try discriminate; destruct Ht.
  - split; [reflexivity|]. vm_compute. reflexivity.
Qed.

(** C38: from the point where the application hands over a body until the next
    transfer begins or ends, the responses sent in answer to new requests are its
    consecutive blocks from the start, of whatever sizes the client asks for; the one
    without the more flag is the last and has all the rest. *)
Theorem C38_download_serves :
  forall A (P : app A) E C id a evs v r tr1 c body mid tr2,
  sc_large C < 2 ^ 63 -> keeps_buffer P -> proper P ->
  id <= 65535 -> Forall sev_ok evs -> server_run P E C (server_init id a) evs = (v, r) ->
  v_trace v = tr1 ++ SBody c body :: mid ++ tr2 -> (forall o, In o mid -> ~ boundary c o) ->
  exists j, last_id c tr1 = Some j /\ served body 0 (answers c j mid).
Proof. exact @download_served. Qed.
Print Assumptions C38_download_serves.

(** The body of 40 bytes: a block of 32 asked for (the server's size is 16), then the
    others.  The responses carry the bytes 100 to 115, 116 to 131 and 132 to 139. *)
Definition download : list sev := [EvRx 1 (get_b 258 1) None; EvRx 1 (get_b 259 16) None; EvRx 1 (get_b 260 32) None].
Example C38_serves_example :
  Forall sev_ok download /\ keeps_buffer bP /\ proper bP /\ exists tr1 mid,
  v_trace (bafter download) = tr1 ++ SBody 1 body40 :: mid ++ [] /\ (forall o, In o mid -> ~ boundary 1 o) /\ last_id 1 tr1 = Some 258 /\
  map (fun b => skipn 11 b) (answers 1 258 mid) = [map N.of_nat (seq 100 16); map N.of_nat (seq 116 16); map N.of_nat (seq 132 8)].
Proof.
  split; [apply sevs_ok; reflexivity|]. split.
  - intros rx a buf e m a' l b' e' H. unfold bP in H. cbn in H. injection H as _ _ <- <-. split; [reflexivity|].
    destruct (m_detail m =? 3); lia.
  - split; [exact bP_proper|]. exists (firstn 5 (v_trace (bafter download))), (skipn 6 (v_trace (bafter download))).
    split; [vm_compute; reflexivity|]. split.
    + apply no_boundary. vm_compute. reflexivity.
    + split; vm_compute; reflexivity.
Qed.

(** C38: a new request while a body is served.  Unless the acknowledgement of a
    separate response fails or a block option is too short to be read, either the
    request asks for the block that is due, with the method and path of the request
    the body was handed over for, and that block is sent, no larger than asked for;
    or the answer is 4.00 and the transfer is over. *)
Theorem C38_download_step :
  forall A (P : app A) E C v c d m v' r s t,
  sc_large C < 2 ^ 63 -> keeps_buffer P -> proper P ->
  step P E C v (EvRx c d None) v' r s -> reads C d m -> In (SRecv c d) s ->
  m_type m = T_CON \/ m_type m = T_NON -> m_class m = 0 -> fresh_id c (m_id m) (v_trace v) -> acceptable (sc_proxy C) m ->
  In t (v_tr v) -> t_active t = true -> t_client t = c -> serving (t_type t) ->
  exists h0 body mid j m0 pos cur, v_trace v = h0 ++ SBody c body :: mid /\ (forall o, In o mid -> ~ boundary c o) /\
   last_id c h0 = Some j /\ last_request C c h0 m0 /\ partway body (answers c j mid) pos (Some cur) /\
   (In (SSend c (ack_dgram (m_id m)) false) s \/ block_ub m \/
    let due := fun num o => readable m /\ wants m num o /\ num * smaller cur o = pos /\
                            m_detail m = m_detail m0 /\ seen_path m = seen_path m0 in
    (exists num o, due num o /\ sends_block c s body pos (smaller cur o) /\
       keeps v' c s (if pos + smaller cur o <=? lenN body then t_type t else TRegular)) \/
    (~ exists num o, due num o) /\ replies c s 128 /\ keeps v' c s TRegular).
Proof. exact @download_step. Qed.
Print Assumptions C38_download_step.

(** The second block; the second block skipped. *)
Example C38_step_example :
  let v := bafter (firstn 1 download) in
  let t := tr v 0 in
  (exists v' s, step bP sE_ok bC v (EvRx 1 (get_b 259 16) None) v' None s /\ In (SRecv 1 (get_b 259 16)) s) /\
  (exists v' s, step bP sE_ok bC v (EvRx 1 (get_b 259 32) None) v' None s /\ In (SRecv 1 (get_b 259 32)) s) /\
  reads bC (get_b 259 16) (get_bm 259 16) /\ reads bC (get_b 259 32) (get_bm 259 32) /\
  fresh_id 1 259 (v_trace v) /\ (forall x, acceptable false (get_bm 259 x)) /\
  In t (v_tr v) /\ t_active t = true /\ t_client t = 1 /\ serving (t_type t).
Proof.
  cbv zeta. split; [do 2 eexists; split; [bsteps|left; reflexivity]|].
  split; [do 2 eexists; split; [bsteps|left; reflexivity]|].
  split; [readsok|]. split; [readsok|]. split; [newid|]. split.
  - intros x o [<-|[]]. vm_compute. auto 20.
  - split; [apply nth_In; vm_compute; lia|]. split; [vm_compute; reflexivity|]. split; [vm_compute; reflexivity|]. left. vm_compute. reflexivity.
Qed.

(** C38: the first request of a download, when no transfer is under way and the handler
    serves a body of [bl] bytes in blocks of [size].  What is sent is the
    acknowledgement of a separate response; or 4.00, if it is not the first block that
    is asked for; or the first block, of the smaller of the two sizes. *)
Theorem C38_download_begins :
  forall A (P : app A) E C v c d m v' r s a1 l size1 size body bl rx,
  sc_large C < 2 ^ 63 -> proper P ->
  step P E C v (EvRx c d None) v' r s -> reads C d m -> In (SRecv c d) s ->
  m_type m = T_CON \/ m_type m = T_NON -> m_class m = 0 -> fresh_id c (m_id m) (v_trace v) -> acceptable (sc_proxy C) m ->
  (forall t, In t (v_tr v) -> t_active t = true -> t_client t = c -> t_type t = TRegular) ->
  ap_handle P (v_app v) c m = (a1, HBlock l size1 size body bl rx) -> m_detail m = 1 -> bl <= lenN body ->
  forall b, In (c, b) (sends s) ->
  b = ack_dgram (m_id m) \/
  (~ exists o, readable m /\ wants m 0 o) /\ nth 1 b 0 = 128 \/
  exists p o more, readable m /\ wants m 0 o /\ block2 b p 0 (smaller size o) more /\ (more = true <-> smaller size o <= bl) /\
    m_payload p = firstn (N.to_nat (smaller size o)) (firstn (N.to_nat bl) body) /\
    keeps v' c s (if smaller size o <=? bl then TGet else TRegular).
Proof. exact @download_begins. Qed.
Print Assumptions C38_download_begins.

Example C38_begins_example :
  exists v' s b, step bP sE_ok bC (bafter []) (EvRx 1 (get_b 258 1) None) v' None s /\
  reads bC (get_b 258 1) (get_bm 258 1) /\ In (SRecv 1 (get_b 258 1)) s /\
  fresh_id 1 258 (v_trace (bafter [])) /\ acceptable false (get_bm 258 1) /\
  (forall t, In t (v_tr (bafter [])) -> t_active t = true -> t_client t = 1 -> t_type t = TRegular) /\
  ap_handle bP tt 1 (get_bm 258 1) = (tt, HBlock [] 16 16 body40 40 None) /\
  sends s = [(1, b)] /\ skipn 11 b = map N.of_nat (seq 100 16).
Proof.
  do 3 eexists. split; [bsteps|]. split; [readsok|]. split; [right; right; left; reflexivity|]. split; [newid|].
  split; [intros o [<-|[]]; vm_compute; auto 20|]. split.
  - intros t Ht Ha. exfalso. vm_compute in Ht. repeat destruct Ht as [<-|Ht]; try discriminate; destruct Ht.
  - split; [reflexivity|]. split; [reflexivity|]. vm_compute. reflexivity.
Qed.

(** C39: with an application that keeps its part of the contract, the server never
    leaves the body buffer, nor any other memory it may use, whatever it receives;
    but for the receive buffer, when a datagram fills it (C04), and the value of a
    block option of no length (C10). *)
Theorem C39_body_buffer :
  forall A (P : app A) E C, sc_large C < 2 ^ 63 -> well_behaved P -> forall v e v' r s x,
  step P E C v e v' r s -> r = Some x -> stops x ->
  exists c d, e = EvRx c d None /\ (unparsed C (firstn 1152 d) \/ exists m, reads C (firstn 1152 d) m /\ block_ub m).
Proof. exact @step_safe. Qed.
Print Assumptions C39_body_buffer.

Lemma bP_well_behaved : well_behaved bP.
Proof.
  split; [|split].
  - intros a c m a' l H. cbn in H. destruct (m_detail m =? 1); discriminate.
  - intros a c m a' l s1 s2 body bl rx H. cbn in H. destruct (m_detail m =? 1); injection H as _ <- _ _ <- <- _; (split; [constructor|]).
    + vm_compute. discriminate.
    + apply N.le_0_l.
  - intros rx a buf e m a' l b' e' H. unfold bP in H. cbn in H. injection H as _ <- <- <-.
    split; [repeat constructor|]. split; [reflexivity|]. destruct (m_detail m =? 3); lia.
Qed.

(** Such an application.  A request in the middle of a transfer with a Block2 option of
    no length makes the server read outside the option, which is the exception. *)
Example C39_example : well_behaved bP /\ sc_large bC < 2 ^ 63.
Proof. split; [exact bP_well_behaved|vm_compute; reflexivity]. Qed.

Example C39_exception :
  exists A (P : app A) E C v c d v' s u,
  well_behaved P /\ sc_large C < 2 ^ 63 /\ step P E C v (EvRx c d None) v' (Some (UB u)) s /\ lenN d < 1152.
Proof.
  exists unit, bP, sE_ok, bC, (bafter (firstn 1 download)), 1, [65; 1; 1; 3; 7; 208; 10]. do 3 eexists.
  split; [exact bP_well_behaved|]. split; [vm_compute; reflexivity|]. split; [bsteps|vm_compute; reflexivity].
Qed.
