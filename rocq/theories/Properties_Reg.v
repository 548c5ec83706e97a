(** Property theorems for the sample registration server (C94 and C95).  The statements
    use [handled], [registers] and [directory] of RegSpec.v and [find_id] and [has_id] of
    TableSpec.v. *)
From Verif Require Import Base BaseLemmas MsgModel MsgSpec MsgFormatLemmas TableModel TableSpec TableLemmas ClientModel ServerModel ServerSpec ServerPropLemmas
  ServerFixtures SampleModel RegModel RegSpec RegLemmas.

(** C94: at every time the registrar of the registration server is the directory that
    the requests handled so far make, and nothing else; and no freed memory has been
    touched.  In every execution, whatever the clients send, the operating system does,
    and malloc gives.  The hypothesis: inet_ntop gives strings that fit the array. *)
Theorem C94_directory :
  forall alen addr mem E C id evs v r,
  (forall c a, addr c = Some a -> lenN a < alen) ->
  server_run (reg_server alen addr mem) E C (server_init id reg_start) evs = (v, r) ->
  exists g, rs_reg (v_app v) = Ok g /\
    forall i, registrar_lookup g i = Ok (find_id i (directory addr mem 0 [] (handled (v_trace v)))).
Proof.
  intros alen addr mem E C id evs v r Ha H. destruct (reg_state alen addr mem Ha E C id evs v r H) as (g & alone & H1 & H2 & _).
  exists g. split; [exact H1|]. intro i. exact (lookup_ok alone g _ i H2).
Qed.
Print Assumptions C94_directory.

(** C95: the answer to a request that registers an identifier is 2.04 with the payload
    "OK" if the identifier is in the directory, 2.01 with the payload "OK" if it is new
    and there is memory for it, and otherwise an error of the handler; a request that
    registers nothing is not answered with success.  In every reachable state. *)
Theorem C95_answers :
  forall alen addr mem E C id evs v r c m,
  (forall c a, addr c = Some a -> lenN a < alen) ->
  server_run (reg_server alen addr mem) E C (server_init id reg_start) evs = (v, r) ->
  let n := length (handled (v_trace v)) in
  let t := directory addr mem 0 [] (handled (v_trace v)) in
  let h := snd (ap_handle (reg_server alen addr mem) (v_app v) c m) in
  match registers addr (c, m) with
  | Some (i, _) =>
    if has_id i t || mem n
    then exists l, h = HResp l /\ m_class (msg_build l) = 2 /\ m_detail (msg_build l) = (if has_id i t then 4 else 1) /\
                   m_payload (msg_build l) = [79; 75]
    else h = HErr ENOMEM
  | None => (exists e, h = HErr e) \/ exists l, h = HResp l /\ (m_class (msg_build l) = 4 \/ m_class (msg_build l) = 5)
  end.
Proof.
  intros alen addr mem E C id evs v r c m Ha H n t h. destruct (reg_state alen addr mem Ha E C id evs v r H) as (g & alone & H1 & H2 & H3).
  destruct (reg_step alen addr mem Ha alone g t (v_app v) c m H1 H2) as (_ & _ & H4). rewrite H3 in H4. exact H4.
Qed.
Print Assumptions C95_answers.

(** For the examples: the client [c] has the address "c", but client 9 has none; there
    is no memory for the fourth request.  POSTs of "abc" by client 7, of "de" by client
    8, of "abc" by client 8, of "f" by client 7, and a GET. *)
Definition gaddr (c : N) : option (list N) := if c =? 9 then None else Some [48 + c].
Definition gmem (n : nat) : bool := negb (n =? 3)%nat.
Definition gC : scfg := mkscfg UnsignedChar false [] 8192.
Definition gpost (i : N) (pl : list N) : list N := [64; 2; 0; i; 182] ++ client_text ++ [2] ++ id_text ++ [255] ++ pl.
Definition gevs : list sev :=
  [EvRx 7 (gpost 1 [97; 98; 99]) None; EvRx 8 (gpost 2 [100; 101]) None; EvRx 8 (gpost 3 [97; 98; 99]) None;
   EvRx 7 (gpost 4 [102]) None; EvRx 7 [64; 1; 0; 5] None].
Definition gv (evs : list sev) : @srv rserver := fst (server_run (reg_server 46 gaddr gmem) sE_ok gC (server_init 10 reg_start) evs).
Lemma gaddr_fits c a : gaddr c = Some a -> lenN a < 46.
Proof. unfold gaddr. destruct (c =? 9); [discriminate|]. intro H. injection H as <-. vm_compute. reflexivity. Qed.

Example C94_example :
  (forall c a, gaddr c = Some a -> lenN a < 46) /\
  directory gaddr gmem 0 [] (handled (v_trace (gv gevs))) = [([97; 98; 99], [56]); ([100; 101], [56])] /\
  exists g, rs_reg (v_app (gv gevs)) = Ok g /\ registrar_lookup g [97; 98; 99] = Ok (Some [56]) /\ registrar_lookup g [102] = Ok None.
Proof. split; [exact gaddr_fits|]. split; [vm_compute; reflexivity|]. eexists. vm_compute. auto. Qed.

Definition gmsg (pl : list N) : msg := mkmsg 1 0 0 2 77 [] [mkop 11 client_text; mkop 11 id_text] pl.
Example C95_example :
  length (handled (v_trace (gv gevs))) = 5%nat /\
  registers gaddr (7, gmsg [100; 101]) = Some ([100; 101], [55]) /\ registers gaddr (7, gmsg (repeat 97 31)) = Some (repeat 97 31, [55]) /\
  registers gaddr (9, gmsg [100; 101]) = None /\ registers gaddr (7, gmsg (repeat 97 32)) = None /\
  (exists l, snd (ap_handle (reg_server 46 gaddr gmem) (v_app (gv gevs)) 7 (gmsg [100; 101])) = HResp (SetCode 2 4 :: l)) /\
  (exists l, snd (ap_handle (reg_server 46 gaddr gmem) (v_app (gv gevs)) 7 (gmsg [102])) = HResp (SetCode 2 1 :: l)) /\
  snd (ap_handle (reg_server 46 gaddr gmem) (v_app (gv (firstn 3 gevs))) 7 (gmsg [102])) = HErr ENOMEM.
Proof. vm_compute. repeat split; eauto. Qed.
