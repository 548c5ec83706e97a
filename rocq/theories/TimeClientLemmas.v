(** Lemmas on the time client. *)
From Verif Require Import Base BaseLemmas MsgModel MsgSpec MsgFormatLemmas TableSpec TableLemmas ClientModel ClientLemmas ServerModel ServerSpec ServerPropLemmas
  ServerBlockSpec ServerBlockLemmas TimeModel TimeSpec TimeClientModel TimeClientSpec.

Lemma get_time_ok {St} (exch : St -> msg -> St * res msg) st buf len st' buf' r : len <= lenN buf ->
  time_client_get_time exch st buf len = (st', buf', r) ->
  exists req x, is_time_request req /\ exch st req = (st', x) /\
    match x with
    | Ok resp =>
      if has_time len resp then
        m_payload resp = [] /\ r = UB NullDeref \/
        m_payload resp <> [] /\ r = Ok (lenN (m_payload resp)) /\
        buf' = m_payload resp ++ repeat 0 (N.to_nat (len - lenN (m_payload resp))) ++ skipn (N.to_nat len) buf
      else buf' = buf /\ exists e, r = Err e
    | Err e => buf' = buf /\ r = Err e
    | UB u => r = UB u
    | OutOfFuel => r = OutOfFuel
    end.
Proof.
  intros Hl H. unfold time_client_get_time in H.
  assert (Hq : is_time_request time_client_request) by (unfold is_time_request; vm_compute; repeat split; reflexivity).
  set (req := time_client_request) in *.
  destruct (exch st req) as [st1 x] eqn:Ex. exists req, x. split; [exact Hq|].
  assert (Hv : m_ver req = 1) by apply Hq. cbv zeta in H. rewrite Hv in H. clearbody req.
  destruct x as [resp|e|u|]; [|injection H as <- <- <-; auto..].
  unfold has_time. rewrite (N.eqb_sym (m_ver resp)). change CL_SUCCESS with 2 in H. change CONTENT with 5 in H.
  destruct (1 =? m_ver resp); cbn [negb andb] in *; [|injection H as <- <- <-; eauto].
  destruct (m_class resp =? 2); cbn [negb andb orb] in *; [|injection H as <- <- <-; eauto].
  destruct (m_detail resp =? 5); cbn [negb andb] in *; [|injection H as <- <- <-; eauto].
  pose proof (uri_path_spec (m_ops resp) TIME_CLIENT_URI_PATH_BUF_LEN ltac:(discriminate)) as K. cbv zeta in K.
  fold (req_path resp) in K. rewrite K in H. clear K. unfold TIME_CLIENT_URI_PATH_BUF_LEN in H.
  destruct (N.ltb_spec 32 (lenN (req_path resp) + 1)) as [Hn|Hn].
  { destruct (N.ltb_spec (lenN (req_path resp)) 32); [lia|]. injection H as <- <- <-. cbn [andb]. eauto. }
  destruct (N.ltb_spec (lenN (req_path resp)) 32); [|lia]. cbn [andb].
  unfold cstr_eqb in H. change (cstr time_path) with time_uri in H.
  rewrite cstr_zeros, !until_nul_cstr in H. rewrite firstn_all2 in H by (unfold lenN in Hn; lia).
  assert (Hk : forall a b, bytes_eqb a b = key_eqb a b).
  { intros a b. destruct (bytes_eqb a b) eqn:E1, (key_eqb a b) eqn:E2; auto.
    - apply bytes_eqb_eq in E1. rewrite E1, key_eqb_refl in E2. discriminate.
    - apply key_eqb_iff in E2. subst b. rewrite bytes_eqb_refl in E1. discriminate. }
  rewrite Hk in H. destruct (key_eqb (until_nul (req_path resp)) time_uri); cbn [negb andb] in *; [|injection H as <- <- <-; eauto].
  destruct (N.ltb_spec len (lenN (m_payload resp) + 1)) as [Hs|Hs].
  { destruct (N.ltb_spec (lenN (m_payload resp)) len); [lia|]. injection H as <- <- <-. eauto. }
  destruct (N.ltb_spec (lenN (m_payload resp)) len); [|lia].
  destruct (N.eqb_spec (lenN (m_payload resp)) 0) as [Hz|Hz].
  { injection H as <- <- <-. split; [exact Ex|]. left. split; [|reflexivity]. destruct (m_payload resp); [reflexivity|]. unfold lenN in Hz. cbn [length] in Hz. lia. }
  destruct (N.ltb_spec (lenN buf) len); [lia|]. injection H as <- <- <-. split; [exact Ex|]. right. split; [|auto].
  intro E. rewrite E in Hz. apply Hz. reflexivity.
Qed.
