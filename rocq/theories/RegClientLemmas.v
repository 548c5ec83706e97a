(** Lemmas on the registration client. *)
From Verif Require Import Base BaseLemmas MsgModel MsgSpec MsgFormatLemmas TableSpec TableLemmas ClientModel ClientLemmas ServerModel ServerSpec ServerPropLemmas
  ServerBlockSpec ServerBlockLemmas SampleModel RegModel RegSpec RegLemmas RegClientModel RegClientSpec.

Lemma request_ok s : is_registration s (reg_client_request s).
Proof. unfold is_registration. vm_compute. destruct s; repeat split; reflexivity. Qed.

Lemma until_nul_more l n r : (0 < n)%nat -> until_nul (l ++ repeat 0 n ++ r) = until_nul l.
Proof.
  intro Hn. induction l as [|x l IH]; cbn [List.app until_nul]; [destruct n; [lia|reflexivity]|]. rewrite IH. reflexivity.
Qed.

Lemma register_ok {St} (exch : St -> msg -> St * res msg) st buf len st' buf' r : In 0 buf -> len <= lenN buf ->
  reg_client_register exch st buf len = (st', buf', r) ->
  exists req x, is_registration (until_nul buf) req /\ exch st req = (st', x) /\
    match x with
    | Ok resp =>
      if says_registered len resp then
        buf' = m_payload resp ++ repeat 0 (N.to_nat (len - lenN (m_payload resp))) ++ skipn (N.to_nat len) buf /\
        r = if key_eqb (until_nul (m_payload resp)) [79; 75] then Ok (lenN (m_payload resp)) else Err EBADMSG
      else buf' = buf /\ exists e, r = Err e
    | Err e => buf' = buf /\ r = Err e
    | UB u => r = UB u
    | OutOfFuel => r = OutOfFuel
    end.
Proof.
  intros H0 Hl H. unfold reg_client_register in H.
  assert (He : existsb (N.eqb 0) buf = true) by (apply existsb_exists; exists 0; auto). rewrite He in H. cbn [negb] in H. rewrite until_nul_cstr in H.
  pose proof (request_ok (until_nul buf)) as Hq. set (req := reg_client_request (until_nul buf)) in *.
  destruct (exch st req) as [st1 x] eqn:Ex. exists req, x. split; [exact Hq|].
  assert (Hv : m_ver req = 1) by apply Hq. rewrite Hv in H. clearbody req.
  destruct x as [resp|e|u|]; [|injection H as <- <- <-; auto..].
  unfold says_registered. rewrite (N.eqb_sym (m_ver resp)). change CL_SUCCESS with 2 in H. change CREATED with 1 in H. change CHANGED with 4 in H.
  destruct (1 =? m_ver resp); cbn [negb andb] in *; [|injection H as <- <- <-; eauto].
  destruct (m_class resp =? 2); cbn [negb andb orb] in *; [|injection H as <- <- <-; eauto].
  rewrite <- negb_orb in H. destruct ((m_detail resp =? 1) || (m_detail resp =? 4)); cbn [negb andb] in *; [|injection H as <- <- <-; eauto].
  pose proof (uri_path_spec (m_ops resp) REG_CLIENT_URI_PATH_BUF_LEN ltac:(discriminate)) as K. cbv zeta in K.
  fold (req_path resp) in K. rewrite K in H. clear K. unfold REG_CLIENT_URI_PATH_BUF_LEN in H.
  destruct (N.ltb_spec 32 (lenN (req_path resp) + 1)) as [Hn|Hn].
  { destruct (N.ltb_spec (lenN (req_path resp)) 32); [lia|]. injection H as <- <- <-. cbn [andb]. eauto. }
  destruct (N.ltb_spec (lenN (req_path resp)) 32); [|lia]. cbn [andb].
  unfold cstr_eqb in H. change (cstr id_path) with id_uri in H. change (cstr ok_text) with [79; 75] in H.
  rewrite cstr_zeros, !until_nul_cstr in H. rewrite firstn_all2 in H by (unfold lenN in Hn; lia).
  assert (Hk : forall a b, bytes_eqb a b = key_eqb a b).
  { intros a b. destruct (bytes_eqb a b) eqn:E1, (key_eqb a b) eqn:E2; auto.
    - apply bytes_eqb_eq in E1. rewrite E1, key_eqb_refl in E2. discriminate.
    - apply key_eqb_iff in E2. subst b. rewrite bytes_eqb_refl in E1. discriminate. }
  rewrite !Hk in H. destruct (key_eqb (until_nul (req_path resp)) id_uri); cbn [negb andb] in *; [|injection H as <- <- <-; eauto].
  destruct (N.eqb_spec (lenN (m_payload resp)) 0) as [Hz|Hz].
  { rewrite Hz. injection H as <- <- <-. change (1 <=? 0) with false. cbn [andb]. eauto. }
  destruct (N.leb_spec 1 (lenN (m_payload resp))); [|lia]. cbn [andb].
  destruct (N.ltb_spec len (lenN (m_payload resp) + 1)) as [Hs|Hs].
  { destruct (N.ltb_spec (lenN (m_payload resp)) len); [lia|]. injection H as <- <- <-. eauto. }
  destruct (N.ltb_spec (lenN (m_payload resp)) len); [|lia]. destruct (N.ltb_spec (lenN buf) len); [lia|].
  rewrite until_nul_more in H by lia.
  destruct (key_eqb (until_nul (m_payload resp)) [79; 75]); cbn [negb] in H; injection H as <- <- <-; auto.
Qed.
