(** The functions of the server, described by what they do to one transaction and
    what is observed. *)
From Verif Require Import BaseLemmas MsgModel MsgSpec MsgLemmas MsgFormatLemmas MsgBlockLemmas
  ClientModel ClientSpec ClientLemmas ClientReplyLemmas ServerModel ServerSpec.

(** ** Messages *)

(** What every message has that came out of the parser, whatever char is. *)
Record pwf (m : msg) : Prop := {
  pw_ver : m_ver m = 1;
  pw_type : m_type m < 4;
  pw_class : m_class m = 0 \/ m_class m = 2 \/ m_class m = 4 \/ m_class m = 5;
  pw_detail : m_detail m <= 31;
  pw_id : m_id m <= 65535;
  pw_tkl : lenN (m_token m) <= 8;
  pw_tok : bytes_ok (m_token m)
}.

Lemma parse_pwf sg d past m : bytes_ok d -> msg_parse sg (d ++ past) (lenN d) = Ok m -> pwf m.
Proof.
  intros Hd Hp. pose proof (parse_head _ _ _ _ Hd Hp) as (_ & Hi & H2 & H3).
  unfold msg_parse in Hp. rewrite msg_parse_raw_red in Hp.
  destruct (pmsg sg d) as [[m0 e]|e|u|] eqn:Ep; try discriminate.
  destruct (_ && _); [discriminate|]. cbn [bind] in Hp. apply bind_ok in Hp as ([] & _ & Hp). injection Hp as ->.
  unfold pmsg in Ep. destruct d as [|b0 [|b1 [|b2 [|b3 rest]]]]; try discriminate.
  destruct (negb _) in Ep; [discriminate|].
  destruct (N.ltb_spec MAX_TOKEN_LEN (N.land b0 15)) as [Ht|Ht] in Ep; [discriminate|]. unfold MAX_TOKEN_LEN in Ht.
  set (cl := N.land (N.shiftr b1 5) 7) in Ep.
  destruct (negb (cl =? CL_REQ) && negb (cl =? CL_SUCCESS) && negb (cl =? CL_CLIENT_ERR) && negb (cl =? CL_SERVER_ERR)) eqn:Ec;
    [discriminate|].
  assert (Hcl : cl = 0 \/ cl = 2 \/ cl = 4 \/ cl = 5).
  { unfold CL_REQ, CL_SUCCESS, CL_CLIENT_ERR, CL_SERVER_ERR in Ec. rewrite !andb_false_iff, !negb_false_iff, !N.eqb_eq in Ec. tauto. }
  destruct (_ <? _) in Ep; [discriminate|]. destruct (pops _ _ _ _) as [[ops pl]|] in Ep; [|discriminate].
  cbn [nth] in Hi, H2, H3.
  assert (Hm : exists p, m = mkmsg COAP_VER (N.land (N.shiftr b0 4) 3) cl (N.land b1 31)
                       (N.lor (N.shiftl b2 8) b3) (firstn (N.to_nat (N.land b0 15)) rest) ops p).
  { destruct pl as [|x [|y pl]]; try discriminate; [injection Ep as <- _; eauto|].
    destruct (_ =? _) in Ep; [|discriminate]. injection Ep as <- _. eauto. }
  destruct Hm as [p ->]. split; cbn [m_ver m_type m_class m_detail m_id m_token] in *; auto.
  - rewrite land_3. lia.
  - pose proof (N.land_ones b1 5) as H'. change (N.ones 5) with 31 in H'. change (2 ^ 5) with 32 in H'. lia.
  - lia.
  - rewrite lenN_firstn. lia.
  - do 4 (apply bytes_ok_cons in Hd as [_ Hd]). rewrite <- (firstn_skipn (N.to_nat (N.land b0 15)) rest) in Hd.
    apply bytes_ok_app in Hd. tauto.
Qed.

(** Responses: what [coap_msg_copy] needs. *)
Record rwf (m : msg) : Prop := {
  rw_ver : m_ver m = 1;
  rw_type : m_type m < 4;
  rw_class : m_class m <= 7;
  rw_detail : m_detail m <= 31;
  rw_id : m_id m <= 65535;
  rw_tkl : lenN (m_token m) <= 8;
  rw_sorted : ops_sorted (m_ops m)
}.

Lemma rwf_create : rwf msg_create.
Proof. split; cbn; try (unfold lenN; cbn; lia); auto. Qed.

Ltac rwfs := split; cbn [m_ver m_type m_class m_detail m_id m_token m_ops m_payload clear_payload set_payload]; auto; try lia.

Lemma rwf_setter m s : rwf m -> rwf (run_setter m s).
Proof.
  intros W. pose proof W as W0. destruct W as [W1 W2 W3 W4 W5 W6 W7].
  destruct s as [t|c d|i|t|n v|pl|]; unfold run_setter; cbv zeta iota.
  - unfold set_type, T_CON, T_NON, T_ACK, T_RST.
    destruct (N.eqb_spec t 0), (N.eqb_spec t 1), (N.eqb_spec t 2), (N.eqb_spec t 3); cbn [negb andb];
      try exact W0; rwfs.
  - unfold set_code, MAX_CODE_CLASS, MAX_CODE_DETAIL. destruct (N.ltb_spec 7 c); [exact W0|].
    destruct (N.ltb_spec 31 d); [exact W0|]. rwfs.
  - unfold set_msg_id, MAX_MSG_ID. destruct (N.ltb_spec 65535 i); [exact W0|]. rwfs.
  - unfold set_token, MAX_TOKEN_LEN. destruct (N.ltb_spec 8 (lenN t)); [exact W0|]. rwfs.
  - cbn [add_op]. rwfs. apply op_list_add_spec. exact W7.
  - rwfs.
  - rwfs.
Qed.
Lemma rwf_setters l m : rwf m -> rwf (fold_left run_setter l m).
Proof. revert m. induction l as [|s l IH]; intros m H; cbn; [exact H|]. apply IH, rwf_setter, H. Qed.
Lemma rwf_build l : rwf (msg_build l).
Proof. apply rwf_setters, rwf_create. Qed.

Lemma rwf_add_op m n v m' : rwf m -> add_op m n v = Ok m' -> rwf m'.
Proof. intros W H. injection H as <-. apply (rwf_setter m (AddOp n v) W). Qed.
Lemma rwf_set_payload m p m' : rwf m -> set_payload m p = Ok m' -> rwf m'.
Proof. intros W H. injection H as <-. apply (rwf_setter m (SetPayload p) W). Qed.
Lemma rwf_set_code m c d m' : rwf m -> set_code m c d = Ok m' -> rwf m'.
Proof. intros W H. pose proof (rwf_setter m (SetCode c d) W) as H'. unfold run_setter in H'. rewrite H in H'. exact H'. Qed.

Lemma copy_rwf m : rwf m -> msg_copy msg_create m = Ok m.
Proof. intros [? ? ? ? ? ? ?]. apply copy_wf; assumption. Qed.

Lemma copy_pwf m : pwf m -> exists q, msg_copy msg_create m = Ok q /\ m_id q = m_id m /\ m_ver q = 1.
Proof.
  intros [H1 H2 H3 H4 H5 H6]. unfold msg_copy, set_type, T_CON, T_NON, T_ACK, T_RST.
  replace (negb (m_type m =? 0) && negb (m_type m =? 1) && negb (m_type m =? 2) && negb (m_type m =? 3)) with false.
  2: { symmetry. destruct (N.eqb_spec (m_type m) 0), (N.eqb_spec (m_type m) 1),
       (N.eqb_spec (m_type m) 2), (N.eqb_spec (m_type m) 3); try reflexivity. lia. }
  cbn [bind m_ver m_type m_class m_detail m_id m_token m_ops m_payload msg_create].
  unfold set_code, MAX_CODE_CLASS, MAX_CODE_DETAIL. destruct (N.ltb_spec 7 (m_class m)); [lia|].
  destruct (N.ltb_spec 31 (m_detail m)); [lia|].
  cbn [bind m_ver m_type m_class m_detail m_id m_token m_ops m_payload].
  unfold set_msg_id, MAX_MSG_ID. destruct (N.ltb_spec 65535 (m_id m)); [lia|].
  cbn [bind m_ver m_type m_class m_detail m_id m_token m_ops m_payload].
  unfold set_token, MAX_TOKEN_LEN. destruct (N.ltb_spec 8 (lenN (m_token m))); [lia|].
  cbn [bind m_ver m_type m_class m_detail m_id m_token m_ops m_payload set_payload].
  eexists. split; [reflexivity|]. split; [reflexivity|exact H1].
Qed.

(** The response with message ID, token and type. *)
Definition complete (resp : msg) (id : N) (tok : list N) (ty : N) : msg :=
  mkmsg (m_ver resp) ty (m_class resp) (m_detail resp) id tok (m_ops resp) (m_payload resp).

Lemma complete_eq resp id tok ty :
  id <= 65535 -> lenN tok <= 8 -> ty < 4 ->
  (let* r := set_msg_id resp id in let* r := set_token r tok in set_type r ty) = Ok (complete resp id tok ty).
Proof.
  intros Hi Ht Hy. unfold set_msg_id, MAX_MSG_ID. destruct (N.ltb_spec 65535 id); [lia|].
  cbn [bind]. unfold set_token, MAX_TOKEN_LEN. destruct (N.ltb_spec 8 (lenN tok)); [lia|]. cbn [bind].
  unfold set_type, T_CON, T_NON, T_ACK, T_RST.
  destruct (N.eqb_spec ty 0), (N.eqb_spec ty 1), (N.eqb_spec ty 2), (N.eqb_spec ty 3); try lia; reflexivity.
Qed.

Lemma rwf_complete resp id tok ty :
  rwf resp -> id <= 65535 -> lenN tok <= 8 -> ty < 4 -> rwf (complete resp id tok ty).
Proof. intros [? ? ? ? ? ? ?] ? ? ?. split; cbn; auto. Qed.

(** ** Transactions *)

(** The fields that blockwise transfers do not touch. *)
Definition core (t : trans) :=
  (t_active t, t_last_use t, t_armed t, t_sec t, t_nsec t, t_retrans t, t_client t, t_req t, t_resp t).

Lemma core_block t ty b e s1 s2 n1 n2 u d rx : core (t_with_block t ty b e s1 s2 n1 n2 u d rx) = core t.
Proof. reflexivity. Qed.
Lemma core_clear t : core (clear_blockwise t) = core t.
Proof. reflexivity. Qed.

(** A result of block handling: the rest of the transaction is as before, the
    response is well formed. *)
Definition blk_fine (t : trans) (x : trans * msg * res unit) : Prop :=
  core (fst (fst x)) = core t /\ rwf (snd (fst x)).

Lemma end_code_fine t0 t resp c d : core t = core t0 -> rwf resp -> blk_fine t0 (end_code t resp c d).
Proof.
  intros Ht W. unfold end_code. destruct (set_code resp c d) eqn:Ec; split; cbn [fst snd]; auto.
  eapply rwf_set_code; eassumption.
Qed.
Lemma end_fail_fine {B} t0 t resp (r : res B) : core t = core t0 -> rwf resp -> blk_fine t0 (end_fail t resp r).
Proof. intros Ht W. unfold end_fail. split; cbn [fst snd]; [rewrite core_clear; exact Ht|exact W]. Qed.

Lemma path_buf_ok m len : len <> 0 -> exists s, path_buf m len = Ok s.
Proof. intros _. unfold path_buf. destruct (uri_path_safe (m_ops m) len) as (buf & n & -> & _). cbn. eauto. Qed.

Lemma nb_start_fine t req resp :
  rwf resp ->
  match nb_start t req resp with
  | inl x => blk_fine t x
  | inr (t', b1, b2, uri) => core t' = core t /\ t_type t' = t_type t /\ t_body t' = t_body t
  end.
Proof.
  intro W. unfold nb_start.
  destruct (parse_block_op (m_ops req) OP_BLOCK1) as [o1|e|u|].
  2-4: solve [apply end_code_fine; auto|apply end_fail_fine; auto].
  cbv zeta. destruct (parse_block_op (m_ops req) OP_BLOCK2) as [o2|e|u|].
  2-4: solve [apply end_code_fine; auto|apply end_fail_fine; auto].
  destruct (path_buf _ _); solve [apply end_fail_fine; auto|auto].
Qed.

Lemma nb_block2_fine t b2 uri req resp : rwf resp -> blk_fine t (nb_block2 t b2 uri req resp).
Proof.
  intro W. unfold nb_block2. cbv zeta. destruct (_ || _); [apply end_code_fine; auto|].
  destruct (calc_block_szx _); try (apply end_fail_fine; auto).
  destruct (format_block_val _ _ _ _); try (apply end_fail_fine; auto).
  destruct (add_op _ _ _) as [r1|e|u|] eqn:Ea; try (apply end_fail_fine; auto).
  apply rwf_add_op in Ea; [|exact W].
  destruct (bind _ _) as [r2|e|u|] eqn:Eb; try (apply end_fail_fine; auto).
  apply bind_ok in Eb as (body & _ & Eb). apply bind_ok in Eb as (p & _ & Eb). apply bind_ok in Eb as (pl & _ & Eb).
  apply rwf_set_payload in Eb; [|exact Ea]. apply end_code_fine; [|exact Eb].
  destruct (_ <? _); reflexivity.
Qed.

Lemma next_block2_fine t req resp : rwf resp -> blk_fine t (next_block2 t req resp).
Proof.
  intro W. unfold next_block2. pose proof (nb_start_fine t req resp W) as H.
  destruct (nb_start t req resp) as [x|[[[t' b1] b2] uri]]; [exact H|].
  destruct H as (Hc & _). destruct (nb_block2_fine t' b2 uri req resp W) as [H1 H2].
  split; [congruence|exact H2].
Qed.

(** Observations of block handling. *)
Definition blk_obs (c : N) (o : sobs) : Prop := (exists b, o = SCall c b) \/ (exists b, o = SBody c b).

Lemma one_call c b : Forall (blk_obs c) [SCall c b].
Proof. constructor; [left; eauto|constructor]. Qed.
Lemma one_body c b : Forall (blk_obs c) [SBody c b].
Proof. constructor; [right; eauto|constructor]. Qed.

Section App.
Context {A : Type} (P : app A) (E : senv) (C : scfg).

Definition nb_fine (t : trans) (x : @nbres A) : Prop :=
  Forall (blk_obs (t_client t)) (snd (fst x)) /\ blk_fine t (snd x).

Lemma core_client t t' : core t' = core t -> t_client t' = t_client t.
Proof. intro H. injection H. auto. Qed.

Lemma nb_block1_fine a t b1 uri req resp : rwf resp -> nb_fine t (nb_block1 P a t b1 uri req resp).
Proof.
  intro W. unfold nb_block1. cbv zeta.
  assert (Hq : forall x, blk_fine t x -> nb_fine t (a, [], x)).
  { intros x Hx. split; [constructor|exact Hx]. }
  destruct (_ || _); [apply Hq, end_code_fine; auto|].
  destruct (negb _); [apply Hq, end_code_fine; auto|].
  destruct (_ =? 0); [apply Hq, end_code_fine; auto|].
  destruct (calc_block_szx _); try (apply Hq, end_fail_fine; auto).
  destruct (t_body t) as [body|]; [|apply Hq, end_fail_fine; auto].
  destruct (_ <? _); [apply Hq, end_code_fine; auto|].
  destruct (format_block_val _ _ _ _); try (apply Hq, end_fail_fine; auto).
  destruct (add_op _ _ _) as [r1|e|u|] eqn:Ea; try (apply Hq, end_fail_fine; auto).
  apply rwf_add_op in Ea; [|exact W].
  destruct (put _ _ _) as [body'|e|u|]; try (apply Hq, end_fail_fine; auto).
  destruct (b_more b1); [apply Hq, end_code_fine; auto|].
  cbn [t_with_block t_rx t_end t_client t_size1 t_size2 t_next1 t_next2 t_uri t_type t_detail t_body].
  destruct (t_rx t) as [rx|]; [|apply Hq, end_fail_fine; auto].
  destruct (ap_rx P rx a body' _ req) as [a' [e|l body2 e]].
  - split; cbn [fst snd]; [apply one_call|]. split; [reflexivity|exact Ea].
  - assert (W2 : rwf (fold_left run_setter l r1)) by (apply rwf_setters; exact Ea).
    destruct (negb _); [split; cbn [fst snd]; [apply one_call|split; [reflexivity|exact W2]]|].
    destruct (0 <? e).
    + split; cbn [fst snd]; [constructor; [left; eauto|constructor; [right; eauto|constructor]]|].
      match goal with |- blk_fine t (next_block2 ?t' _ _) => destruct (next_block2_fine t' req _ W2) as [H1 H2] end.
      split; [rewrite H1; reflexivity|exact H2].
    + split; cbn [fst snd]; [apply one_call|]. apply end_code_fine; auto.
Qed.

Lemma next_block_fine a t req resp : rwf resp -> nb_fine t (next_block P a t req resp).
Proof.
  intro W. unfold next_block.
  assert (Hq : forall x, blk_fine t x -> nb_fine t (a, [], x)).
  { intros x Hx. split; [constructor|exact Hx]. }
  pose proof (nb_start_fine t req resp W) as H.
  destruct (t_type t); try (apply Hq, next_block2_fine; exact W);
    destruct (nb_start t req resp) as [x|[[[t' b1] b2] uri]]; try (apply Hq; exact H);
    destruct H as (Hc & _); try (apply Hq; split; [exact Hc|exact W]);
    destruct (nb_block1_fine a t' b1 uri req resp W) as [H1 [H2 H3]];
    rewrite (core_client _ _ Hc) in H1; (split; [exact H1|split; [congruence|exact H3]]).
Qed.

Lemma handle_blockwise_fine large a t req resp s1 s2 body bl rx :
  rwf resp -> nb_fine t (handle_blockwise P C large a t req resp s1 s2 body bl rx).
Proof.
  intro W. unfold handle_blockwise. cbv zeta.
  assert (Hq : forall x, blk_fine t x -> nb_fine t (a, [], x)).
  { intros x Hx. split; [constructor|exact Hx]. }
  assert (Hn : forall a t', core t' = core t -> nb_fine t (next_block P a t' req resp)).
  { intros a' t' Hc. destruct (next_block_fine a' t' req resp W) as [H1 [H2 H3]].
    rewrite (core_client _ _ Hc) in H1. split; [exact H1|split; [congruence|exact H3]]. }
  repeat (destruct (_ && _); [apply Hq; split; [reflexivity|exact W]|]).
  destruct (_ <? _); [apply Hq; split; [reflexivity|exact W]|].
  destruct (negb large); [apply Hq; split; [reflexivity|exact W]|].
  destruct (m_detail req =? M_GET).
  - destruct (bind _ _) as [buf|e|u|]; try (apply Hq, end_fail_fine; auto).
    destruct (path_buf _ _) as [uri|e|u|];
      try (split; [apply one_body|apply end_fail_fine; auto]).
    match goal with |- context [next_block P a ?t' req resp] =>
      destruct (Hn a t' eq_refl) as [H1 H2]; destruct (next_block P a t' req resp) as [[a' l] x] end.
    split; cbn [fst snd] in *; [|exact H2]. constructor; [right; eauto|exact H1].
  - destruct (_ || _); [|apply Hq, end_code_fine; auto].
    destruct rx; [|apply Hq; split; [reflexivity|exact W]].
    destruct (path_buf _ _) as [uri|e|u|]; try (apply Hq, end_fail_fine; auto).
    apply Hn. reflexivity.
Qed.

(** ** Updates of one slot *)

Lemma set_nth_length {B} (l : list B) i x : length (set_nth l i x) = length l.
Proof. revert i. induction l as [|y l IH]; intros [|i]; cbn; auto. Qed.
Lemma set_nth_same {B} (l : list B) i d : set_nth l i (nth i l d) = l.
Proof. revert i. induction l as [|y l IH]; intros [|i]; cbn; auto. rewrite IH. reflexivity. Qed.
Lemma set_nth_twice {B} (l : list B) i x y : set_nth (set_nth l i x) i y = set_nth l i y.
Proof. revert i. induction l as [|z l IH]; intros [|i]; cbn; auto. rewrite IH. reflexivity. Qed.
Lemma nth_set_nth {B} (l : list B) i x d : (i < length l)%nat -> nth i (set_nth l i x) d = x.
Proof. revert i. induction l as [|z l IH]; intros [|i] H; cbn in *; try lia; auto; apply IH; lia. Qed.
Lemma nth_set_nth_ne {B} (l : list B) i j x d : i <> j -> nth j (set_nth l i x) d = nth j l d.
Proof. revert i j. induction l as [|z l IH]; intros [|i] [|j] H; cbn in *; try lia; auto; apply IH; lia. Qed.

(** Times noted are readings of the clock. *)
Definition stamped (n n' : nat) (o : sobs) : Prop :=
  match o with SUse _ t => exists k, (n <= k < n')%nat /\ t = se_time E k | _ => True end.

Lemma stamped_mono n n' k k' o : (k <= n)%nat -> (n' <= k')%nat -> stamped n n' o -> stamped k k' o.
Proof. destruct o; cbn; auto. intros H1 H2 (j & Hj & ->). exists j. split; [lia|reflexivity]. Qed.
Lemma stamped_mono_all n n' k k' l : (k <= n)%nat -> (n' <= k')%nat -> Forall (stamped n n') l -> Forall (stamped k k') l.
Proof. intros H1 H2 H. eapply Forall_impl; [|exact H]. intros o Ho. eapply stamped_mono; eassumption. Qed.

(** [v'] is [v] with slot [i] set to [t'] and [s] observed. *)
Definition up (v : @srv A) (i : nat) (t' : trans) (s : list sobs) (id' : N) (a' : A) (v' : @srv A) : Prop :=
  exists n', (v_n v <= n')%nat /\ v' = mksrv (v_trace v ++ s) n' id' (set_nth (v_tr v) i t') a' /\
             Forall (stamped (v_n v) n') s.

Lemma up_trans v i t1 s1 id1 a1 v1 t2 s2 id2 a2 v2 :
  up v i t1 s1 id1 a1 v1 -> up v1 i t2 s2 id2 a2 v2 -> up v i t2 (s1 ++ s2) id2 a2 v2.
Proof.
  intros (n1 & L1 & -> & F1) (n2 & L2 & -> & F2). cbn [v_n v_trace v_tr] in *. exists n2.
  split; [lia|]. split; [rewrite app_assoc, set_nth_twice; reflexivity|].
  apply Forall_app. split; [apply (stamped_mono_all (v_n v) n1); auto|apply (stamped_mono_all n1 n2); auto].
Qed.

Lemma up_refl v i : up v i (tr v i) [] (v_id v) (v_app v) v.
Proof.
  exists (v_n v). split; [lia|]. split; [|constructor]. unfold tr. rewrite set_nth_same, app_nil_r. destruct v; reflexivity.
Qed.

Lemma up_tr v i t s id a v' : (i < length (v_tr v))%nat -> up v i t s id a v' -> tr v' i = t.
Proof. intros Hi (n & _ & -> & _). unfold tr. cbn [v_tr]. apply nth_set_nth. exact Hi. Qed.
Lemma up_len v i t s id a v' : up v i t s id a v' -> length (v_tr v') = length (v_tr v).
Proof. intros (n & _ & -> & _). cbn [v_tr]. apply set_nth_length. Qed.
Lemma up_id v i t s id a v' : up v i t s id a v' -> v_id v' = id.
Proof. intros (n & _ & -> & _). reflexivity. Qed.
Lemma up_app v i t s id a v' : up v i t s id a v' -> v_app v' = a.
Proof. intros (n & _ & -> & _). reflexivity. Qed.
Lemma up_trace v i t s id a v' : up v i t s id a v' -> v_trace v' = v_trace v ++ s.
Proof. intros (n & _ & -> & _). reflexivity. Qed.

(** Primitive updates. *)
Lemma up_set v i t : up v i t [] (v_id v) (v_app v) (set_tr v i t).
Proof. exists (v_n v). split; [lia|]. split; [|constructor]. unfold set_tr. rewrite app_nil_r. reflexivity. Qed.
Lemma up_log v i o : stamped 0 0 o -> up v i (tr v i) [o] (v_id v) (v_app v) (slog v o).
Proof.
  intro H. exists (v_n v). split; [lia|]. split.
  - unfold tr. rewrite set_nth_same. reflexivity.
  - constructor; [|constructor]. destruct o; cbn in *; auto. destruct H as (k & Hk & _). lia.
Qed.
Lemma up_tick v i : up v i (tr v i) [] (v_id v) (v_app v) (tick v).
Proof. exists (S (v_n v)). split; [lia|]. split; [|constructor]. unfold tr, tick. rewrite set_nth_same, app_nil_r. reflexivity. Qed.

Lemma up_destroy v i : up v i trans_zero [SDestroy (t_client (tr v i))] (v_id v) (v_app v) (trans_destroy v i).
Proof.
  exists (v_n v). split; [lia|]. split; [reflexivity|]. constructor; [exact I|constructor].
Qed.

Lemma up_touch v i :
  let now := se_time E (v_n v) in
  up v i (t_with_last_use (tr v i) now) [SUse (t_client (tr v i)) now] (v_id v) (v_app v) (touch E v i).
Proof.
  exists (S (v_n v)). split; [lia|]. split; [reflexivity|]. constructor; [|constructor].
  exists (v_n v). split; [lia|reflexivity].
Qed.

Lemma up_start_timer v i v' r :
  (i < length (v_tr v))%nat ->
  trans_start_timer E v i = (v', r) ->
  let t := tr v i in
  (r = Ok tt /\ up v i (t_with_armed t true) [SArm (t_client t) (t_sec t) (t_nsec t) true] (v_id v) (v_app v) v') \/
  (exists e, r = Err e /\ up v i t [SArm (t_client t) (t_sec t) (t_nsec t) false] (v_id v) (v_app v) v').
Proof.
  intros Hi. unfold trans_start_timer. cbv zeta. destruct (se_set E (v_n v)) as [e|]; intros [= <- <-].
  - right. exists e. split; [reflexivity|]. exists (S (v_n v)). split; [lia|]. split.
    + unfold tr. rewrite set_nth_same. reflexivity.
    + constructor; [exact I|constructor].
  - left. split; [reflexivity|]. exists (S (v_n v)). split; [lia|]. split; [reflexivity|].
    constructor; [exact I|constructor].
Qed.

Lemma up_stop_timer v i v' r :
  trans_stop_timer E v i = (v', r) ->
  let t := tr v i in
  (r = Ok tt /\ up v i (t_with_armed t false) [SStop (t_client t) true] (v_id v) (v_app v) v') \/
  (exists e, r = Err e /\ up v i t [SStop (t_client t) false] (v_id v) (v_app v) v').
Proof.
  unfold trans_stop_timer. cbv zeta. destruct (se_set E (v_n v)) as [e|]; intros [= <- <-].
  - right. exists e. split; [reflexivity|]. exists (S (v_n v)). split; [lia|]. split.
    + unfold tr. rewrite set_nth_same. reflexivity.
    + constructor; [exact I|constructor].
  - left. split; [reflexivity|]. exists (S (v_n v)). split; [lia|]. split; [reflexivity|].
    constructor; [exact I|constructor].
Qed.

Lemma up_send v i m v' r :
  (i < length (v_tr v))%nat ->
  trans_send E v i m = (v', r) ->
  let t := tr v i in
  (exists b now, msg_format m MAX_BUF_LEN = Ok b /\ r = Ok tt /\
     up v i (t_with_last_use t now) [SSend (t_client t) b true; SUse (t_client t) now] (v_id v) (v_app v) v') \/
  (exists b e, msg_format m MAX_BUF_LEN = Ok b /\ r = Err e /\
     up v i t [SSend (t_client t) b false] (v_id v) (v_app v) v') \/
  ((forall b, msg_format m MAX_BUF_LEN <> Ok b) /\ v' = v /\ r = (let* _ := msg_format m MAX_BUF_LEN in Ok tt)).
Proof.
  intros Hi. unfold trans_send. cbv zeta. destruct (msg_format m MAX_BUF_LEN) as [b|e|u|].
  2-4: intros [= <- <-]; right; right; (split; [discriminate|auto]).
  destruct (se_send E (v_n v)) as [e|]; intros [= <- <-].
  - right; left. exists b, e. do 2 (split; [reflexivity|]).
    eapply (up_trans v i _ [] _ _ (tick v)); [apply up_tick|].
    apply (up_log (tick v) i (SSend (t_client (tr v i)) b false)). exact I.
  - left. exists b. eexists. do 2 (split; [reflexivity|]).
    eapply (up_trans v i _ [SSend (t_client (tr v i)) b true]).
    + eapply (up_trans v i _ [] _ _ (tick v)); [apply up_tick|].
      apply (up_log (tick v) i (SSend (t_client (tr v i)) b true)). exact I.
    + pose proof (up_touch (slog (tick v) (SSend (t_client (tr v i)) b true)) i) as H. cbv zeta in H. exact H.
Qed.

Lemma up_send_empty v i ty id v' r :
  (i < length (v_tr v))%nat -> ty = T_ACK \/ ty = T_RST -> id <= 65535 ->
  trans_send_empty E v i ty id = (v', r) ->
  let t := tr v i in let b := empty_bytes ty id in
  (exists now, r = Ok tt /\
     up v i (t_with_last_use t now) [SSend (t_client t) b true; SUse (t_client t) now] (v_id v) (v_app v) v') \/
  (exists e, r = Err e /\ up v i t [SSend (t_client t) b false] (v_id v) (v_app v) v').
Proof.
  intros Hi Hty Hid. unfold trans_send_empty. rewrite empty_msg_eq by exact Hty.
  destruct (N.ltb_spec 65535 id); [lia|]. intro H1. apply up_send in H1; [|exact Hi]. cbv zeta in *.
  rewrite format_empty in H1 by assumption.
  destruct H1 as [(b & now & Hb & -> & Hu)|[(b & e & Hb & -> & Hu)|(Hn & _)]].
  - injection Hb as <-. left. eauto.
  - injection Hb as <-. right. eauto.
  - exfalso. eapply Hn. reflexivity.
Qed.

(** ** The shape of a request's handling *)

Definition sepb (m : msg) : bool := match get_resp_type C m with Ok b => b | _ => false end.
Lemma get_resp_type_ok m : get_resp_type C m = Ok (sepb m).
Proof.
  unfold sepb, get_resp_type. destruct (path_buf_ok m URI_PATH_MAX_LEN) as [s ->]; [discriminate|]. reflexivity.
Qed.

(** The application's part. *)
Inductive answered (t : trans) (a : A) (m : msg) : trans -> list sobs -> A -> res msg -> Prop :=
| an_bad :
    server_check_options C m <> 0 ->
    answered t a m t [] a (handle_bad_option msg_create (server_check_options C m))
| an_next a' l t' resp r :
    server_check_options C m = 0 -> t_type t <> TRegular ->
    next_block P a t m msg_create = (a', l, (t', resp, r)) ->
    answered t a m t' l a' (let* _ := r in Ok resp)
| an_err a' e :
    server_check_options C m = 0 -> t_type t = TRegular ->
    ap_handle P a (t_client t) m = (a', HErr e) ->
    answered t a m t [SHandle (t_client t) m] a' (Err e)
| an_resp a' l :
    server_check_options C m = 0 -> t_type t = TRegular ->
    ap_handle P a (t_client t) m = (a', HResp l) ->
    answered t a m t [SHandle (t_client t) m] a' (Ok (msg_build l))
| an_block a1 l s1 s2 body bl rx large a' ol t' resp r :
    server_check_options C m = 0 -> t_type t = TRegular ->
    ap_handle P a (t_client t) m = (a1, HBlock l s1 s2 body bl rx) ->
    handle_blockwise P C large a1 t m (msg_build l) s1 s2 body bl rx = (a', ol, (t', resp, r)) ->
    answered t a m t' (SHandle (t_client t) m :: ol) a' (let* _ := r in Ok resp).

Lemma is_type_regular ty : is_type ty TRegular = true <-> ty = TRegular.
Proof. destruct ty; cbn; split; congruence. Qed.

Lemma blk_obs_stamped c n n' l : Forall (blk_obs c) l -> Forall (stamped n n') l.
Proof. intro H. eapply Forall_impl; [|exact H]. intros o [[b ->]|[b ->]]; exact I. Qed.

Lemma exchange_answer_spec v i m v' r :
  (i < length (v_tr v))%nat ->
  exchange_answer P E C v i m = (v', r) ->
  exists t' l a', answered (tr v i) (v_app v) m t' l a' r /\ up v i t' l (v_id v) a' v'.
Proof.
  intros Hi. unfold exchange_answer. cbv zeta.
  destruct (N.eqb_spec (server_check_options C m) 0) as [Hz|Hz]; cbn [negb].
  2: { intros [= <- <-]. exists (tr v i), [], (v_app v). split; [apply an_bad; exact Hz|apply up_refl]. }
  destruct (is_type (t_type (tr v i)) TRegular) eqn:Et; cbn [negb].
  2: { destruct (next_block _ _ _ _ _) as [[a' l] [[t' resp] r']] eqn:En. intros [= <- <-].
       exists t', l, a'. split.
       - eapply an_next; [exact Hz| |exact En]. intro C'. apply is_type_regular in C'. congruence.
       - pose proof (next_block_fine (v_app v) (tr v i) m msg_create rwf_create) as [F _].
         rewrite En in F. cbn [fst snd] in F.
         exists (v_n v). split; [lia|]. split; [reflexivity|]. eapply blk_obs_stamped; exact F. }
  apply is_type_regular in Et. cbn [slog v_app].
  destruct (ap_handle P (v_app v) (t_client (tr v i)) m) as [a1 h] eqn:Eh. destruct h as [e|l|l s1 s2 body bl rx].
  - intros [= <- <-]. exists (tr v i), [SHandle (t_client (tr v i)) m], a1. split; [apply an_err; assumption|].
    exists (v_n v). split; [lia|]. split; [|constructor; [exact I|constructor]].
    unfold tr. rewrite set_nth_same. reflexivity.
  - intros [= <- <-]. exists (tr v i), [SHandle (t_client (tr v i)) m], a1. split; [apply an_resp; assumption|].
    exists (v_n v). split; [lia|]. split; [|constructor; [exact I|constructor]].
    unfold tr. rewrite set_nth_same. reflexivity.
  - change (v_app (tick (set_app (slog v (SHandle (t_client (tr v i)) m)) a1))) with a1.
    change (tr (tick (set_app (slog v (SHandle (t_client (tr v i)) m)) a1)) i) with (tr v i).
    set (lg := se_large E _).
    match goal with |- context [handle_blockwise P C ?lg ?a ?t ?q ?p s1 s2 body bl rx] =>
      destruct (handle_blockwise P C lg a t q p s1 s2 body bl rx) as [[a' ol] [[t' resp] r']] eqn:Eb end.
    intros [= <- <-]. exists t', (SHandle (t_client (tr v i)) m :: ol), a'. split.
    + eapply an_block; eassumption.
    + pose proof (handle_blockwise_fine lg a1 (tr v i) m (msg_build l) s1 s2 body bl rx (rwf_build l)) as [F _].
      unfold msg_build in F. rewrite Eb in F. cbn [fst snd] in F.
      exists (S (v_n v)). split; [lia|]. split.
      * unfold set_tr, set_app, slogs, tick, slog. cbn [v_trace v_n v_id v_tr v_app]. rewrite <- app_assoc. reflexivity.
      * constructor; [exact I|]. eapply blk_obs_stamped; exact F.
Qed.

(** Facts about every answer. *)
Lemma bad_option_resp num : exists m, handle_bad_option msg_create num = Ok m /\ rwf m /\
  m = mkmsg 1 0 4 2 0 [] [] (bad_option_text ++ dec num).
Proof.
  eexists. split; [reflexivity|]. split; [|reflexivity].
  split; try reflexivity; try exact I; try (vm_compute; discriminate).
Qed.

Lemma answered_fine t a m t' l a' r : answered t a m t' l a' r ->
  core t' = core t /\ (forall resp, r = Ok resp -> rwf resp) /\
  (Forall (blk_obs (t_client t)) l \/ exists l', l = SHandle (t_client t) m :: l' /\ Forall (blk_obs (t_client t)) l').
Proof.
  intro H. destruct H as [Hz|a' l t' resp r Hz Ht En|a' e Hz Ht Eh|a' l Hz Ht Eh|a1 l s1 s2 body bl rx large a' ol t' resp r Hz Ht Eh Eb].
  - split; [reflexivity|]. split; [|left; constructor].
    destruct (bad_option_resp (server_check_options C m)) as (x & -> & W & _). intros resp [= <-]. exact W.
  - pose proof (next_block_fine a t m msg_create rwf_create) as [F1 [F2 F3]]. rewrite En in *. cbn [fst snd] in *.
    split; [exact F2|]. split; [|left; exact F1]. intros x Hx. apply bind_ok in Hx as (_ & _ & Hx). congruence.
  - split; [reflexivity|]. split; [discriminate|]. right. eexists. split; [reflexivity|constructor].
  - split; [reflexivity|]. split; [|right; eexists; split; [reflexivity|constructor]].
    intros resp [= <-]. apply rwf_build.
  - pose proof (handle_blockwise_fine large a1 t m (msg_build l) s1 s2 body bl rx (rwf_build l)) as [F1 [F2 F3]].
    rewrite Eb in *. cbn [fst snd] in *.
    split; [exact F2|]. split; [|right; eexists; split; [reflexivity|exact F1]].
    intros x Hx. apply bind_ok in Hx as (_ & _ & Hx). congruence.
Qed.

(** The response is sent and recorded: [t] before, [t'] after. *)
Inductive sent_off (t : trans) (m rm : msg) : trans -> list sobs -> res unit -> Prop :=
| so_nofmt e : msg_format rm MAX_BUF_LEN = Err e ->
    sent_off t m rm trans_zero [SDestroy (t_client t)] (Err e)
| so_ub r : msg_format rm MAX_BUF_LEN = r -> (forall b, r <> Ok b) -> (forall e, r <> Err e) ->
    sent_off t m rm t [] (let* _ := r in Ok tt)
| so_nosend b e : msg_format rm MAX_BUF_LEN = Ok b ->
    sent_off t m rm trans_zero [SSend (t_client t) b false; SDestroy (t_client t)] (Err e)
| so_nocopy b now : msg_format rm MAX_BUF_LEN = Ok b ->
    sent_off t m rm trans_zero [SSend (t_client t) b true; SUse (t_client t) now; SDestroy (t_client t)] (Err ENOMEM)
| so_done b now q : msg_format rm MAX_BUF_LEN = Ok b -> m_type rm <> T_CON ->
    msg_copy msg_create m = Ok q ->
    sent_off t m rm (t_with_msgs (t_with_last_use t now) q rm)
             [SSend (t_client t) b true; SUse (t_client t) now] (Ok tt)
| so_armed b now q r : msg_format rm MAX_BUF_LEN = Ok b -> m_type rm = T_CON ->
    msg_copy msg_create m = Ok q ->
    sent_off t m rm
      (t_with_armed (t_with_timeout (t_with_retrans (t_with_msgs (t_with_last_use t now) q rm) 0)
                                    2 ((r mod 1000) * 1000000)) true)
      [SSend (t_client t) b true; SUse (t_client t) now; SArm (t_client t) 2 ((r mod 1000) * 1000000) true] (Ok tt)
| so_noarm b now r e : msg_format rm MAX_BUF_LEN = Ok b -> m_type rm = T_CON ->
    sent_off t m rm trans_zero
      [SSend (t_client t) b true; SUse (t_client t) now; SArm (t_client t) 2 ((r mod 1000) * 1000000) false;
       SDestroy (t_client t)] (Err e).

(** Message IDs. *)
Definition next_id (id id' : N) : Prop := (id < 65535 -> id' = id + 1) /\ id' <= 65535.

Lemma next_msg_id_spec v i v' id : v_id v <= 65535 -> next_msg_id E v = (v', id) ->
  next_id (v_id v) id /\ up v i (tr v i) [SNewId id] id (v_app v) v'.
Proof.
  intros Hv. unfold next_msg_id, add32. cbv zeta.
  rewrite N.mod_small by (unfold two32; lia). unfold MAX_MSG_ID.
  destruct (N.ltb_spec 65535 (v_id v + 1)) as [Hl|Hl]; intros [= <- <-].
  - split.
    + split; [lia|]. rewrite !land_255. rewrite lor_8 by lia. lia.
    + exists (S (S (v_n v))). split; [lia|]. split; [|constructor; [exact I|constructor]].
      unfold tr. rewrite set_nth_same. reflexivity.
  - split; [split; lia|]. exists (v_n v). split; [lia|]. split; [|constructor; [exact I|constructor]].
    unfold tr. rewrite set_nth_same. reflexivity.
Qed.

(** How the message ID of the response to [m] is chosen. *)
Inductive ident (m : msg) (id0 : N) : list sobs -> N -> N -> Prop :=
| id_pb : m_type m = T_CON -> sepb m = false -> ident m id0 [] id0 (m_id m)
| id_new id : (m_type m <> T_CON \/ sepb m = true) -> next_id id0 id -> ident m id0 [SNewId id] id id.

Definition resp_type (m : msg) : N :=
  if m_type m =? T_CON then (if sepb m then T_CON else T_ACK) else T_NON.

Lemma give_up_up {B} v i (r : res B) e : (i < length (v_tr v))%nat -> r = Err e ->
  exists v', give_up v i r = (v', Err e) /\ up v i trans_zero [SDestroy (t_client (tr v i))] (v_id v) (v_app v) v'.
Proof. intros Hi ->. eexists. split; [reflexivity|apply up_destroy]. Qed.

Lemma exchange_respond_spec v i m resp v' r :
  (i < length (v_tr v))%nat -> pwf m -> rwf resp -> v_id v <= 65535 ->
  exchange_respond E v i m resp (sepb m) = (v', r) ->
  exists s2 id' id t' s3,
    ident m (v_id v) s2 id' id /\
    sent_off (tr v i) m (complete resp id (m_token m) (resp_type m)) t' s3 r /\
    up v i t' (s2 ++ s3) id' (v_app v) v' /\ id <= 65535 /\ id' <= 65535.
Proof.
  intros Hi Wm Wr Hv. unfold exchange_respond. cbv zeta.
  assert (Hid : exists v1 id s2, (if (m_type m =? T_CON) && negb (sepb m) then (v, m_id m) else next_msg_id E v) = (v1, id) /\
            ident m (v_id v) s2 (v_id v1) id /\ up v i (tr v i) s2 (v_id v1) (v_app v) v1 /\ id <= 65535 /\ v_id v1 <= 65535).
  { destruct (N.eqb_spec (m_type m) T_CON) as [Ec|Ec]; cbn [andb]; [destruct (sepb m) eqn:Es; cbn [negb]|].
    - destruct (next_msg_id E v) as [v1 id] eqn:En. apply (next_msg_id_spec v i) in En as [H1 H2]; [|exact Hv].
      exists v1, id, [SNewId id]. split; [reflexivity|]. rewrite (up_id _ _ _ _ _ _ _ H2).
      split; [constructor; auto|]. split; [exact H2|]. destruct H1. auto.
    - exists v, (m_id m), []. split; [reflexivity|]. split; [constructor; auto|]. split; [apply up_refl|].
      split; [apply Wm|exact Hv].
    - destruct (next_msg_id E v) as [v1 id] eqn:En. apply (next_msg_id_spec v i) in En as [H1 H2]; [|exact Hv].
      exists v1, id, [SNewId id]. split; [reflexivity|]. rewrite (up_id _ _ _ _ _ _ _ H2).
      split; [constructor; auto|]. split; [exact H2|]. destruct H1. auto. }
  destruct Hid as (v1 & id & s2 & -> & Hident & Hu & Hidb & Hv1).
  assert (Hty : resp_type m < 4).
  { unfold resp_type, T_CON, T_ACK, T_NON. destruct (_ =? _); [destruct (sepb m)|]; lia. }
  change (if m_type m =? T_CON then if sepb m then T_CON else T_ACK else T_NON) with (resp_type m).
  rewrite (complete_eq resp id (m_token m) (resp_type m) Hidb (pw_tkl m Wm) Hty).
  set (rm := complete resp id (m_token m) (resp_type m)).
  assert (Wrm : rwf rm) by (apply rwf_complete; auto; apply Wm).
  assert (Hi1 : (i < length (v_tr v1))%nat) by (rewrite (up_len _ _ _ _ _ _ _ Hu); exact Hi).
  assert (Ht1 : tr v1 i = tr v i) by (exact (up_tr _ _ _ _ _ _ _ Hi Hu)).
  assert (Ha1 : v_app v1 = v_app v) by (eapply up_app; eassumption).
  intro H.
  assert (G : exists t' s3, sent_off (tr v1 i) m rm t' s3 r /\ up v1 i t' s3 (v_id v1) (v_app v1) v').
  { destruct (trans_send E v1 i rm) as [v2 r2] eqn:Es. pose proof Es as Es'.
    apply up_send in Es'; [|exact Hi1]. cbv zeta in Es'.
    destruct Es' as [(b & now & Hb & -> & Hu2)|[(b & e & Hb & -> & Hu2)|(Hn & -> & ->)]].
    2: { destruct (give_up_up v2 i (@Err unit e) e) as (v3 & E3 & Hu3);
           [rewrite (up_len _ _ _ _ _ _ _ Hu2); exact Hi1|reflexivity|].
         rewrite E3 in H. injection H as <- <-. rewrite (up_tr _ _ _ _ _ _ _ Hi1 Hu2) in Hu3.
         rewrite (up_id _ _ _ _ _ _ _ Hu2), (up_app _ _ _ _ _ _ _ Hu2) in Hu3.
         do 2 eexists. split; [eapply so_nosend; exact Hb|]. eapply up_trans in Hu3; [|exact Hu2]. exact Hu3. }
    2: { destruct (msg_format rm MAX_BUF_LEN) as [b|e|u|] eqn:Ef; [exfalso; eapply Hn; reflexivity| | |];
           cbn [bind give_up] in H; injection H as <- <-.
         - do 2 eexists. split; [eapply so_nofmt; exact Ef|apply up_destroy].
         - do 2 eexists. split; [eapply (so_ub _ _ _ (UB u)); [exact Ef|discriminate|discriminate]|apply up_refl].
         - do 2 eexists. split; [eapply (so_ub _ _ _ OutOfFuel); [exact Ef|discriminate|discriminate]|apply up_refl]. }
    set (v3 := tick (tick v2)) in *.
    assert (Hi2 : (i < length (v_tr v2))%nat) by (rewrite (up_len _ _ _ _ _ _ _ Hu2); exact Hi1).
    assert (Hu3 : up v1 i (t_with_last_use (tr v1 i) now) [SSend (t_client (tr v1 i)) b true; SUse (t_client (tr v1 i)) now] (v_id v1) (v_app v1) v3).
    { pose proof (up_trans _ _ _ _ _ _ _ _ _ _ _ _ (up_tick v2 i) (up_tick (tick v2) i)) as H3.
      pose proof (up_trans _ _ _ _ _ _ _ _ _ _ _ _ Hu2 H3) as H4. cbn [List.app] in H4.
      change (tr (tick v2) i) with (tr v2 i) in H4. rewrite (up_tr _ _ _ _ _ _ _ Hi1 Hu2) in H4.
      change (v_id (tick v2)) with (v_id v2) in H4. change (v_app (tick v2)) with (v_app v2) in H4.
      rewrite (up_id _ _ _ _ _ _ _ Hu2), (up_app _ _ _ _ _ _ _ Hu2) in H4. exact H4. }
    clearbody v3. clear Hu2 Es.
    assert (Hi3 : (i < length (v_tr v3))%nat) by (rewrite (up_len _ _ _ _ _ _ _ Hu3); exact Hi1).
    assert (Ht3 := up_tr _ _ _ _ _ _ _ Hi1 Hu3).
    assert (Hid3 := up_id _ _ _ _ _ _ _ Hu3). assert (Ha3 := up_app _ _ _ _ _ _ _ Hu3).
    destruct (se_copy E (v_n v2) && se_copy E (S (v_n v2))); cbn [negb] in H.
    2: { injection H as <- <-. do 2 eexists. split; [eapply so_nocopy; exact Hb|].
         pose proof (up_destroy v3 i) as H5. rewrite Ht3, Hid3, Ha3 in H5.
         pose proof (up_trans _ _ _ _ _ _ _ _ _ _ _ _ Hu3 H5) as H6. exact H6. }
    destruct (copy_pwf m Wm) as (q & Hq & _). rewrite Hq, (copy_rwf rm Wrm) in H.
    pose proof (up_set v3 i (t_with_msgs (tr v3 i) q rm)) as H5.
    rewrite Hid3, Ha3, Ht3 in H5. pose proof (up_trans _ _ _ _ _ _ _ _ _ _ _ _ Hu3 H5) as H6. cbn [List.app] in H6.
    rewrite Ht3 in H. set (v4 := set_tr v3 i _) in *. clear H5.
    assert (Hi4 : (i < length (v_tr v4))%nat) by (rewrite (up_len _ _ _ _ _ _ _ H6); exact Hi1).
    assert (Ht4 := up_tr _ _ _ _ _ _ _ Hi1 H6).
    assert (Hid4 := up_id _ _ _ _ _ _ _ H6). assert (Ha4 := up_app _ _ _ _ _ _ _ H6).
    destruct (N.eqb_spec (m_type rm) T_CON) as [Ec|Ec].
    2: { injection H as <- <-. do 2 eexists. split; [eapply so_done; eassumption|exact H6]. }
    destruct (trans_start_ack_timer E v4 i) as [v5 r5] eqn:Et. unfold trans_start_ack_timer in Et. cbv zeta in Et.
    change (tr (tick v4) i) with (tr v4 i) in Et. rewrite Ht4 in Et.
    set (rnd := se_rand E (v_n v4)) in *. clearbody rnd.
    match type of Et with trans_start_timer E (set_tr (tick v4) i ?t) i = _ =>
      pose proof (up_trans _ _ _ _ _ _ _ _ _ _ _ _ (up_tick v4 i) (up_set (tick v4) i t)) as H7;
      assert (Hi5 : (i < length (v_tr (set_tr (tick v4) i t)))%nat) by (rewrite (up_len _ _ _ _ _ _ _ H7); exact Hi4);
      assert (Ht5 : tr (set_tr (tick v4) i t) i = t) by (eapply up_tr; [exact Hi4|exact H7])
    end.
    pose proof (up_trans _ _ _ _ _ _ _ _ _ _ _ _ H6 H7) as H8. cbn [List.app] in H8.
    change (v_id (tick v4)) with (v_id v4) in H8. change (v_app (tick v4)) with (v_app v4) in H8. rewrite Hid4, Ha4 in H8.
    apply up_start_timer in Et; [|exact Hi5]. cbv zeta in Et. rewrite Ht5 in Et.
    rewrite (up_id _ _ _ _ _ _ _ H8), (up_app _ _ _ _ _ _ _ H8) in Et.
    destruct Et as [[-> Hu5]|(e & -> & Hu5)].
    - injection H as <- <-. do 2 eexists. split; [eapply (so_armed _ _ _ b now q rnd); eassumption|].
      pose proof (up_trans _ _ _ _ _ _ _ _ _ _ _ _ H8 Hu5) as H9. exact H9.
    - pose proof (up_trans _ _ _ _ _ _ _ _ _ _ _ _ H8 Hu5) as H9.
      cbn [give_up] in H. injection H as <- <-.
      pose proof (up_destroy v5 i) as H10. rewrite (up_tr _ _ _ _ _ _ _ Hi1 H9) in H10.
      rewrite (up_id _ _ _ _ _ _ _ H9), (up_app _ _ _ _ _ _ _ H9) in H10.
      do 2 eexists. split; [eapply (so_noarm _ _ _ b now rnd e); eassumption|].
      pose proof (up_trans _ _ _ _ _ _ _ _ _ _ _ _ H9 H10) as H11. exact H11. }
  destruct G as (t' & s3 & Hs & Hu'). rewrite Ht1 in Hs. rewrite Ha1 in Hu'.
  exists s2, (v_id v1), id, t', s3. split; [exact Hident|]. split; [exact Hs|].
  split; [eapply up_trans; [exact Hu|exact Hu']|]. auto.
Qed.

(** A new request in a transaction [t]. *)
Definition blank (t : trans) : trans := t_with_msgs t msg_zero msg_zero.

(** The acknowledgement that precedes a separate response. *)
Inductive acked (t : trans) (m : msg) : trans -> list sobs -> Prop :=
| ak_none : (m_type m <> T_CON \/ sepb m = false) -> acked t m t []
| ak_sent now : m_type m = T_CON -> sepb m = true ->
    acked t m (t_with_last_use t now)
          [SSend (t_client t) (empty_bytes T_ACK (m_id m)) true; SUse (t_client t) now].

Inductive req_run (t : trans) (id : N) (a : A) (m : msg) : trans -> list sobs -> N -> A -> res unit -> Prop :=
| rq_noack e : m_type m = T_CON -> sepb m = true ->
    req_run t id a m trans_zero
      [SSend (t_client t) (empty_bytes T_ACK (m_id m)) false; SDestroy (t_client t)] id a (Err e)
| rq_noans t1 s1 t2 s2 a' e :
    acked (blank t) m t1 s1 -> answered t1 a m t2 s2 a' (Err e) ->
    req_run t id a m trans_zero (s1 ++ s2 ++ [SDestroy (t_client t)]) id a' (Err e)
| rq_ubans t1 s1 t2 s2 a' r :
    acked (blank t) m t1 s1 -> answered t1 a m t2 s2 a' r -> (forall x, r <> Ok x) -> (forall e, r <> Err e) ->
    req_run t id a m t2 (s1 ++ s2) id a' (let* _ := r in Ok tt)
| rq_resp t1 s1 t2 s2 a' resp s3 id' i t3 s4 r :
    acked (blank t) m t1 s1 -> answered t1 a m t2 s2 a' (Ok resp) ->
    ident m id s3 id' i -> id' <= 65535 -> i <= 65535 ->
    sent_off t2 m (complete resp i (m_token m) (resp_type m)) t3 s4 r ->
    req_run t id a m t3 (s1 ++ s2 ++ s3 ++ s4) id' a' r.

Lemma acked_client t m t' s : acked t m t' s -> t_client t' = t_client t.
Proof. intros []; reflexivity. Qed.

Lemma exchange_request_spec v i m v' r :
  (i < length (v_tr v))%nat -> pwf m -> v_id v <= 65535 ->
  exchange_request P E C v i m = (v', r) ->
  exists t' s id' a', req_run (tr v i) (v_id v) (v_app v) m t' s id' a' r /\ up v i t' s id' a' v' /\ id' <= 65535.
Proof.
  intros Hi Wm Hv. unfold exchange_request. cbv zeta.
  rewrite (get_resp_type_ok m).
  replace (if m_type m =? T_CON then Ok (sepb m) else Ok false) with (Ok ((m_type m =? T_CON) && sepb m)).
  2: { destruct (m_type m =? T_CON); reflexivity. }
  fold (blank (tr v i)).
  pose proof (up_set v i (blank (tr v i))) as Hu0. set (v0 := set_tr v i (blank (tr v i))) in *.
  assert (Hi0 : (i < length (v_tr v0))%nat) by (rewrite (up_len _ _ _ _ _ _ _ Hu0); exact Hi).
  assert (Ht0 := up_tr _ _ _ _ _ _ _ Hi Hu0).
  assert (Hk : exists v1 r1, (if (m_type m =? T_CON) && ((m_type m =? T_CON) && sepb m) then trans_send_ack E v0 i m else (v0, Ok tt)) = (v1, r1) /\
     ((r1 = Ok tt /\ exists t1 s1, acked (blank (tr v i)) m t1 s1 /\ up v i t1 s1 (v_id v) (v_app v) v1) \/
      (exists e, r1 = Err e /\ m_type m = T_CON /\ sepb m = true /\
         up v i (blank (tr v i)) [SSend (t_client (tr v i)) (empty_bytes T_ACK (m_id m)) false] (v_id v) (v_app v) v1))).
  { destruct (N.eqb_spec (m_type m) T_CON) as [Ec|Ec]; cbn [andb]; [destruct (sepb m) eqn:Es|].
    - unfold trans_send_ack. destruct (trans_send_empty E v0 i T_ACK (m_id m)) as [v1 r1] eqn:Ea.
      exists v1, r1. split; [reflexivity|].
      apply up_send_empty in Ea; [|exact Hi0|left; reflexivity|apply Wm]. cbv zeta in Ea. rewrite Ht0 in Ea.
      rewrite (up_id _ _ _ _ _ _ _ Hu0), (up_app _ _ _ _ _ _ _ Hu0) in Ea.
      destruct Ea as [(now & -> & Hu)|(e & -> & Hu)]; pose proof (up_trans _ _ _ _ _ _ _ _ _ _ _ _ Hu0 Hu) as Hu1.
      + left. split; [reflexivity|]. do 2 eexists. split; [|exact Hu1]. apply ak_sent; assumption.
      + right. exists e. repeat split; auto.
    - exists v0, (Ok tt). split; [reflexivity|]. left. split; [reflexivity|]. do 2 eexists. split; [|exact Hu0].
      apply ak_none. auto.
    - exists v0, (Ok tt). split; [reflexivity|]. left. split; [reflexivity|]. do 2 eexists. split; [|exact Hu0].
      apply ak_none. auto. }
  destruct Hk as (v1 & r1 & -> & [(-> & t1 & s1 & Hk & Hu1)|(e & -> & Ec & Es & Hu1)]).
  2: { cbn [give_up]. intros [= <- <-]. pose proof (up_destroy v1 i) as Hd.
       rewrite (up_tr _ _ _ _ _ _ _ Hi Hu1), (up_id _ _ _ _ _ _ _ Hu1), (up_app _ _ _ _ _ _ _ Hu1) in Hd.
       pose proof (up_trans _ _ _ _ _ _ _ _ _ _ _ _ Hu1 Hd) as Hu2.
       do 4 eexists. split; [apply rq_noack; assumption|]. split; [exact Hu2|exact Hv]. }
  assert (Hi1 : (i < length (v_tr v1))%nat) by (rewrite (up_len _ _ _ _ _ _ _ Hu1); exact Hi).
  assert (Ht1 := up_tr _ _ _ _ _ _ _ Hi Hu1).
  destruct (exchange_answer P E C v1 i m) as [v2 r2] eqn:Ea.
  apply exchange_answer_spec in Ea as (t2 & s2 & a' & Ha & Hu2); [|exact Hi1].
  rewrite Ht1, (up_app _ _ _ _ _ _ _ Hu1) in Ha. rewrite (up_id _ _ _ _ _ _ _ Hu1) in Hu2.
  pose proof (up_trans _ _ _ _ _ _ _ _ _ _ _ _ Hu1 Hu2) as Hu3.
  assert (Hi2 : (i < length (v_tr v2))%nat) by (rewrite (up_len _ _ _ _ _ _ _ Hu3); exact Hi).
  assert (Ht2 := up_tr _ _ _ _ _ _ _ Hi Hu3).
  pose proof (answered_fine _ _ _ _ _ _ _ Ha) as (Hcore & Hresp & _).
  assert (Hcl : t_client t2 = t_client (tr v i)).
  { rewrite (core_client _ _ Hcore), (acked_client _ _ _ _ Hk). reflexivity. }
  destruct r2 as [resp|e|u|].
  - replace ((m_type m =? T_CON) && sepb m) with (sepb m && (m_type m =? T_CON)) by apply andb_comm.
    intro H. assert (H' : exchange_respond E v2 i m resp (sepb m) = (v', r)).
    { rewrite <- H. unfold exchange_respond. destruct (m_type m =? T_CON); [rewrite andb_true_r; reflexivity|].
      cbn [andb]. reflexivity. }
    apply exchange_respond_spec in H' as (s3 & id' & id & t3 & s4 & Hid & Hs & Hu4 & Hb1 & Hb2).
    + rewrite (up_id _ _ _ _ _ _ _ Hu3) in Hid. rewrite Ht2 in Hs. rewrite (up_app _ _ _ _ _ _ _ Hu3) in Hu4.
      pose proof (up_trans _ _ _ _ _ _ _ _ _ _ _ _ Hu3 Hu4) as Hu5. rewrite <- app_assoc in Hu5.
      do 4 eexists. split; [eapply rq_resp; eassumption|]. split; [exact Hu5|exact Hb2].
    + exact Hi2.
    + exact Wm.
    + apply Hresp. reflexivity.
    + rewrite (up_id _ _ _ _ _ _ _ Hu3). exact Hv.
  - cbn [give_up]. intros [= <- <-]. pose proof (up_destroy v2 i) as Hd.
    rewrite Ht2, (up_id _ _ _ _ _ _ _ Hu3), (up_app _ _ _ _ _ _ _ Hu3), Hcl in Hd.
    pose proof (up_trans _ _ _ _ _ _ _ _ _ _ _ _ Hu3 Hd) as Hu4. rewrite <- app_assoc in Hu4.
    do 4 eexists. split; [eapply rq_noans; eassumption|]. split; [exact Hu4|exact Hv].
  - cbn [give_up]. intros [= <- <-]. do 4 eexists.
    split; [eapply (rq_ubans _ _ _ _ _ _ _ _ _ (UB u)); try eassumption; discriminate|]. split; [exact Hu3|exact Hv].
  - cbn [give_up]. intros [= <- <-]. do 4 eexists.
    split; [eapply (rq_ubans _ _ _ _ _ _ _ _ _ OutOfFuel); try eassumption; discriminate|]. split; [exact Hu3|exact Hv].
Qed.

(** A message [m] in a transaction [t]. *)
Inductive msg_run (t : trans) (id : N) (a : A) (m : msg) : trans -> list sobs -> N -> A -> res unit -> Prop :=
| mr_dup_non : match_req t m = true -> m_type m = T_NON -> msg_run t id a m t [] id a (Ok tt)
| mr_dup_sep now : match_req t m = true -> m_type m = T_CON -> sepb m = true ->
    msg_run t id a m (t_with_last_use t now)
      [SSend (t_client t) (empty_bytes T_ACK (m_id m)) true; SUse (t_client t) now] id a (Ok tt)
| mr_dup_sep_fail e : match_req t m = true -> m_type m = T_CON -> sepb m = true ->
    msg_run t id a m trans_zero
      [SSend (t_client t) (empty_bytes T_ACK (m_id m)) false; SDestroy (t_client t)] id a (Err e)
| mr_dup b now : match_req t m = true -> m_type m = T_CON -> sepb m = false ->
    msg_format (t_resp t) MAX_BUF_LEN = Ok b ->
    msg_run t id a m (t_with_last_use t now) [SSend (t_client t) b true; SUse (t_client t) now] id a (Ok tt)
| mr_dup_nosend b : match_req t m = true -> m_type m = T_CON -> sepb m = false ->
    msg_format (t_resp t) MAX_BUF_LEN = Ok b ->
    msg_run t id a m trans_zero [SSend (t_client t) b false; SDestroy (t_client t)] id a (Ok tt)
| mr_dup_nofmt t' s r : match_req t m = true -> m_type m = T_CON -> sepb m = false ->
    (forall b, msg_format (t_resp t) MAX_BUF_LEN <> Ok b) ->
    (t' = trans_zero /\ s = [SDestroy (t_client t)] /\ r = Ok tt \/
     t' = t /\ s = [] /\ r = (let* _ := msg_format (t_resp t) MAX_BUF_LEN in Ok tt) /\ (forall e, r <> Err e)) ->
    msg_run t id a m t' s id a r
| mr_stop : match_resp t m = true -> m_type m = T_ACK \/ m_type m = T_RST ->
    msg_run t id a m (t_with_armed (t_with_retrans t 0) false) [SStop (t_client t) true] id a (Ok tt)
| mr_nostop e : match_resp t m = true -> m_type m = T_ACK \/ m_type m = T_RST ->
    msg_run t id a m trans_zero [SStop (t_client t) false; SDestroy (t_client t)] id a (Err e)
| mr_drop : (m_type m = T_ACK \/ m_type m = T_RST) /\ match_resp t m = false \/
            m_type m = T_NON /\ m_class m <> 0 /\ match_req t m = false ->
    msg_run t id a m trans_zero [SDestroy (t_client t)] id a (Err EBADMSG)
| mr_reject s : m_type m = T_CON -> m_class m <> 0 -> match_req t m = false ->
    (s = [SSend (t_client t) (empty_bytes T_RST (m_id m)) false; SDestroy (t_client t)] \/
     exists now, s = [SSend (t_client t) (empty_bytes T_RST (m_id m)) true; SUse (t_client t) now; SDestroy (t_client t)]) ->
    msg_run t id a m trans_zero s id a (Err EBADMSG)
| mr_request t' s id' a' r : m_type m = T_CON \/ m_type m = T_NON -> m_class m = 0 -> match_req t m = false ->
    req_run t id a m t' s id' a' r -> msg_run t id a m t' s id' a' r.

Lemma type_cases m : pwf m -> m_type m = T_CON \/ m_type m = T_NON \/ m_type m = T_ACK \/ m_type m = T_RST.
Proof. intros [_ H _ _ _ _]. unfold T_CON, T_NON, T_ACK, T_RST. lia. Qed.

Lemma exchange_msg_spec v i m v' r :
  (i < length (v_tr v))%nat -> pwf m -> v_id v <= 65535 ->
  exchange_msg P E C v i m = (v', r) ->
  exists t' s id' a', msg_run (tr v i) (v_id v) (v_app v) m t' s id' a' r /\ up v i t' s id' a' v' /\ id' <= 65535.
Proof.
  intros Hi Wm Hv. unfold exchange_msg.
  destruct (type_cases m Wm) as [Ety|[Ety|[Ety|Ety]]]; rewrite !Ety; cbn [N.eqb Pos.eqb T_CON T_NON T_ACK T_RST orb andb];
    rewrite ?andb_true_r, ?andb_false_r.
  - destruct (match_req (tr v i) m) eqn:Em.
    + unfold exchange_dup. rewrite Ety. change (T_CON =? T_CON) with true. cbv iota. rewrite get_resp_type_ok.
      destruct (sepb m) eqn:Es.
      * unfold trans_send_ack. destruct (trans_send_empty E v i T_ACK (m_id m)) as [v1 r1] eqn:Ea.
        apply up_send_empty in Ea; [|exact Hi|left; reflexivity|apply Wm]. cbv zeta in Ea.
        destruct Ea as [(now & -> & Hu)|(e & -> & Hu)].
        -- intros [= <- <-]. do 4 eexists. split; [eapply mr_dup_sep; eassumption|]. split; [exact Hu|exact Hv].
        -- cbn [give_up]. intros [= <- <-]. pose proof (up_destroy v1 i) as Hd.
           rewrite (up_tr _ _ _ _ _ _ _ Hi Hu), (up_id _ _ _ _ _ _ _ Hu), (up_app _ _ _ _ _ _ _ Hu) in Hd.
           pose proof (up_trans _ _ _ _ _ _ _ _ _ _ _ _ Hu Hd) as Hu2.
           do 4 eexists. split; [eapply mr_dup_sep_fail; eassumption|]. split; [exact Hu2|exact Hv].
      * destruct (trans_send E v i (t_resp (tr v i))) as [v1 r1] eqn:Ea. apply up_send in Ea; [|exact Hi]. cbv zeta in Ea.
        destruct Ea as [(b & now & Hb & -> & Hu)|[(b & e & Hb & -> & Hu)|(Hn & -> & ->)]].
        -- intros [= <- <-]. do 4 eexists. split; [eapply mr_dup; eassumption|]. split; [exact Hu|exact Hv].
        -- intros [= <- <-]. pose proof (up_destroy v1 i) as Hd.
           rewrite (up_tr _ _ _ _ _ _ _ Hi Hu), (up_id _ _ _ _ _ _ _ Hu), (up_app _ _ _ _ _ _ _ Hu) in Hd.
           pose proof (up_trans _ _ _ _ _ _ _ _ _ _ _ _ Hu Hd) as Hu2.
           do 4 eexists. split; [eapply mr_dup_nosend; eassumption|]. split; [exact Hu2|exact Hv].
        -- destruct (msg_format (t_resp (tr v i)) MAX_BUF_LEN) as [b|e|u|] eqn:Ef; [exfalso; eapply Hn; reflexivity| | |];
             cbn [bind]; intros [= <- <-].
           ++ do 4 eexists. split; [eapply mr_dup_nofmt; try eassumption; [rewrite Ef; discriminate|left; repeat split]|].
              split; [apply up_destroy|exact Hv].
           ++ do 4 eexists. split; [eapply mr_dup_nofmt; try eassumption; [rewrite Ef; discriminate|right; rewrite Ef; repeat split; discriminate]|].
              split; [apply up_refl|exact Hv].
           ++ do 4 eexists. split; [eapply mr_dup_nofmt; try eassumption; [rewrite Ef; discriminate|right; rewrite Ef; repeat split; discriminate]|].
              split; [apply up_refl|exact Hv].
    + destruct (N.eqb_spec (m_class m) CL_REQ) as [Ec|Ec]; cbn [negb].
      * intro H. apply exchange_request_spec in H as (t' & s & id' & a' & Hr & Hu & Hb); auto.
        exists t', s, id', a'. split; [apply mr_request; auto|auto].
      * unfold trans_reject. rewrite Ety. change (T_CON =? T_CON) with true. cbv iota.
        destruct (trans_send_empty E v i T_RST (m_id m)) as [v1 r1] eqn:Ea.
        apply up_send_empty in Ea; [|exact Hi|right; reflexivity|apply Wm]. cbv zeta in Ea.
        destruct Ea as [(now & -> & Hu)|(e & -> & Hu)]; intros [= <- <-]; pose proof (up_destroy v1 i) as Hd;
          rewrite (up_tr _ _ _ _ _ _ _ Hi Hu), (up_id _ _ _ _ _ _ _ Hu), (up_app _ _ _ _ _ _ _ Hu) in Hd;
          pose proof (up_trans _ _ _ _ _ _ _ _ _ _ _ _ Hu Hd) as Hu2;
          (do 4 eexists; split; [eapply mr_reject; try eassumption|split; [exact Hu2|exact Hv]]).
        -- right. exists now. reflexivity.
        -- left. reflexivity.
  - destruct (match_req (tr v i) m) eqn:Em.
    + unfold exchange_dup. rewrite Ety. change (T_NON =? T_CON) with false. cbv iota. intros [= <- <-].
      do 4 eexists. split; [eapply mr_dup_non; eassumption|]. split; [apply up_refl|exact Hv].
    + destruct (N.eqb_spec (m_class m) CL_REQ) as [Ec|Ec]; cbn [negb].
      * intro H. apply exchange_request_spec in H as (t' & s & id' & a' & Hr & Hu & Hb); auto.
        exists t', s, id', a'. split; [apply mr_request; auto|auto].
      * unfold trans_reject. rewrite Ety. change (T_NON =? T_CON) with false. cbv iota. intros [= <- <-].
        do 4 eexists. split; [eapply mr_drop; right; auto|]. split; [apply up_destroy|exact Hv].
  - destruct (match_resp (tr v i) m) eqn:Em.
    + unfold trans_stop_ack_timer.
      pose proof (up_set v i (t_with_retrans (tr v i) 0)) as Hu0. set (v0 := set_tr v i _) in *.
      destruct (trans_stop_timer E v0 i) as [v1 r1] eqn:Ea. apply up_stop_timer in Ea. cbv zeta in Ea.
      rewrite (up_tr _ _ _ _ _ _ _ Hi Hu0), (up_id _ _ _ _ _ _ _ Hu0), (up_app _ _ _ _ _ _ _ Hu0) in Ea.
      destruct Ea as [(-> & Hu)|(e & -> & Hu)]; pose proof (up_trans _ _ _ _ _ _ _ _ _ _ _ _ Hu0 Hu) as Hu1.
      * intros [= <- <-]. do 4 eexists. split; [eapply mr_stop; auto|]. split; [exact Hu1|exact Hv].
      * cbn [give_up]. intros [= <- <-]. pose proof (up_destroy v1 i) as Hd.
        rewrite (up_tr _ _ _ _ _ _ _ Hi Hu1), (up_id _ _ _ _ _ _ _ Hu1), (up_app _ _ _ _ _ _ _ Hu1) in Hd.
        pose proof (up_trans _ _ _ _ _ _ _ _ _ _ _ _ Hu1 Hd) as Hu2.
        do 4 eexists. split; [eapply mr_nostop; auto|]. split; [exact Hu2|exact Hv].
    + unfold trans_reject. rewrite Ety. change (T_ACK =? T_CON) with false. cbv iota. intros [= <- <-].
      do 4 eexists. split; [eapply mr_drop; left; auto|]. split; [apply up_destroy|exact Hv].
  - destruct (match_resp (tr v i) m) eqn:Em.
    + unfold trans_stop_ack_timer.
      pose proof (up_set v i (t_with_retrans (tr v i) 0)) as Hu0. set (v0 := set_tr v i _) in *.
      destruct (trans_stop_timer E v0 i) as [v1 r1] eqn:Ea. apply up_stop_timer in Ea. cbv zeta in Ea.
      rewrite (up_tr _ _ _ _ _ _ _ Hi Hu0), (up_id _ _ _ _ _ _ _ Hu0), (up_app _ _ _ _ _ _ _ Hu0) in Ea.
      destruct Ea as [(-> & Hu)|(e & -> & Hu)]; pose proof (up_trans _ _ _ _ _ _ _ _ _ _ _ _ Hu0 Hu) as Hu1.
      * intros [= <- <-]. do 4 eexists. split; [eapply mr_stop; auto|]. split; [exact Hu1|exact Hv].
      * cbn [give_up]. intros [= <- <-]. pose proof (up_destroy v1 i) as Hd.
        rewrite (up_tr _ _ _ _ _ _ _ Hi Hu1), (up_id _ _ _ _ _ _ _ Hu1), (up_app _ _ _ _ _ _ _ Hu1) in Hd.
        pose proof (up_trans _ _ _ _ _ _ _ _ _ _ _ _ Hu1 Hd) as Hu2.
        do 4 eexists. split; [eapply mr_nostop; auto|]. split; [exact Hu2|exact Hv].
    + unfold trans_reject. rewrite Ety. change (T_RST =? T_CON) with false. cbv iota. intros [= <- <-].
      do 4 eexists. split; [eapply mr_drop; left; auto|]. split; [apply up_destroy|exact Hv].
Qed.

(** A datagram [d] (as it is in the buffer) in a transaction [t]. *)
Inductive rx_run (t : trans) (id : N) (a : A) (d : list N) : trans -> list sobs -> N -> A -> res unit -> Prop :=
| rx_ub r : msg_parse (sc_sg C) (d ++ repeat 0 (N.to_nat (1152 - lenN d))) (lenN d) = r ->
    (forall m, r <> Ok m) -> (forall e, r <> Err e) ->
    rx_run t id a d t [SRecv (t_client t) d] id a (let* _ := r in Ok tt)
| rx_bad e s : msg_parse (sc_sg C) (d ++ repeat 0 (N.to_nat (1152 - lenN d))) (lenN d) = Err e ->
    (e = EBADMSG /\ 4 <= lenN d /\ dgram_type d = T_CON /\
       (s = [SSend (t_client t) (empty_bytes T_RST (dgram_id d)) false] \/
        exists now, s = [SSend (t_client t) (empty_bytes T_RST (dgram_id d)) true; SUse (t_client t) now])
     \/ (e <> EBADMSG \/ lenN d < 4 \/ dgram_type d <> T_CON) /\ s = []) ->
    rx_run t id a d trans_zero (SRecv (t_client t) d :: s ++ [SDestroy (t_client t)]) id a (Err e)
| rx_msg m now t' s id' a' r :
    msg_parse (sc_sg C) (d ++ repeat 0 (N.to_nat (1152 - lenN d))) (lenN d) = Ok m -> pwf m ->
    msg_run (t_with_last_use t now) id a m t' s id' a' r ->
    rx_run t id a d t' (SRecv (t_client t) d :: SUse (t_client t) now :: s) id' a' r.

Lemma parse_type_id_cases d past : bytes_ok d ->
  parse_type_msg_id (d ++ past) (lenN d) =
  if lenN d <? 4 then Err EBADMSG else Ok (dgram_type d, dgram_id d).
Proof.
  intro Hd. unfold parse_type_msg_id. destruct (N.ltb_spec (lenN d) 4) as [Hl|Hl]; [reflexivity|].
  destruct d as [|b0 [|b1 [|b2 [|b3 rest]]]]; rewrite ?lenN_cons, ?(@lenN_nil N) in Hl; try lia.
  rewrite rd_app_0, rd_app_2, rd_app_3. cbn [bind]. unfold dgram_type, dgram_id. cbn [nth].
  rewrite land_3, N.shiftr_div_pow2. change (2 ^ 4) with 16.
  rewrite lor_8; [|apply (nth_byte _ 3) in Hd as H; exact H].
  reflexivity.
Qed.

Lemma exchange_rx v i b v' r :
  (i < length (v_tr v))%nat -> bytes_ok b -> v_id v <= 65535 ->
  (let (v, r) := trans_recv E C v i b None in
   match r with
   | Ok m => exchange_msg P E C v i m
   | Err EAGAIN => (v, Ok tt)
   | r => give_up v i r
   end) = (v', r) ->
  exists t' s id' a', rx_run (tr v i) (v_id v) (v_app v) (rx_cut b) t' s id' a' r /\ up v i t' s id' a' v' /\ id' <= 65535.
Proof.
  intros Hi Hb Hv. unfold trans_recv. cbv zeta. unfold rx_buf. set (d := rx_cut b).
  change MAX_BUF_LEN with 1152 in *.
  assert (Hd : bytes_ok d) by (apply rx_cut_bytes; exact Hb).
  assert (Hdl : lenN d <= 1152) by apply rx_cut_len.
  pose proof (up_log v i (SRecv (t_client (tr v i)) d) I) as Hu0.
  set (v0 := slog v _) in *.
  assert (Hi0 : (i < length (v_tr v0))%nat) by exact Hi.
  assert (Ht0 : tr v0 i = tr v i) by reflexivity.
  set (past := repeat 0 _).
  destruct (msg_parse (sc_sg C) (d ++ past) (lenN d)) as [m|e|u|] eqn:Ep.
  - pose proof (parse_pwf _ _ _ _ Hd Ep) as Wm.
    pose proof (up_touch v0 i) as Hu1. cbv zeta in Hu1. set (now := se_time E (v_n v0)) in *.
    pose proof (up_trans _ _ _ _ _ _ _ _ _ _ _ _ Hu0 Hu1) as Hu2. cbn [List.app] in Hu2.
    intro H. apply exchange_msg_spec in H as (t' & s & id' & a' & Hr & Hu & Hb').
    + rewrite (up_tr _ _ _ _ _ _ _ Hi Hu2), (up_id _ _ _ _ _ _ _ Hu2), (up_app _ _ _ _ _ _ _ Hu2) in Hr.
      pose proof (up_trans _ _ _ _ _ _ _ _ _ _ _ _ Hu2 Hu) as Hu3.
      do 4 eexists. split; [eapply rx_msg; eassumption|]. split; [exact Hu3|exact Hb'].
    + rewrite (up_len _ _ _ _ _ _ _ Hu2). exact Hi.
    + exact Wm.
    + rewrite (up_id _ _ _ _ _ _ _ Hu2). exact Hv.
  - assert (Hdz : forall v1 s t1, up v i t1 (SRecv (t_client (tr v i)) d :: s) (v_id v) (v_app v) v1 ->
              t_client t1 = t_client (tr v i) ->
              up v i trans_zero (SRecv (t_client (tr v i)) d :: s ++ [SDestroy (t_client (tr v i))]) (v_id v) (v_app v) (trans_destroy v1 i)).
    { intros v1 s t1 Hu1 Hc. pose proof (up_destroy v1 i) as Hu2.
      rewrite (up_tr _ _ _ _ _ _ _ Hi Hu1), (up_id _ _ _ _ _ _ _ Hu1), (up_app _ _ _ _ _ _ _ Hu1), Hc in Hu2.
      pose proof (up_trans _ _ _ _ _ _ _ _ _ _ _ _ Hu1 Hu2) as Hu3. exact Hu3. }
    assert (He : e = EBADMSG \/ e = EINVAL).
    { destruct (lenN d =? 1152) eqn:El.
      - apply N.eqb_eq in El. unfold past in Ep. rewrite El in Ep. change (1152 - 1152) with 0 in Ep.
        change (repeat 0 (N.to_nat 0)) with (@nil N) in Ep. rewrite app_nil_r in Ep. rewrite <- El in Ep.
        destruct (parse_exact (sc_sg C) d [0]) as [H|H]; [discriminate|congruence|].
        rewrite Ep in H. destruct (parse_err_or_ok (sc_sg C) d [0]) as [[m Hm]|[Hm|Hm]]; [discriminate| | |]; rewrite Hm in H; try congruence;
          injection H as ->; auto.
      - apply N.eqb_neq in El. destruct (parse_err_or_ok (sc_sg C) d past) as [[m Hm]|[Hm|Hm]].
        + unfold past. destruct (N.to_nat (1152 - lenN d)) eqn:E0; [lia|discriminate].
        + congruence.
        + left. congruence.
        + right. congruence. }
    destruct He as [->| ->].
    + unfold trans_handle_format_error. rewrite parse_type_id_cases by exact Hd.
      destruct (N.ltb_spec (lenN d) 4) as [Hl|Hl].
      * cbn [give_up]. intros [= <- <-]. do 4 eexists.
        split; [eapply (rx_bad _ _ _ _ EBADMSG []); [exact Ep|right; auto]|].
        split; [apply (Hdz v0 [] (tr v i)); [exact Hu0|reflexivity]|exact Hv].
      * destruct (N.eqb_spec (dgram_type d) T_CON) as [Ety|Ety].
        2: { cbn [give_up]. intros [= <- <-]. do 4 eexists.
             split; [eapply (rx_bad _ _ _ _ EBADMSG []); [exact Ep|right; auto]|].
             split; [apply (Hdz v0 [] (tr v i)); [exact Hu0|reflexivity]|exact Hv]. }
        destruct (trans_send_empty E v0 i T_RST (dgram_id d)) as [v1 r1] eqn:Ea.
        apply up_send_empty in Ea; [|exact Hi0|right; reflexivity|].
        2: { unfold dgram_id. pose proof (nth_byte d 2 Hd). pose proof (nth_byte d 3 Hd). lia. }
        cbv zeta in Ea. rewrite Ht0 in Ea.
        destruct Ea as [(now & -> & Hu)|(e & -> & Hu)]; cbn [ignore give_up]; intros [= <- <-].
        -- pose proof (up_trans _ _ _ _ _ _ _ _ _ _ _ _ Hu0 Hu) as Hu1.
           do 4 eexists. split; [eapply (rx_bad _ _ _ _ EBADMSG); [exact Ep|left; split; [reflexivity|split; [exact Hl|split; [exact Ety|right; eexists; reflexivity]]]]|].
           split; [|exact Hv]. eapply Hdz; [exact Hu1|reflexivity].
        -- pose proof (up_trans _ _ _ _ _ _ _ _ _ _ _ _ Hu0 Hu) as Hu1.
           do 4 eexists. split; [eapply (rx_bad _ _ _ _ EBADMSG); [exact Ep|left; split; [reflexivity|split; [exact Hl|split; [exact Ety|left; reflexivity]]]]|].
           split; [|exact Hv]. eapply Hdz; [exact Hu1|reflexivity].
    + cbn [give_up]. intros [= <- <-]. do 4 eexists.
      split; [eapply (rx_bad _ _ _ _ EINVAL []); [exact Ep|right; split; [left; discriminate|reflexivity]]|].
      split; [apply (Hdz v0 [] (tr v i)); [exact Hu0|reflexivity]|exact Hv].
  - cbn [give_up]. intros [= <- <-]. do 4 eexists.
    split; [eapply (rx_ub _ _ _ _ (UB u)); [exact Ep|discriminate|discriminate]|]. split; [exact Hu0|exact Hv].
  - cbn [give_up]. intros [= <- <-]. do 4 eexists.
    split; [eapply (rx_ub _ _ _ _ OutOfFuel); [exact Ep|discriminate|discriminate]|]. split; [exact Hu0|exact Hv].
Qed.

(** The timer of a transaction [t] has expired. *)
Inductive tm_run (t : trans) : trans -> list sobs -> res unit -> Prop :=
| tm_giveup : 4 <= t_retrans t ->
    tm_run t trans_zero [STimer (t_client t); SDestroy (t_client t)] (Ok tt)
| tm_noarm e : t_retrans t < 4 -> e <> ETIMEDOUT ->
    tm_run t (trans_double_timeout t)
      [STimer (t_client t); SArm (t_client t) (t_sec (trans_double_timeout t)) (t_nsec (trans_double_timeout t)) false] (Err e)
| tm_odd : t_retrans t < 4 ->
    tm_run t trans_zero
      [STimer (t_client t); SArm (t_client t) (t_sec (trans_double_timeout t)) (t_nsec (trans_double_timeout t)) false;
       SDestroy (t_client t)] (Ok tt)
| tm_again b now : t_retrans t < 4 -> msg_format (t_resp t) MAX_BUF_LEN = Ok b ->
    tm_run t (t_with_last_use (t_with_retrans (t_with_armed (trans_double_timeout t) true) (t_retrans t + 1)) now)
      [STimer (t_client t); SArm (t_client t) (t_sec (trans_double_timeout t)) (t_nsec (trans_double_timeout t)) true;
       SSend (t_client t) b true; SUse (t_client t) now] (Ok tt)
| tm_nosend b e : t_retrans t < 4 -> msg_format (t_resp t) MAX_BUF_LEN = Ok b ->
    tm_run t (t_with_retrans (t_with_armed (trans_double_timeout t) true) (t_retrans t + 1))
      [STimer (t_client t); SArm (t_client t) (t_sec (trans_double_timeout t)) (t_nsec (trans_double_timeout t)) true;
       SSend (t_client t) b false] (Err e)
| tm_nofmt : t_retrans t < 4 -> (forall b, msg_format (t_resp t) MAX_BUF_LEN <> Ok b) ->
    tm_run t (t_with_retrans (t_with_armed (trans_double_timeout t) true) (t_retrans t + 1))
      [STimer (t_client t); SArm (t_client t) (t_sec (trans_double_timeout t)) (t_nsec (trans_double_timeout t)) true]
      (let* _ := msg_format (t_resp t) MAX_BUF_LEN in Ok tt).

Lemma timeout_spec v i v' r :
  (i < length (v_tr v))%nat ->
  trans_handle_ack_timeout E (slog v (STimer (t_client (tr v i)))) i = (v', r) ->
  exists t' s, tm_run (tr v i) t' s r /\ up v i t' s (v_id v) (v_app v) v'.
Proof.
  intros Hi. pose proof (up_log v i (STimer (t_client (tr v i))) I) as Hu0.
  set (v0 := slog v _) in *. assert (Ht0 : tr v0 i = tr v i) by reflexivity.
  assert (Hi0 : (i < length (v_tr v0))%nat) by exact Hi.
  unfold trans_handle_ack_timeout, trans_update_ack_timer. rewrite Ht0. change MAX_RETRANSMIT with 4.
  destruct (N.leb_spec 4 (t_retrans (tr v i))) as [Hl|Hl].
  - intros [= <- <-]. pose proof (up_destroy v0 i) as Hd. rewrite Ht0 in Hd.
    pose proof (up_trans _ _ _ _ _ _ _ _ _ _ _ _ Hu0 Hd) as Hu. do 2 eexists. split; [apply tm_giveup; exact Hl|exact Hu].
  - pose proof (up_set v0 i (trans_double_timeout (tr v i))) as Hu1. set (v1 := set_tr v0 i _) in *.
    pose proof (up_trans _ _ _ _ _ _ _ _ _ _ _ _ Hu0 Hu1) as Hu2. cbn [List.app] in Hu2.
    assert (Hi1 : (i < length (v_tr v1))%nat) by (rewrite (up_len _ _ _ _ _ _ _ Hu2); exact Hi).
    destruct (trans_start_timer E v1 i) as [v2 r2] eqn:Es. apply up_start_timer in Es; [|exact Hi1].
    cbv zeta in Es. rewrite (up_tr _ _ _ _ _ _ _ Hi Hu2), (up_id _ _ _ _ _ _ _ Hu2), (up_app _ _ _ _ _ _ _ Hu2) in Es.
    destruct Es as [(-> & Hu3)|(e & -> & Hu3)]; pose proof (up_trans _ _ _ _ _ _ _ _ _ _ _ _ Hu2 Hu3) as Hu4; cbn [List.app] in Hu4.
    + rewrite (up_tr _ _ _ _ _ _ _ Hi Hu4).
      match goal with |- context [set_tr v2 i ?t] => set (t5 := t); pose proof (up_set v2 i t5) as Hu5; set (v3 := set_tr v2 i t5) in * end.
      rewrite (up_id _ _ _ _ _ _ _ Hu4), (up_app _ _ _ _ _ _ _ Hu4) in Hu5.
      pose proof (up_trans _ _ _ _ _ _ _ _ _ _ _ _ Hu4 Hu5) as Hu6. rewrite app_nil_r in Hu6.
      assert (Hi3 : (i < length (v_tr v3))%nat) by (rewrite (up_len _ _ _ _ _ _ _ Hu6); exact Hi).
      intro H. apply up_send in H; [|exact Hi3]. cbv zeta in H.
      rewrite (up_tr _ _ _ _ _ _ _ Hi Hu6), (up_id _ _ _ _ _ _ _ Hu6), (up_app _ _ _ _ _ _ _ Hu6) in H.
      change (t_resp t5) with (t_resp (tr v i)) in H.
      destruct H as [(b & now & Hb & -> & Hu)|[(b & e & Hb & -> & Hu)|(Hn & -> & ->)]].
      * pose proof (up_trans _ _ _ _ _ _ _ _ _ _ _ _ Hu6 Hu) as Hu7.
        do 2 eexists. split; [eapply tm_again; eassumption|exact Hu7].
      * pose proof (up_trans _ _ _ _ _ _ _ _ _ _ _ _ Hu6 Hu) as Hu7.
        do 2 eexists. split; [eapply tm_nosend; eassumption|exact Hu7].
      * do 2 eexists. split; [eapply tm_nofmt; eassumption|exact Hu6].
    + assert (De : e = ETIMEDOUT \/ e <> ETIMEDOUT) by (destruct e; (left; reflexivity) || (right; discriminate)).
      destruct De as [->|De].
      * intros [= <- <-]. pose proof (up_destroy v2 i) as Hd.
        rewrite (up_tr _ _ _ _ _ _ _ Hi Hu4), (up_id _ _ _ _ _ _ _ Hu4), (up_app _ _ _ _ _ _ _ Hu4) in Hd.
        pose proof (up_trans _ _ _ _ _ _ _ _ _ _ _ _ Hu4 Hd) as Hu. do 2 eexists. split; [eapply tm_odd; exact Hl|exact Hu].
      * intro H. assert (H' : (v2, Err e) = (v', r)) by (destruct e; try exact H; contradiction).
        injection H' as <- <-. do 2 eexists. split; [eapply tm_noarm; eassumption|exact Hu4].
Qed.

(** ** Steps of the server *)

Definition fresh_trans (c now : N) : trans :=
  mktrans true TRegular now false 0 0 0 c msg_create msg_create None 0 0 0 0 0 [] 0 None.

(** With [ub] false no undefined behaviour. *)
Definition fine (ub : bool) (r : res unit) : Prop :=
  ub = true \/ (exists x, r = Ok x) \/ exists e, r = Err e.

Inductive micro (ub : bool) (v : @srv A) : @srv A -> list sobs -> Prop :=
| mi_destroy i v' : (i < 8)%nat -> t_active (tr v i) = true ->
    up v i trans_zero [SDestroy (t_client (tr v i))] (v_id v) (v_app v) v' ->
    micro ub v v' [SDestroy (t_client (tr v i))]
| mi_create i c now v' : (i < 8)%nat -> t_active (tr v i) = false ->
    (forall j, (j < 8)%nat -> t_active (tr v j) = true -> t_client (tr v j) <> c) ->
    up v i (fresh_trans c now) [SCreate c; SUse c now] (v_id v) (v_app v) v' ->
    micro ub v v' [SCreate c; SUse c now]
| mi_none i v' : (i < 8)%nat -> t_active (tr v i) = false ->
    up v i trans_zero [] (v_id v) (v_app v) v' -> micro ub v v' []
| mi_rx i d t' s id' a' r v' : (i < 8)%nat -> t_active (tr v i) = true -> bytes_ok d -> lenN d <= 1152 -> id' <= 65535 ->
    rx_run (tr v i) (v_id v) (v_app v) d t' s id' a' r -> fine ub r -> up v i t' s id' a' v' -> micro ub v v' s
| mi_timer i t' s r v' : (i < 8)%nat -> t_active (tr v i) = true -> t_armed (tr v i) = true ->
    tm_run (tr v i) t' s r -> (ub = true \/ r = Ok tt) -> up v i t' s (v_id v) (v_app v) v' -> micro ub v v' s.

(** Several steps; if [ub], the last may be one after which the server stops. *)
Inductive micros (ub : bool) : @srv A -> @srv A -> list sobs -> Prop :=
| ms_nil v : micros ub v v []
| ms_cons v v1 v2 s1 s2 : micro false v v1 s1 -> micros ub v1 v2 s2 -> micros ub v v2 (s1 ++ s2)
| ms_last v v1 s : ub = true -> micro true v v1 s -> micros ub v v1 s.

Lemma micros_one v v' s ub : micro ub v v' s -> micros ub v v' s.
Proof. intro H. destruct ub; [apply ms_last; auto|]. rewrite <- (app_nil_r s). eapply ms_cons; [exact H|constructor]. Qed.
Lemma micros_trans ub v1 v2 v3 s1 s2 : micros false v1 v2 s1 -> micros ub v2 v3 s2 -> micros ub v1 v3 (s1 ++ s2).
Proof.
  intros H. revert v3 s2. induction H as [|v v1 v2 s1' s2' H1 H2 IH|]; intros v3 s3 H3; [exact H3| |discriminate].
  rewrite <- app_assoc. eapply ms_cons; [exact H1|]. apply IH. exact H3.
Qed.

Lemma micro_trace ub v v' s : micro ub v v' s -> v_trace v' = v_trace v ++ s.
Proof. intros []; eapply up_trace; eassumption. Qed.
Lemma micros_trace ub v v' s : micros ub v v' s -> v_trace v' = v_trace v ++ s.
Proof.
  induction 1 as [|v v1 v2 s1 s2 H1 H2 IH|v v1 s1 _ H1]; [symmetry; apply app_nil_r| |eapply micro_trace; exact H1].
  rewrite IH, (micro_trace _ _ _ _ H1), app_assoc. reflexivity.
Qed.

Lemma micro_stamped ub v v' s : micro ub v v' s -> (v_n v <= v_n v')%nat /\ Forall (stamped (v_n v) (v_n v')) s.
Proof. intros [? ? ? ? (n & L & -> & F)|? ? ? ? ? ? ? (n & L & -> & F)|? ? ? ? (n & L & -> & F)|? ? ? ? ? ? ? ? ? ? ? ? ? ? ? (n & L & -> & F)|? ? ? ? ? ? ? ? ? ? (n & L & -> & F)]; auto. Qed.
Lemma micros_stamped ub v v' s : micros ub v v' s -> (v_n v <= v_n v')%nat /\ Forall (stamped (v_n v) (v_n v')) s.
Proof.
  induction 1 as [|v v1 v2 s1 s2 H1 H2 [IH1 IH2]|v v1 s1 _ H1]; [split; [lia|constructor]| |eapply micro_stamped; exact H1].
  apply micro_stamped in H1 as [L F]. split; [lia|]. apply Forall_app. split.
  - apply (stamped_mono_all (v_n v) (v_n v1)); auto.
  - apply (stamped_mono_all (v_n v1) (v_n v2)); auto.
Qed.

(** Eight slots, no two for one client. *)
Record base (v : @srv A) : Prop := {
  ba_len : length (v_tr v) = 8%nat;
  ba_id : v_id v <= 65535;
  ba_uniq : forall i j, (i < 8)%nat -> (j < 8)%nat -> t_active (tr v i) = true -> t_active (tr v j) = true ->
            t_client (tr v i) = t_client (tr v j) -> i = j
}.

Lemma core_active t t' : core t' = core t -> t_active t' = t_active t.
Proof. intro H. injection H. auto. Qed.

Lemma sent_off_client t m rm t' s r : sent_off t m rm t' s r ->
  t' = trans_zero \/ (t_active t' = t_active t /\ t_client t' = t_client t).
Proof. intros []; auto. Qed.
Lemma req_run_client t id a m t' s id' a' r : req_run t id a m t' s id' a' r ->
  t' = trans_zero \/ (t_active t' = t_active t /\ t_client t' = t_client t).
Proof.
  intros [| |t1 s1 t2 s2 a2 r2 H1 H2 _ _|t1 s1 t2 s2 a2 resp s3 id2 i t3 s4 r3 H1 H2 H3 _ _ H4]; auto.
  - right. apply answered_fine in H2 as (H2 & _). rewrite (core_client _ _ H2), (core_active _ _ H2). destruct H1; auto.
  - apply answered_fine in H2 as (H2 & _). apply sent_off_client in H4.
    assert (t_active t2 = t_active t /\ t_client t2 = t_client t) as [E1 E2].
    { rewrite (core_client _ _ H2), (core_active _ _ H2). destruct H1; auto. }
    destruct H4 as [->|[-> ->]]; auto.
Qed.
Lemma msg_run_client t id a m t' s id' a' r : msg_run t id a m t' s id' a' r ->
  t' = trans_zero \/ (t_active t' = t_active t /\ t_client t' = t_client t).
Proof.
  intros []; auto.
  - destruct H3 as [(-> & _)|(-> & _)]; auto.
  - eapply req_run_client; eassumption.
Qed.
Lemma rx_run_client t id a d t' s id' a' r : rx_run t id a d t' s id' a' r ->
  t' = trans_zero \/ (t_active t' = t_active t /\ t_client t' = t_client t).
Proof. intros []; auto. apply msg_run_client in H1. exact H1. Qed.
Lemma tm_run_client t t' s r : tm_run t t' s r ->
  t' = trans_zero \/ (t_active t' = t_active t /\ t_client t' = t_client t).
Proof. intros []; auto. Qed.

Lemma up_other v i t s id a v' j : up v i t s id a v' -> i <> j -> tr v' j = tr v j.
Proof. intros (n & _ & -> & _) H. unfold tr. cbn [v_tr]. apply nth_set_nth_ne. exact H. Qed.

(** A slot is overwritten with an inactive transaction or with one of the same client. *)
Lemma up_base v i t s id a v' :
  base v -> (i < 8)%nat -> id <= 65535 -> up v i t s id a v' ->
  (t_active t = true -> forall j, (j < 8)%nat -> j <> i -> t_active (tr v j) = true -> t_client (tr v j) <> t_client t) ->
  base v'.
Proof.
  intros [Hl Hid Hq] Hi Hb Hu Ht.
  assert (Hti : tr v' i = t) by (eapply up_tr; [rewrite Hl; exact Hi|exact Hu]).
  split.
  - rewrite (up_len _ _ _ _ _ _ _ Hu). exact Hl.
  - rewrite (up_id _ _ _ _ _ _ _ Hu). exact Hb.
  - intros j k Hj Hk Aj Ak Hc. destruct (Nat.eq_dec j i) as [->|Hji], (Nat.eq_dec k i) as [->|Hki]; auto.
    + rewrite Hti in *. rewrite (up_other _ _ _ _ _ _ _ k Hu) in * by auto. exfalso. eapply (Ht Aj k); eauto.
    + rewrite Hti in *. rewrite (up_other _ _ _ _ _ _ _ j Hu) in * by auto. exfalso. eapply (Ht Ak j); eauto.
    + rewrite (up_other _ _ _ _ _ _ _ j Hu), (up_other _ _ _ _ _ _ _ k Hu) in * by auto. apply Hq; auto.
Qed.

Lemma micro_base ub v v' s : base v -> micro ub v v' s -> base v'.
Proof.
  intros Hb. pose proof Hb as [Hl Hid Hq].
  intros [i v2 Hi Ha Hu|i c now v2 Hi Ha Hn Hu|i v2 Hi Ha Hu|i d t' s' id' a' r v2 Hi Ha Hd Hdl Hid' Hr Hfi Hu|i t' s' r v2 Hi Ha Hm Hr Hfi Hu];
    (eapply up_base; [exact Hb|exact Hi| |exact Hu|]); auto; try discriminate.
  - apply rx_run_client in Hr as [->|[Ea Ec]]; [discriminate|]. intros _ j Hj Hji Aj. rewrite Ec. intro Hc. apply Hji.
    apply Hq; auto.
  - apply tm_run_client in Hr as [->|[Ea Ec]]; [discriminate|]. intros _ j Hj Hji Aj. rewrite Ec. intro Hc. apply Hji.
    apply Hq; auto.
Qed.
Lemma micros_base ub v v' s : base v -> micros ub v v' s -> base v'.
Proof. intros Hb H. induction H as [|v v1 v2 s1 s2 H1 H2 IH|v v1 s1 _ H1]; [exact Hb| |eapply micro_base; eassumption]. apply IH. eapply micro_base; eassumption. Qed.

Lemma base_init id a : id <= 65535 -> base (server_init id a).
Proof.
  intro H. split; [reflexivity|exact H|]. intros i j Hi Hj Ai. unfold tr, server_init in Ai. cbn [v_tr] in Ai.
  exfalso. replace (nth i (repeat trans_zero NUM_TRANS) trans_zero) with trans_zero in Ai; [discriminate|].
  symmetry. apply nth_repeat.
Qed.

(** ** Finding the transaction *)

Lemma find_trans_spec l i c :
  match find_trans l i c with
  | Some k => exists j, k = (i + j)%nat /\ (j < length l)%nat /\ t_active (nth j l trans_zero) = true /\ t_client (nth j l trans_zero) = c
  | None => forall j, (j < length l)%nat -> t_active (nth j l trans_zero) = true -> t_client (nth j l trans_zero) <> c
  end.
Proof.
  revert i. induction l as [|t l IH]; intro i; cbn [find_trans length].
  - intros j Hj. lia.
  - destruct (t_active t && (t_client t =? c)) eqn:Et.
    + apply andb_true_iff in Et as [Ea Ec]. apply N.eqb_eq in Ec. exists 0%nat. cbn [nth]. repeat split; auto; lia.
    + specialize (IH (S i)). destruct (find_trans l (S i) c) as [k|].
      * destruct IH as (j & -> & Hj & Ha & Hc). exists (S j). cbn [nth]. repeat split; auto; lia.
      * intros [|j] Hj; cbn [nth]; [|apply IH; lia]. intros Ha Hc. rewrite Ha, Hc, N.eqb_refl in Et. discriminate.
Qed.

Lemma find_empty_spec l i :
  match find_empty_trans l i with
  | Some k => exists j, k = (i + j)%nat /\ (j < length l)%nat /\ t_active (nth j l trans_zero) = false
  | None => forall j, (j < length l)%nat -> t_active (nth j l trans_zero) = true
  end.
Proof.
  revert i. induction l as [|t l IH]; intro i; cbn [find_empty_trans length].
  - intros j Hj. lia.
  - destruct (t_active t) eqn:Et; cbn [negb].
    + specialize (IH (S i)). destruct (find_empty_trans l (S i)) as [k|].
      * destruct IH as (j & -> & Hj & Ha). exists (S j). cbn [nth]. repeat split; auto; lia.
      * intros [|j] Hj; cbn [nth]; [exact Et|apply IH; lia].
    + exists 0%nat. cbn [nth]. repeat split; auto; lia.
Qed.

(** The index given is in range; if all are active and no time is 0 it is one with the least time. *)
Lemma find_oldest_range l i min old :
  (old < i + length l)%nat -> (find_oldest_trans l i min old < i + length l)%nat.
Proof.
  revert i min old. induction l as [|t l IH]; intros i min old H; cbn [find_oldest_trans length] in *; [exact H|].
  destruct (_ && _); (replace (i + S (length l))%nat with (S i + length l)%nat by lia; apply IH; lia).
Qed.

Lemma find_oldest_min l i min old full :
  skipn i full = l ->
  (forall j, (j < length full)%nat -> t_active (nth j full trans_zero) = true) ->
  (forall j, (j < length full)%nat -> t_last_use (nth j full trans_zero) <> 0) ->
  (i = 0%nat /\ min = 0 /\ old = 0%nat /\ l <> [] \/
   min = t_last_use (nth old full trans_zero) /\ (old < i)%nat /\ (i <= length full)%nat /\
   forall j, (j < i)%nat -> min <= t_last_use (nth j full trans_zero)) ->
  let k := find_oldest_trans l i min old in
  (k < length full)%nat /\ forall j, (j < length full)%nat -> t_last_use (nth k full trans_zero) <= t_last_use (nth j full trans_zero).
Proof.
  intros Hl Ha Hz. revert i min old Hl. induction l as [|t l IH]; intros i min old Hl Hinv; cbn [find_oldest_trans]; cbv zeta.
  - destruct Hinv as [(_ & _ & _ & C')|(Hm & Ho & Hi & Hmin)]; [contradiction|].
    assert (length full <= i)%nat. { assert (H := f_equal (@length _) Hl). rewrite skipn_length in H. cbn in H. lia. }
    split; [lia|]. intros j Hj. rewrite <- Hm. apply Hmin. lia.
  - assert (Hi : (i < length full)%nat). { assert (H := f_equal (@length _) Hl). rewrite skipn_length in H. cbn in H. lia. }
    assert (Ht : t = nth i full trans_zero).
    { rewrite <- (firstn_skipn i full) at 1. rewrite app_nth2; rewrite firstn_length_le by lia; [|lia].
      rewrite Nat.sub_diag, Hl. reflexivity. }
    assert (Hl' : skipn (S i) full = l).
    { clear - Hl. revert full Hl. induction i as [|i IHi]; intros [|x full] Hl; cbn in *; try discriminate; [congruence|apply IHi; exact Hl]. }
    rewrite Ht. rewrite (Ha i Hi). cbn [andb].
    assert (Hold : min = 0 -> i = 0%nat).
    { intro Hm. destruct Hinv as [(-> & _)|(Hm' & Ho & _)]; [reflexivity|]. exfalso. apply (Hz old); [lia|congruence]. }
    destruct (N.eqb_spec min 0) as [Em|Em]; cbn [orb].
    + pose proof (Hold Em) as ->. apply IH; [exact Hl'|]. right. split; [reflexivity|]. split; [lia|]. split; [lia|].
      intros j Hj. replace j with 0%nat by lia. lia.
    + destruct Hinv as [(_ & Hm0 & _)|(Hm & Ho & Hi' & Hmin)]; [contradiction|].
      destruct (N.ltb_spec (t_last_use (nth i full trans_zero)) min) as [Hlt|Hge].
      * apply IH; [exact Hl'|]. right. split; [reflexivity|]. split; [lia|]. split; [lia|].
        intros j Hj. destruct (Nat.eq_dec j i) as [->|Hne]; [lia|]. specialize (Hmin j ltac:(lia)). lia.
      * apply IH; [exact Hl'|]. right. split; [exact Hm|]. split; [lia|]. split; [lia|].
        intros j Hj. destruct (Nat.eq_dec j i) as [->|Hne]; [exact Hge|]. apply Hmin. lia.
Qed.

Lemma create_spec v i c v' r :
  trans_create E v i c = (v', r) ->
  (exists now, r = Ok tt /\ up v i (fresh_trans c now) [SCreate c; SUse c now] (v_id v) (v_app v) v') \/
  (exists e, r = Err e /\ up v i trans_zero [] (v_id v) (v_app v) v').
Proof.
  unfold trans_create. cbv zeta. cbn [tick v_n]. destruct (se_create E (S (v_n v))) as [e|]; intros [= <- <-].
  - right. exists e. split; [reflexivity|]. exists (S (S (v_n v))). split; [lia|]. split; [|constructor].
    unfold set_tr. cbn. rewrite app_nil_r. reflexivity.
  - left. exists (se_time E (v_n v)). split; [reflexivity|]. exists (S (S (v_n v))). split; [lia|].
    split; [reflexivity|]. constructor; [exact I|]. constructor; [|constructor]. exists (v_n v). split; [lia|reflexivity].
Qed.

(** What [get_trans] does: find, create in an empty slot, or replace. *)
Inductive got (v : @srv A) (c : N) : @srv A -> list sobs -> option nat -> Prop :=
| got_old i : (i < 8)%nat -> t_active (tr v i) = true -> t_client (tr v i) = c -> got v c v [] (Some i)
| got_new i now v1 :
    (i < 8)%nat -> t_active (tr v i) = false ->
    (forall j, (j < 8)%nat -> t_active (tr v j) = true -> t_client (tr v j) <> c) ->
    up v i (fresh_trans c now) [SCreate c; SUse c now] (v_id v) (v_app v) v1 ->
    got v c v1 [SCreate c; SUse c now] (Some i)
| got_none i v1 :
    (i < 8)%nat -> t_active (tr v i) = false ->
    (forall j, (j < 8)%nat -> t_active (tr v j) = true -> t_client (tr v j) <> c) ->
    up v i trans_zero [] (v_id v) (v_app v) v1 -> got v c v1 [] None
| got_evict v0 v1 s oi :
    let i := find_oldest_trans (v_tr v) 0 0 0 in
    (i < 8)%nat ->
    (forall j, (j < 8)%nat -> t_active (tr v j) = true) ->
    (forall j, (j < 8)%nat -> t_client (tr v j) <> c) ->
    up v i trans_zero [SDestroy (t_client (tr v i))] (v_id v) (v_app v) v0 ->
    (oi = Some i /\ (exists now, s = [SCreate c; SUse c now] /\
                     up v0 i (fresh_trans c now) [SCreate c; SUse c now] (v_id v0) (v_app v0) v1) \/
     oi = None /\ s = [] /\ up v0 i trans_zero [] (v_id v0) (v_app v0) v1) ->
    got v c v1 (SDestroy (t_client (tr v i)) :: s) oi.

Lemma get_trans_spec v c v' r :
  base v -> get_trans E v c = (v', r) ->
  exists s oi, got v c v' s oi /\ match oi with Some i => r = Ok i | None => exists e, r = Err e end.
Proof.
  intros [Hl Hid Hq]. unfold get_trans. pose proof (find_trans_spec (v_tr v) 0 c) as Hf.
  destruct (find_trans (v_tr v) 0 c) as [i|].
  { destruct Hf as (j & -> & Hj & Ha & Hc). intros [= <- <-]. rewrite Hl in Hj.
    exists [], (Some j). split; [apply got_old; assumption|reflexivity]. }
  rewrite Hl in Hf. pose proof (find_empty_spec (v_tr v) 0) as He.
  destruct (find_empty_trans (v_tr v) 0) as [i|].
  - destruct He as (j & -> & Hj & Ha). rewrite Hl in Hj. cbn [Nat.add].
    destruct (trans_create E v j c) as [v1 r1] eqn:Ec. apply create_spec in Ec.
    intros [= <- <-]. destruct Ec as [(now & -> & Hu)|(e & -> & Hu)].
    + exists [SCreate c; SUse c now], (Some j). split; [eapply got_new; eauto|reflexivity].
    + exists [], None. split; [eapply got_none; eauto|eexists; reflexivity].
  - rewrite Hl in He. set (i := find_oldest_trans (v_tr v) 0 0 0).
    assert (Hi : (i < 8)%nat).
    { unfold i. pose proof (find_oldest_range (v_tr v) 0 0 0) as H. rewrite Hl in H. apply H. lia. }
    pose proof (up_destroy v i) as Hu0. set (v0 := trans_destroy v i) in *.
    destruct (trans_create E v0 i c) as [v1 r1] eqn:Ec. apply create_spec in Ec.
    intros [= <- <-]. destruct Ec as [(now & -> & Hu)|(e & -> & Hu)].
    + eexists. exists (Some i). split; [|reflexivity]. eapply (got_evict v c v0 v1); [exact Hi|exact He| |exact Hu0|left; eauto].
      intros j Hj. apply Hf; auto.
    + eexists. exists None. split; [|eexists; reflexivity]. eapply (got_evict v c v0 v1); [exact Hi|exact He| |exact Hu0|right; eauto].
      intros j Hj. apply Hf; auto.
Qed.

Lemma got_micros v c v' s oi : base v -> got v c v' s oi -> micros false v v' s.
Proof.
  intros Hb. pose proof Hb as [Hl Hid Hq].
  intros [i Hi Ha Hc|i now v1 Hi Ha Hn Hu|i v1 Hi Ha Hn Hu|v0 v1 s' oi' i Hi Ha Hn Hu0 Hr].
  - constructor.
  - apply micros_one. eapply mi_create; eassumption.
  - apply micros_one. eapply mi_none; eassumption.
  - change (SDestroy (t_client (tr v i)) :: s') with ([SDestroy (t_client (tr v i))] ++ s').
    assert (Ht0 : tr v0 i = trans_zero) by (eapply up_tr; [rewrite Hl; exact Hi|exact Hu0]).
    eapply ms_cons; [apply mi_destroy; [exact Hi|apply Ha; exact Hi|exact Hu0]|].
    destruct Hr as [(_ & now & -> & Hu)|(_ & -> & Hu)]; apply micros_one.
    + eapply mi_create; [exact Hi|rewrite Ht0; reflexivity| |exact Hu].
      intros j Hj Aj. destruct (Nat.eq_dec i j) as [<-|Hij]; [rewrite Ht0 in Aj; discriminate|].
      rewrite (up_other _ _ _ _ _ _ _ j Hu0) by exact Hij. apply Hn. exact Hj.
    + eapply mi_none; [exact Hi|rewrite Ht0; reflexivity|exact Hu].
Qed.

Lemma got_slot v c v' s i : base v -> got v c v' s (Some i) ->
  (i < 8)%nat /\ t_active (tr v' i) = true /\ t_client (tr v' i) = c /\
  (tr v' i = tr v i /\ v' = v /\ s = [] \/ exists now, tr v' i = fresh_trans c now) /\ v_app v' = v_app v /\ v_id v' = v_id v.
Proof.
  intros [Hl Hid Hq] H. inversion H as [i' Hi Ha Hc|i' now v1 Hi Ha Hn Hu| |v0 v1 s' oi' i' Hi Ha Hn Hu0 Hr]; subst.
  - repeat split; auto.
  - assert (Ht : tr v' i = fresh_trans c now) by (eapply up_tr; [rewrite Hl; exact Hi|exact Hu]).
    rewrite Ht. repeat split; auto; [right; eauto|eapply up_app; exact Hu|eapply up_id; exact Hu].
  - destruct Hr as [(Ho & now & -> & Hu)|(Ho & _)]; [|discriminate]. injection Ho as ->.
    assert (Ht : tr v' i' = fresh_trans c now).
    { eapply up_tr; [rewrite (up_len _ _ _ _ _ _ _ Hu0), Hl; exact Hi|exact Hu]. }
    change i' with (find_oldest_trans (v_tr v) 0 0 0) in *.
    rewrite Ht. repeat split; auto; [right; eauto| |].
    + rewrite (up_app _ _ _ _ _ _ _ Hu). eapply up_app; exact Hu0.
    + rewrite (up_id _ _ _ _ _ _ _ Hu). eapply up_id; exact Hu0.
Qed.

(** ** Whole steps *)

(** A datagram arrives. *)
Inductive rx_step (v : @srv A) (c : N) (b : list N) (fail : option errno) : @srv A -> list sobs -> option (res unit) -> Prop :=
| rs_nocreate v1 s1 : got v c v1 s1 None -> rx_step v c b fail v1 s1 None
| rs_again v1 s1 i : got v c v1 s1 (Some i) -> fail = Some EAGAIN -> rx_step v c b fail v1 s1 None
| rs_norecv v1 s1 i v2 : got v c v1 s1 (Some i) -> fail <> None ->
    up v1 i trans_zero [SDestroy c] (v_id v1) (v_app v1) v2 ->
    rx_step v c b fail v2 (s1 ++ [SDestroy c]) None
| rs_recv v1 s1 i t' s2 id' a' r v2 : got v c v1 s1 (Some i) -> fail = None -> id' <= 65535 ->
    rx_run (tr v1 i) (v_id v1) (v_app v1) (rx_cut b) t' s2 id' a' r ->
    up v1 i t' s2 id' a' v2 ->
    rx_step v c b fail v2 (s1 ++ s2) (match r with UB u => Some (UB u) | OutOfFuel => Some OutOfFuel | _ => None end).

Lemma step_rx v c b fail v' r :
  base v -> bytes_ok b -> server_step P E C v (EvRx c b fail) = (v', r) ->
  exists s, rx_step v c b fail v' s r.
Proof.
  intros Hb Hbs. cbn [server_step]. unfold server_exchange.
  destruct (get_trans E v c) as [v1 r1] eqn:Eg.
  apply get_trans_spec in Eg as (s1 & oi & Hg & Hr); [|exact Hb].
  pose proof (micros_base false _ _ _ Hb (got_micros _ _ _ _ _ Hb Hg)) as Hb1.
  destruct oi as [i|].
  2: { destruct Hr as [e ->]. intros [= <- <-]. exists s1. apply rs_nocreate. exact Hg. }
  subst r1. destruct (got_slot _ _ _ _ _ Hb Hg) as (Hi & Ha & Hc & _).
  assert (Hi1 : (i < length (v_tr v1))%nat) by (rewrite (ba_len _ Hb1); exact Hi).
  destruct fail as [e|].
  - cbn [trans_recv].
    assert (Hg2 : e <> EAGAIN -> exists s, rx_step v c b (Some e) (trans_destroy v1 i) s None).
    { intros _. eexists. eapply rs_norecv; [exact Hg|discriminate|]. rewrite <- Hc. apply up_destroy. }
    destruct e; cbn [give_up]; intros [= <- <-]; try (apply Hg2; discriminate).
    eexists. eapply rs_again; [exact Hg|reflexivity].
  - match goal with |- context [let (v, r) := ?x in _] => destruct x as [v2 r2] eqn:Ex end.
    apply exchange_rx in Ex as (t' & s & id' & a' & Hx & Hu & Hid); auto; [|apply Hb1].
    intros [= <- <-]. eexists. eapply rs_recv; [exact Hg|reflexivity|exact Hid|exact Hx|exact Hu].
Qed.

Lemma rx_step_micros v c b fail v' s r :
  base v -> bytes_ok b -> rx_step v c b fail v' s r ->
  micros (match r with None => false | _ => true end) v v' s.
Proof.
  intros Hb Hbs [v1 s1 Hg|v1 s1 i Hg _|v1 s1 i v2 Hg _ Hu|v1 s1 i t' s2 id' a' r' v2 Hg _ Hid Hx Hu].
  - eapply got_micros; eassumption.
  - eapply got_micros; eassumption.
  - destruct (got_slot _ _ _ _ _ Hb Hg) as (Hi & Ha & Hc & _).
    eapply micros_trans; [eapply got_micros; eassumption|]. apply micros_one. rewrite <- Hc in *.
    apply mi_destroy; assumption.
  - destruct (got_slot _ _ _ _ _ Hb Hg) as (Hi & Ha & Hc & _).
    eapply micros_trans; [eapply got_micros; eassumption|]. apply micros_one.
    apply (mi_rx _ v1 i (rx_cut b) t' s2 id' a' r' v2); try assumption; [apply rx_cut_bytes; exact Hbs|apply rx_cut_len|].
    destruct r'; [right; left|right; right|left|left]; eauto.
Qed.

Lemma timers_micros l v i v' r :
  base v -> (i + length l <= 8)%nat -> server_timers E v i l = (v', r) ->
  exists s, micros (match r with Ok _ => false | _ => true end) v v' s.
Proof.
  revert v i. induction l as [|x l IH]; intros v i Hb Hi; cbn [server_timers length] in *.
  - intros [= <- <-]. exists []. constructor.
  - destruct x; cbn [andb]; [|intro H; eapply IH; [exact Hb| |exact H]; lia].
    destruct (t_active (tr v i)) eqn:Ea; cbn [andb]; [|intro H; eapply IH; [exact Hb| |exact H]; lia].
    destruct (t_armed (tr v i)) eqn:Er; [|intro H; eapply IH; [exact Hb| |exact H]; lia].
    destruct (trans_handle_ack_timeout E _ i) as [v1 r1] eqn:Et.
    apply timeout_spec in Et as (t' & s & Hm & Hu); [|rewrite (ba_len _ Hb); lia].
    destruct r1 as [[]|e|u|]; [|intros [= <- <-]; exists s; apply micros_one; (eapply mi_timer; try eassumption; try lia; left; reflexivity)..].
    assert (Hmi : forall ub, micro ub v v1 s) by (intro ub; eapply mi_timer; try eassumption; try lia; right; reflexivity).
    intro H. eapply IH in H as (s2 & Hs2); [|eapply (micro_base true); eauto|lia].
    exists (s ++ s2). eapply ms_cons; [apply Hmi|exact Hs2].
Qed.

Lemma step_micros v e v' r :
  base v -> sev_ok e -> server_step P E C v e = (v', r) ->
  exists s, micros (match r with None => false | _ => true end) v v' s.
Proof.
  intros Hb He. destruct e as [e|e|c b fail|l].
  - intros [= <- <-]. exists []. constructor.
  - intros [= <- <-]. exists []. constructor.
  - intro H. apply step_rx in H as [s H]; auto. exists s. eapply rx_step_micros; eassumption.
  - cbn [server_step]. destruct (server_timers E v 0 (firstn NUM_TRANS l)) as [v1 r1] eqn:Et.
    intros [= <- <-]. eapply timers_micros in Et; [destruct r1; exact Et|exact Hb|].
    cbn [Nat.add]. rewrite firstn_length. unfold NUM_TRANS. lia.
Qed.

Lemma run_micros evs v v' r :
  base v -> Forall sev_ok evs -> server_run P E C v evs = (v', r) ->
  exists s, micros (match r with None => false | _ => true end) v v' s.
Proof.
  revert v. induction evs as [|e evs IH]; intros v Hb He; cbn [server_run].
  - intros [= <- <-]. exists []. constructor.
  - inversion He; subst. destruct (server_step P E C v e) as [v1 r1] eqn:Es.
    apply step_micros in Es as [s Hs]; auto. destruct r1.
    + intros [= <- <-]. eauto.
    + intro H. apply IH in H as [s2 Hs2]; auto; [|eapply micros_base; eassumption].
      exists (s ++ s2). eapply micros_trans; [exact Hs|exact Hs2].
Qed.

(** An invariant of micro steps is one of every run. *)
Lemma micros_inv ub (Inv : @srv A -> Prop) v v' s :
  (forall v v' s, base v -> Inv v -> micro false v v' s -> Inv v') ->
  (ub = true -> forall v v' s, base v -> Inv v -> micro true v v' s -> Inv v') ->
  base v -> Inv v -> micros ub v v' s -> base v' /\ Inv v'.
Proof.
  intros Hs Hs2 Hb H0 Hm. revert Hb H0. induction Hm as [|v v1 v2 s1 s2 H1 H2 IH|v v1 s1 Hu H1]; intros Hb H0; [auto| |].
  - apply IH; [eapply micro_base; eassumption|eapply Hs; eassumption].
  - split; [eapply micro_base; eassumption|eapply Hs2; eassumption].
Qed.

Lemma run_inv (Inv : @srv A -> Prop) id a evs v r :
  Inv (server_init id a) ->
  (forall ub v v' s, base v -> Inv v -> micro ub v v' s -> Inv v') ->
  id <= 65535 -> Forall sev_ok evs ->
  server_run P E C (server_init id a) evs = (v, r) -> base v /\ Inv v.
Proof.
  intros H0 Hs Hid He H. apply run_micros in H as [s Hm]; [|apply base_init; exact Hid|exact He].
  eapply micros_inv in Hm; eauto. apply base_init. exact Hid.
Qed.

Lemma micro_ub v v' s : micro false v v' s -> micro true v v' s.
Proof.
  intros [i v2 Hi Ha Hu|i c now v2 Hi Ha Hn Hu|i v2 Hi Ha Hu|i d t' s' id' a' r v2 Hi Ha Hd Hdl Hid' Hr Hfi Hu|i t' s' r v2 Hi Ha Hm Hr Hfi Hu].
  - eapply mi_destroy; eassumption.
  - eapply mi_create; eassumption.
  - eapply mi_none; eassumption.
  - eapply mi_rx; try eassumption. left. reflexivity.
  - eapply mi_timer; try eassumption. left. reflexivity.
Qed.

(** Where an observation comes from. *)
Lemma micros_locate ub (Inv : @srv A -> Prop) v v' s :
  (forall v v' s, base v -> Inv v -> micro false v v' s -> Inv v') ->
  base v -> Inv v -> micros ub v v' s ->
  forall x o y, s = x ++ o :: y ->
  exists v1 v2 s1 x1 y1 y2, base v1 /\ Inv v1 /\ micros false v v1 s1 /\ micro true v1 v2 (x1 ++ o :: y1) /\
    x = s1 ++ x1 /\ y = y1 ++ y2.
Proof.
  intros Hs Hb H0 Hm. revert Hb H0. induction Hm as [v|v v1 v2 s1 s2 H1 H2 IH|v v1 s1 Hu H1]; intros Hb H0 x o y Ex.
  - destruct x; discriminate.
  - destruct (app_eq_app _ _ _ _ Ex) as (l & [[E1 E2]|[E1 E2]]).
    + destruct l as [|o' l].
      * rewrite app_nil_r in E1. cbn in E2. specialize (IH (micro_base _ _ _ _ Hb H1) (Hs _ _ _ Hb H0 H1) [] o y (eq_sym E2)).
        destruct IH as (v3 & v4 & s3 & x1 & y1 & y2 & B & I & M & Mi & Ex1 & Ey1).
        exists v3, v4, (s1 ++ s3), x1, y1, y2. do 2 (split; [assumption|]). split; [|split; [exact Mi|split; [|exact Ey1]]].
        -- eapply ms_cons; eassumption.
        -- rewrite <- app_assoc, <- Ex1, app_nil_r. symmetry. exact E1.
      * cbn in E2. injection E2 as -> ->. exists v, v1, [], x, l, s2. do 2 (split; [assumption|]). split; [constructor|]. split; [|auto].
        rewrite <- E1. apply micro_ub. exact H1.
    + specialize (IH (micro_base _ _ _ _ Hb H1) (Hs _ _ _ Hb H0 H1) l o y E2).
      destruct IH as (v3 & v4 & s3 & x1 & y1 & y2 & B & I & M & Mi & Ex1 & Ey1).
      exists v3, v4, (s1 ++ s3), x1, y1, y2. do 2 (split; [assumption|]). split; [|split; [exact Mi|split; [|exact Ey1]]].
      * eapply ms_cons; eassumption.
      * rewrite <- app_assoc, <- Ex1. exact E1.
  - subst s1. exists v, v1, [], x, y, []. do 2 (split; [assumption|]). split; [constructor|]. split; [exact H1|]. split; [reflexivity|]. symmetry; apply app_nil_r.
Qed.

End App.
