(** Lemmas on the registration server: the state of an application that changes when a
    request is handled only is what the requests handled make of it. *)
From Verif Require Import Base BaseLemmas MsgModel MsgSpec MsgFormatLemmas TableModel TableSpec TableLemmas ClientModel ClientLemmas ServerModel ServerSpec ServerPropLemmas
  ServerBlockSpec ServerBlockLemmas SampleModel RegModel RegSpec.

Lemma handled_app l1 l2 : handled (l1 ++ l2) = handled l1 ++ handled l2.
Proof. induction l1 as [|[] l1 IH]; cbn; rewrite ?IH; reflexivity. Qed.

Section Follow.
Context {A : Type} (P : app A) (f : A -> N * msg -> A).
Context (Hh : forall a c m, fst (ap_handle P a c m) = f a (c, m)).
Context (Hrx : forall rx a buf e m, fst (ap_rx P rx a buf e m) = a).
Context (E : senv) (C : scfg).
Implicit Types (v : @srv A).

Definition pv v := (handled (v_trace v), v_app v).
Definition follows v v' : Prop :=
  exists l, handled (v_trace v') = handled (v_trace v) ++ l /\ v_app v' = fold_left f l (v_app v).

Lemma follows_refl v : follows v v.
Proof. exists []. rewrite app_nil_r. auto. Qed.
Lemma follows_trans v1 v2 v3 : follows v1 v2 -> follows v2 v3 -> follows v1 v3.
Proof.
  intros (l1 & H1 & H2) (l2 & H3 & H4). exists (l1 ++ l2). rewrite H3, H1, app_assoc. split; [reflexivity|].
  rewrite H4, H2, fold_left_app. reflexivity.
Qed.
Lemma pv_follows v v' : pv v' = pv v -> follows v v'.
Proof. intro H. injection H as H1 H2. exists []. rewrite H1, H2, app_nil_r. auto. Qed.
Lemma follows_pv v1 v v2 : pv v = pv v1 -> follows v v2 -> follows v1 v2.
Proof. intros H. apply follows_trans, pv_follows, H. Qed.

Lemma pv_slog v o : handled [o] = [] -> pv (slog v o) = pv v.
Proof. intro H. unfold pv. cbn [slog v_trace v_app]. rewrite handled_app, H, app_nil_r. reflexivity. Qed.
Lemma pv_slogs v l : handled l = [] -> pv (slogs v l) = pv v.
Proof. intro H. unfold pv. cbn [slogs v_trace v_app]. rewrite handled_app, H, app_nil_r. reflexivity. Qed.
Lemma pv_tick v : pv (tick v) = pv v. Proof. reflexivity. Qed.
Lemma pv_set_tr v i t : pv (set_tr v i t) = pv v. Proof. reflexivity. Qed.
Lemma pv_set_id v i : pv (set_id v i) = pv v. Proof. reflexivity. Qed.

Ltac pvs := repeat first [rewrite pv_slog by reflexivity | rewrite pv_slogs by reflexivity | rewrite pv_tick | rewrite pv_set_tr | rewrite pv_set_id].

Lemma pv_destroy v i : pv (trans_destroy v i) = pv v.
Proof. unfold trans_destroy. pvs. reflexivity. Qed.
Lemma pv_touch v i : pv (touch E v i) = pv v.
Proof. unfold touch. pvs. reflexivity. Qed.
Lemma pv_start_timer v i : pv (fst (trans_start_timer E v i)) = pv v.
Proof. unfold trans_start_timer. destruct (se_set E (v_n v)); cbn [fst]; pvs; reflexivity. Qed.
Lemma pv_stop_timer v i : pv (fst (trans_stop_timer E v i)) = pv v.
Proof. unfold trans_stop_timer. destruct (se_set E (v_n v)); cbn [fst]; pvs; reflexivity. Qed.
Lemma pv_start_ack v i : pv (fst (trans_start_ack_timer E v i)) = pv v.
Proof. unfold trans_start_ack_timer. rewrite pv_start_timer. pvs. reflexivity. Qed.
Lemma pv_stop_ack v i : pv (fst (trans_stop_ack_timer E v i)) = pv v.
Proof. unfold trans_stop_ack_timer. rewrite pv_stop_timer. pvs. reflexivity. Qed.
Lemma pv_update v i : pv (fst (trans_update_ack_timer E v i)) = pv v.
Proof.
  unfold trans_update_ack_timer. destruct (_ <=? _); [reflexivity|].
  pose proof (pv_start_timer (set_tr v i (trans_double_timeout (tr v i))) i) as H.
  destruct (trans_start_timer _ _ _) as [v1 r]. cbn [fst] in H. destruct r; cbn [fst]; pvs; rewrite H; pvs; reflexivity.
Qed.
Lemma pv_send v i m : pv (fst (trans_send E v i m)) = pv v.
Proof.
  unfold trans_send. destruct (msg_format m MAX_BUF_LEN); try reflexivity.
  destruct (se_send E (v_n v)); cbn [fst]; rewrite ?pv_touch; pvs; reflexivity.
Qed.
Lemma pv_send_empty v i ty id : pv (fst (trans_send_empty E v i ty id)) = pv v.
Proof. unfold trans_send_empty. destruct (empty_msg ty id); try reflexivity. apply pv_send. Qed.
Lemma pv_format_error v i p len : pv (fst (trans_handle_format_error E v i p len)) = pv v.
Proof.
  unfold trans_handle_format_error. destruct (parse_type_msg_id p len) as [[t id]| | |]; try reflexivity.
  destruct (t =? T_CON); [|reflexivity]. pose proof (pv_send_empty v i T_RST id) as H.
  destruct (trans_send_empty _ _ _ _ _). exact H.
Qed.
Lemma pv_recv v i b fl : pv (fst (trans_recv E C v i b fl)) = pv v.
Proof.
  unfold trans_recv. destruct fl; [reflexivity|].
  destruct (msg_parse _ _ _) as [m|e| |]; cbn [fst]; rewrite ?pv_touch; pvs; try reflexivity.
  destruct e; cbn [fst]; pvs; try reflexivity.
  match goal with |- context [trans_handle_format_error E ?v ?i ?p ?l] => pose proof (pv_format_error v i p l) as H; destruct (trans_handle_format_error E v i p l) as [v1 r] end.
  cbn [fst] in *. rewrite H. pvs. reflexivity.
Qed.
Lemma pv_reject v i m : pv (fst (trans_reject E v i m)) = pv v.
Proof. unfold trans_reject. destruct (_ =? _); [apply pv_send_empty|reflexivity]. Qed.
Lemma pv_give_up {B} v i (r : res B) : pv (fst (give_up v i r)) = pv v.
Proof. destruct r; cbn [give_up fst]; rewrite ?pv_destroy; reflexivity. Qed.
Lemma pv_timeout v i : pv (fst (trans_handle_ack_timeout E v i)) = pv v.
Proof.
  unfold trans_handle_ack_timeout. pose proof (pv_update v i) as H. destruct (trans_update_ack_timer E v i) as [v1 r]. cbn [fst] in H.
  destruct r as [|e| |]; try exact H; [rewrite pv_send; exact H|]. destruct e; cbn [fst]; rewrite ?pv_destroy; exact H.
Qed.
Lemma pv_create v i c : pv (fst (trans_create E v i c)) = pv v.
Proof. unfold trans_create. destruct (se_create E _); cbn [fst]; pvs; reflexivity. Qed.
Lemma pv_next_id v : pv (fst (next_msg_id E v)) = pv v.
Proof. unfold next_msg_id. cbv zeta. destruct (_ <? _); cbn [fst]; pvs; reflexivity. Qed.
Lemma pv_get_trans v c : pv (fst (get_trans E v c)) = pv v.
Proof.
  unfold get_trans. destruct (find_trans _ _ _); [reflexivity|].
  destruct (find_empty_trans _ _).
  - pose proof (pv_create v n c) as H. destruct (trans_create _ _ _ _). exact H.
  - cbv zeta. match goal with |- context [trans_create E ?v ?i ?c] => pose proof (pv_create v i c) as H; destruct (trans_create E v i c) end.
    cbn [fst] in *. rewrite H. apply pv_destroy.
Qed.
Lemma pv_dup v i m : pv (fst (exchange_dup E C v i m)) = pv v.
Proof.
  unfold exchange_dup. destruct (_ =? _); [|reflexivity]. destruct (get_resp_type C m) as [[]| | |]; try apply pv_give_up.
  - unfold trans_send_ack. pose proof (pv_send_empty v i T_ACK (m_id m)) as H. destruct (trans_send_empty _ _ _ _ _) as [v1 r]. cbn [fst] in H.
    destruct r; try exact H; rewrite pv_give_up; exact H.
  - pose proof (pv_send v i (t_resp (tr v i))) as H. destruct (trans_send _ _ _ _) as [v1 r]. cbn [fst] in H.
    destruct r; cbn [fst]; rewrite ?pv_destroy; exact H.
Qed.

(** What a block does to the application. *)
Definition did (a : A) (x : A * list sobs * (trans * msg * res unit)) : Prop :=
  fst (fst x) = a /\ handled (snd (fst x)) = [].

Lemma did_block1 a t b1 uri req resp : did a (nb_block1 P a t b1 uri req resp).
Proof.
  unfold nb_block1. cbv zeta.
  repeat match goal with
  | |- did a (a, [], _) => split; reflexivity
  | |- did _ (match ?x with _ => _ end) =>
      lazymatch x with
      | ap_rx _ _ _ _ _ _ => fail
      | _ => destruct x
      end
  end.
  match goal with |- did _ (let (_, _) := ?x in _) => generalize (Hrx n a a3 (t_end (t_with_block t (t_type t) (Some a3)
    (add64 (t_end t) (lenN (m_payload req) mod two32)) (t_size1 t) (t_size2 t) (add64 (t_next1 t) (lenN (m_payload req) mod two32))
    (t_next2 t) (t_uri t) (t_detail t) (t_rx t))) req); destruct x as [y [e|s bd e]] end; cbn [fst]; intros ->; [split; reflexivity|].
  destruct (negb _); [split; reflexivity|]. destruct (_ <? _); split; reflexivity.
Qed.
Lemma did_next a t req resp : did a (next_block P a t req resp).
Proof.
  unfold next_block. destruct (t_type t); try (split; reflexivity); destruct (nb_start t req resp) as [?|[[[? ?] ?] ?]]; try (split; reflexivity); apply did_block1.
Qed.
Lemma did_blockwise Cc lg a t req resp s1 s2 b bl rx : did a (handle_blockwise P Cc lg a t req resp s1 s2 b bl rx).
Proof.
  unfold handle_blockwise. cbv zeta.
  destruct ((0 <? s1) && _); [split; reflexivity|]. destruct ((0 <? s2) && _); [split; reflexivity|]. destruct (_ <? _); [split; reflexivity|].
  destruct (negb lg); [split; reflexivity|]. destruct (_ =? _).
  - destruct (let* src := rdn b bl in _); try (split; reflexivity). destruct (path_buf _ _); try (split; reflexivity).
  - destruct (_ || _); [|split; reflexivity]. destruct rx; [|split; reflexivity]. destruct (path_buf _ _); try (split; reflexivity). apply did_next.
Qed.

Lemma follows_back v i a l t : a = v_app v /\ handled l = [] -> follows v (set_tr (set_app (slogs v l) a) i t).
Proof. intros [-> H]. exists []. cbn [set_tr set_app slogs v_trace v_app]. rewrite handled_app, H. auto. Qed.

Lemma follows_answer v i m : follows v (fst (exchange_answer P E C v i m)).
Proof.
  unfold exchange_answer. cbv zeta. destruct (negb _); [apply follows_refl|].
  destruct (negb (is_type _ _)).
  - pose proof (did_next (v_app v) (tr v i) m msg_create) as H. destruct (next_block _ _ _ _ _) as [[a l] [[t resp] r]]. cbn [fst].
    apply follows_back. exact H.
  - set (v0 := slog v _). generalize (Hh (v_app v0) (t_client (tr v i)) m). destruct (ap_handle P (v_app v0) (t_client (tr v i)) m) as [a1 h].
    cbn [fst]. intros Ha.
    assert (H0 : follows v (set_app v0 a1)).
    { exists [(t_client (tr v i), m)]. unfold v0. cbn [set_app slog v_trace v_app]. rewrite handled_app. split; [reflexivity|exact Ha]. }
    clearbody v0. destruct h as [e|l|l s1 s2 body bl rx]; cbn [fst]; try exact H0.
    eapply follows_trans; [exact H0|]. set (v1 := set_app v0 a1) in *. clearbody v1.
    match goal with |- context [handle_blockwise P C ?lg ?a ?t m ?r s1 s2 body bl rx] => pose proof (did_blockwise C lg a t m r s1 s2 body bl rx) as H;
      destruct (handle_blockwise P C lg a t m r s1 s2 body bl rx) as [[a2 l1] [[t1 r1] x1]] end.
    cbn [fst]. eapply follows_pv; [exact (pv_tick v1)|]. apply follows_back. exact H.
Qed.

Lemma pv_respond v i m resp sep : pv (fst (exchange_respond E v i m resp sep)) = pv v.
Proof.
  unfold exchange_respond.
  assert (H : forall v0 id, (if (m_type m =? T_CON) && negb sep then (v, m_id m) else next_msg_id E v) = (v0, id) -> pv v0 = pv v).
  { intros v0 id H. destruct ((m_type m =? T_CON) && negb sep); [congruence|]. pose proof (pv_next_id v) as Q. rewrite H in Q. exact Q. }
  destruct (if (m_type m =? T_CON) && negb sep then (v, m_id m) else next_msg_id E v) as [v0 id]. rewrite <- (H v0 id eq_refl). clear H v.
  destruct (let* r := set_msg_id resp id in _) as [rp| | |]; try apply pv_give_up.
  pose proof (pv_send v0 i rp) as H. destruct (trans_send E v0 i rp) as [v1 r]. cbn [fst] in H. rewrite <- H. clear H v0.
  destruct r; try apply pv_give_up. cbv zeta. destruct (negb _); [cbn [fst]; rewrite pv_destroy; reflexivity|].
  destruct (msg_copy msg_create m) as [q| | |]; try (rewrite pv_give_up; reflexivity).
  destruct (msg_copy msg_create rp) as [p| | |]; try (rewrite pv_give_up; reflexivity).
  destruct (m_type rp =? T_CON); [|reflexivity].
  match goal with |- context [trans_start_ack_timer E ?v ?i] => pose proof (pv_start_ack v i) as H; destruct (trans_start_ack_timer E v i) as [v2 r] end.
  cbn [fst] in H. destruct r; try exact H; rewrite pv_give_up; exact H.
Qed.

Lemma follows_request v i m : follows v (fst (exchange_request P E C v i m)).
Proof.
  unfold exchange_request. cbv zeta. set (v0 := set_tr v i _). apply (follows_pv v v0); [reflexivity|]. clearbody v0. clear v. rename v0 into v.
  destruct (if _ =? _ then get_resp_type C m else Ok false) as [sep| | |]; try (apply pv_follows, pv_give_up).
  assert (H : pv (fst (if (m_type m =? T_CON) && sep then trans_send_ack E v i m else (v, Ok tt))) = pv v).
  { destruct (_ && _); [apply pv_send_empty|reflexivity]. }
  destruct (if (m_type m =? T_CON) && sep then trans_send_ack E v i m else (v, Ok tt)) as [v1 r]. cbn [fst] in H.
  eapply follows_pv; [exact H|]. clear H. destruct r; try (apply pv_follows, pv_give_up).
  pose proof (follows_answer v1 i m) as H. destruct (exchange_answer P E C v1 i m) as [v2 r]. cbn [fst] in H.
  eapply follows_trans; [exact H|]. apply pv_follows. destruct r; try apply pv_give_up. apply pv_respond.
Qed.

Lemma follows_msg v i m : follows v (fst (exchange_msg P E C v i m)).
Proof.
  unfold exchange_msg. destruct (_ && _); [apply pv_follows, pv_dup|]. destruct (_ && _).
  { apply pv_follows. pose proof (pv_stop_ack v i) as H. destruct (trans_stop_ack_timer E v i) as [v1 r]. cbn [fst] in H.
    destruct r; try exact H; rewrite pv_give_up; exact H. }
  destruct (_ || _); [|apply follows_request].
  apply pv_follows. pose proof (pv_reject v i m) as H. destruct (trans_reject E v i m) as [v1 r]. cbn [fst] in H.
  destruct r; cbn [fst]; rewrite ?pv_destroy; exact H.
Qed.

Lemma follows_exchange v c b fl : follows v (fst (server_exchange P E C v c b fl)).
Proof.
  unfold server_exchange. pose proof (pv_get_trans v c) as H. destruct (get_trans E v c) as [v1 r]. cbn [fst] in H.
  eapply follows_pv; [exact H|]. clear H v. destruct r as [i| | |]; try apply follows_refl.
  pose proof (pv_recv v1 i b fl) as H. destruct (trans_recv E C v1 i b fl) as [v2 r]. cbn [fst] in H.
  eapply follows_pv; [exact H|]. clear H v1. destruct r as [m|e| |]; try (apply pv_follows, pv_give_up); [apply follows_msg|].
  destruct e; try (apply pv_follows, pv_give_up). apply follows_refl.
Qed.

Lemma pv_timers l : forall v i, pv (fst (server_timers E v i l)) = pv v.
Proof.
  induction l as [|x l IH]; intros v i; cbn [server_timers]; [reflexivity|]. destruct (_ && _); [|apply IH].
  match goal with |- context [trans_handle_ack_timeout E ?v ?i] => pose proof (pv_timeout v i) as H; destruct (trans_handle_ack_timeout E v i) as [v1 r] end.
  cbn [fst] in H. rewrite pv_slog in H by reflexivity. destruct r; try exact H. rewrite IH. exact H.
Qed.

Lemma follows_run evs : forall v, follows v (fst (server_run P E C v evs)).
Proof.
  induction evs as [|e evs IH]; intro v; cbn [server_run]; [apply follows_refl|].
  assert (H : follows v (fst (server_step P E C v e))).
  { destruct e as [e|e|c b fl|l]; cbn [server_step]; try apply follows_refl.
    - pose proof (follows_exchange v c b fl) as H. destruct (server_exchange P E C v c b fl). exact H.
    - apply pv_follows. pose proof (pv_timers (firstn NUM_TRANS l) v 0) as H. destruct (server_timers E v 0 _). exact H. }
  destruct (server_step P E C v e) as [v1 r]. destruct r; [exact H|]. eapply follows_trans; [exact H|apply IH].
Qed.

End Follow.

(** ** The registration server *)

Section Reg.
Context (alen : N) (addr : N -> option (list N)) (mem : nat -> bool).
Context (Haddr : forall c a, addr c = Some a -> lenN a < alen).

Lemma add_num alone g t id a mm : reg_is alone g t -> lenN id < 32 -> lenN a < alen ->
  (has_id id t = false /\ mm = false /\ registrar_add alen g id a mm = Err ENOMEM) \/
  (has_id id t || mm = true /\ exists g' alone', registrar_add alen g id a mm = Ok (g', if has_id id t then 1 else 0) /\
     reg_is alone' g' (TableSpec.set_id id a t)).
Proof.
  intros Hr Hi Ha. destruct (add_ok alen alone g t id a mm Hr Hi Ha) as (g' & H1 & H2). cbn [spec_rop] in H2.
  unfold registrar_add in *.
  destruct (registrar_find_ok alone g t id Hr) as [[E1 E2]|(ps1 & p & ps2 & t1 & b & t2 & E1 & E2 & E3 & E4 & _)].
  - rewrite E2 in *. cbn [bind] in *. assert (Hn : has_id id t = false) by (unfold has_id; rewrite E1; reflexivity). rewrite Hn in *.
    destruct mm; cbn [negb orb] in *; [right|left; auto]. split; [reflexivity|].
    exists g', (next_alone alone t (RAdd id a true)). split; [|exact H2].
    destruct (rg_first g), (rg_last g); cbn [bind keep fst] in H1; try discriminate; try (injection H1 as <-; reflexivity);
      destruct (entry _ _) eqn:Ee; cbn [bind keep fst] in H1 |- *; try discriminate; try (injection H1 as <-; reflexivity);
      unfold entry in Ee; destruct (nth_error _ _) as [x|]; [destruct (re_live x)| |destruct (re_live x)|]; discriminate.
  - rewrite E4 in *. cbn [bind] in *. assert (Hn : has_id id t = true) by (unfold has_id; rewrite E3; reflexivity). rewrite Hn in *.
    right. split; [reflexivity|]. exists g', (next_alone alone t (RAdd id a mm)).
    rewrite orb_true_r in H2. split; [|exact H2].
    destruct (entry (rg_heap g) p) as [e|e| |] eqn:Ee; cbn [bind keep fst] in H1 |- *; try discriminate; [injection H1 as <-; reflexivity|].
    unfold entry in Ee. destruct (nth_error _ _) as [x|]; [destruct (re_live x)|]; discriminate.
Qed.

Definition step (a : rserver) (x : N * msg) : rserver := fst (reg_handle alen addr mem a (fst x) (snd x)).
(** The table after one more request. *)
Definition tstep (n : nat) (t : table) (x : N * msg) : table :=
  match registers addr x with
  | Some (i, a) => if has_id i t || mem n then TableSpec.set_id i a t else t
  | None => t
  end.
(** What the answer to a request is. *)
Definition answers (n : nat) (t : table) (x : N * msg) (h : hres) : Prop :=
  match registers addr x with
  | Some (i, a) =>
    if has_id i t || mem n
    then exists l, h = HResp l /\ m_class (msg_build l) = 2 /\ m_detail (msg_build l) = (if has_id i t then 4 else 1) /\
                   m_payload (msg_build l) = [79; 75]
    else h = HErr ENOMEM
  | None => (exists e, h = HErr e) \/ exists l, h = HResp l /\ (m_class (msg_build l) = 4 \/ m_class (msg_build l) = 5)
  end.

Lemma until_nul_len l : lenN (until_nul l) <= lenN l.
Proof. unfold lenN. induction l as [|x l IH]; cbn [until_nul]; [lia|]. destruct (x =? 0); cbn [length] in *; lia. Qed.

Lemma reg_step alone g t a c m : rs_reg a = Ok g -> reg_is alone g t ->
  (exists g' alone', rs_reg (fst (reg_handle alen addr mem a c m)) = Ok g' /\ reg_is alone' g' (tstep (rs_n a) t (c, m))) /\
  rs_n (fst (reg_handle alen addr mem a c m)) = S (rs_n a) /\
  answers (rs_n a) t (c, m) (snd (reg_handle alen addr mem a c m)).
Proof.
  intros Hg Hr. unfold reg_handle, tstep, answers. cbv zeta. cbn [registers].
  destruct (N.eqb_spec (m_ver m) COAP_VER) as [->|Hv]; cbn [negb].
  2:{ destruct (N.eqb_spec (m_ver m) 1); [contradiction|]. cbn [andb fst snd rs_reg rs_n]. eauto 8. }
  change (COAP_VER =? 1) with true. cbn [andb].
  pose proof (uri_path_spec (m_ops m) REG_URI_PATH_BUF_LEN ltac:(discriminate)) as H. cbv zeta in H.
  fold (req_path m) in H. rewrite H. clear H. unfold REG_URI_PATH_BUF_LEN.
  destruct (N.ltb_spec 32 (lenN (req_path m) + 1)) as [Hl|Hl].
  { destruct (N.ltb_spec (lenN (req_path m)) 32); [lia|]. rewrite andb_false_r. cbn [andb fst snd rs_reg rs_n]. eauto 8. }
  destruct (N.ltb_spec (lenN (req_path m)) 32); [|lia]. rewrite andb_true_r.
  unfold cstr_eqb. rewrite cstr_zeros, !until_nul_cstr. rewrite firstn_all2 by (unfold lenN in Hl; lia).
  change (cstr id_path) with id_uri.
  destruct (bytes_eqb (until_nul (req_path m)) id_uri) eqn:Eb.
  2:{ destruct (key_eqb (until_nul (req_path m)) id_uri) eqn:Ek.
      { apply key_eqb_iff in Ek. rewrite Ek in Eb. discriminate. }
      rewrite andb_false_r. cbn [negb andb fst snd rs_reg rs_n]. split; [eauto|]. split; [reflexivity|]. right. eexists. split; [reflexivity|]. left. reflexivity. }
  apply bytes_eqb_eq in Eb. rewrite Eb, key_eqb_refl, andb_true_r. cbn [negb]. unfold reg_handle_client_id. cbv zeta.
  change M_POST with 2. destruct (m_detail m =? 2); cbn [negb andb].
  2:{ cbn [fst snd rs_reg rs_n]. split; [eauto|]. split; [reflexivity|]. right. eexists. split; [reflexivity|]. right. reflexivity. }
  destruct (addr c) as [ad|] eqn:Ec.
  2:{ destruct (_ && _); cbn [fst snd rs_reg rs_n]; (split; [eauto|]; split; [reflexivity|]; right; eexists; split; [reflexivity|]; right; reflexivity). }
  destruct (N.eqb_spec (lenN (m_payload m)) 0) as [Hp|Hp].
  { rewrite Hp. cbn [N.leb N.compare andb fst snd rs_reg rs_n]. split; [eauto|]. split; [reflexivity|]. right. eexists. split; [reflexivity|]. left. reflexivity. }
  unfold REG_PAYLOAD_LEN. destruct (N.leb_spec 1 (lenN (m_payload m))); [|lia]. cbn [andb].
  destruct (N.ltb_spec 32 (lenN (m_payload m) + 1)) as [Hq|Hq].
  { destruct (N.leb_spec (lenN (m_payload m)) 31); [lia|]. cbn [fst snd rs_reg rs_n]. split; [eauto|]. split; [reflexivity|]. right. eexists. split; [reflexivity|]. right. reflexivity. }
  destruct (N.leb_spec (lenN (m_payload m)) 31); [|lia].
  rewrite cstr_zeros, until_nul_cstr, Hg. cbn [bind].
  destruct (add_num alone g t (until_nul (m_payload m)) ad (mem (rs_n a)) Hr) as [(E1 & E2 & E3)|(E1 & g' & alone' & E2 & E3)].
  - pose proof (until_nul_len (m_payload m)). lia.
  - apply (Haddr c). exact Ec.
  - rewrite E3, E1, E2. cbn [orb fst snd rs_reg rs_n]. eauto 10.
  - rewrite E2, E1. cbn [fst snd rs_reg rs_n]. split; [eauto|]. split; [reflexivity|]. eexists. split; [reflexivity|].
    destruct (has_id _ _); vm_compute; auto.
Qed.

Lemma reg_steps l : forall alone g t a, rs_reg a = Ok g -> reg_is alone g t ->
  exists g' alone', rs_reg (fold_left step l a) = Ok g' /\ reg_is alone' g' (directory addr mem (rs_n a) t l) /\
    rs_n (fold_left step l a) = (rs_n a + length l)%nat.
Proof.
  induction l as [|[c m] l IH]; intros alone g t a Hg Hr; cbn [fold_left directory length].
  { exists g, alone. rewrite Nat.add_0_r. auto. }
  destruct (reg_step alone g t a c m Hg Hr) as ((g1 & alone1 & H1 & H2) & H3 & _).
  destruct (IH alone1 g1 _ (step a (c, m)) H1 H2) as (g2 & alone2 & K1 & K2 & K3).
  change (rs_n (step a (c, m)) = S (rs_n a)) in H3. rewrite H3 in K2, K3. exists g2, alone2.
  split; [exact K1|]. split; [exact K2|]. rewrite K3. lia.
Qed.

Lemma lookup_ok alone g t i : reg_is alone g t -> registrar_lookup g i = Ok (find_id i t).
Proof.
  intro Hr. unfold registrar_lookup.
  destruct (registrar_find_ok alone g _ i Hr) as [[E1 E2]|(ps1 & p & ps2 & t1 & a & t2 & E1 & E2 & E3 & E4 & E5 & E6 & _)].
  - rewrite E1, E2. reflexivity.
  - rewrite E4, E3. cbn [bind]. rewrite E1 in E6. apply chain_split in E6; [|exact E2]. destruct E6 as ((e & F1 & F2 & F3 & F4 & F5) & _).
    unfold entry. rewrite F1, F2. cbn [bind]. rewrite F4. reflexivity.
Qed.

Lemma reg_state E C id evs v r : server_run (reg_server alen addr mem) E C (server_init id reg_start) evs = (v, r) ->
  exists g alone, rs_reg (v_app v) = Ok g /\ reg_is alone g (directory addr mem 0 [] (handled (v_trace v))) /\
    rs_n (v_app v) = length (handled (v_trace v)).
Proof.
  intro H. destruct (follows_run (reg_server alen addr mem) step (fun a c m => eq_refl) (fun rx a buf e m => eq_refl) E C evs (server_init id reg_start)) as (l & H1 & H2).
  rewrite H in H1, H2. cbn [fst] in H1, H2. cbn [server_init v_trace v_app handled List.app] in H1, H2. rewrite H1, H2.
  apply (reg_steps l true registrar_create [] reg_start eq_refl).
  exists []. cbn. repeat split; auto; try constructor. intros _ p e Hp. discriminate.
Qed.
End Reg.
