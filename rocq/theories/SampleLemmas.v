(** Lemmas on the sample applications: the state of an application that changes in the
    receive callback only is what the calls of the callback make of it. *)
From Verif Require Import Base BaseLemmas MsgModel MsgSpec MsgFormatLemmas ClientModel ClientLemmas ServerModel ServerSpec ServerPropLemmas ServerBlockSpec ServerBlockLemmas
  E2EModel E2ESpec SampleModel SampleSpec.

Section Follow.
Context {A : Type} (P : app A) (f : A -> list N -> A).
Context (Hh : forall a c m, fst (ap_handle P a c m) = a).
Context (Hrx : forall rx a buf e m, fst (ap_rx P rx a buf e m) = f a (firstn (N.to_nat e) buf)).
Context (E : senv) (C : scfg).
Implicit Types (v : @srv A).

Definition pv v := (calls (v_trace v), v_app v).
Definition follows v v' : Prop :=
  exists l, calls (v_trace v') = calls (v_trace v) ++ l /\ v_app v' = fold_left f (map snd l) (v_app v).

Lemma follows_refl v : follows v v.
Proof. exists []. rewrite app_nil_r. auto. Qed.
Lemma follows_trans v1 v2 v3 : follows v1 v2 -> follows v2 v3 -> follows v1 v3.
Proof.
  intros (l1 & H1 & H2) (l2 & H3 & H4). exists (l1 ++ l2). rewrite H3, H1, app_assoc. split; [reflexivity|].
  rewrite H4, H2, map_app, fold_left_app. reflexivity.
Qed.
Lemma pv_follows v v' : pv v' = pv v -> follows v v'.
Proof. intro H. injection H as H1 H2. exists []. rewrite H1, H2, app_nil_r. auto. Qed.
Lemma follows_pv v1 v v2 : pv v = pv v1 -> follows v v2 -> follows v1 v2.
Proof. intros H. apply follows_trans, pv_follows, H. Qed.

Lemma pv_slog v o : calls [o] = [] -> pv (slog v o) = pv v.
Proof. intro H. unfold pv. cbn [slog v_trace v_app]. rewrite calls_app, H, app_nil_r. reflexivity. Qed.
Lemma pv_slogs v l : calls l = [] -> pv (slogs v l) = pv v.
Proof. intro H. unfold pv. cbn [slogs v_trace v_app]. rewrite calls_app, H, app_nil_r. reflexivity. Qed.
Lemma pv_tick v : pv (tick v) = pv v. Proof. reflexivity. Qed.
Lemma pv_set_tr v i t : pv (set_tr v i t) = pv v. Proof. reflexivity. Qed.
Lemma pv_set_id v i : pv (set_id v i) = pv v. Proof. reflexivity. Qed.

Ltac pvs := repeat first [rewrite pv_slog by reflexivity | rewrite pv_slogs by reflexivity | rewrite pv_tick | rewrite pv_set_tr | rewrite pv_set_id].

Lemma pv_destroy v i : pv (trans_destroy v i) = pv v.
Proof. unfold trans_destroy. pvs. reflexivity. Qed.
Lemma pv_touch v i : pv (touch E v i) = pv v.
Proof. unfold touch. pvs. reflexivity. Qed.
Lemma pv_start_timer v i : pv (fst (trans_start_timer E v i)) = pv v.
Proof. unfold trans_start_timer. destruct (se_set E (v_n v)); cbn [fst]; pvs; reflexivity. Qed.
Lemma pv_stop_timer v i : pv (fst (trans_stop_timer E v i)) = pv v.
Proof. unfold trans_stop_timer. destruct (se_set E (v_n v)); cbn [fst]; pvs; reflexivity. Qed.
Lemma pv_start_ack v i : pv (fst (trans_start_ack_timer E v i)) = pv v.
Proof. unfold trans_start_ack_timer. rewrite pv_start_timer. pvs. reflexivity. Qed.
Lemma pv_stop_ack v i : pv (fst (trans_stop_ack_timer E v i)) = pv v.
Proof. unfold trans_stop_ack_timer. rewrite pv_stop_timer. pvs. reflexivity. Qed.
Lemma pv_update v i : pv (fst (trans_update_ack_timer E v i)) = pv v.
Proof.
  unfold trans_update_ack_timer. destruct (_ <=? _); [reflexivity|].
  pose proof (pv_start_timer (set_tr v i (trans_double_timeout (tr v i))) i) as H.
  destruct (trans_start_timer _ _ _) as [v1 r]. cbn [fst] in H. destruct r; cbn [fst]; pvs; rewrite H; pvs; reflexivity.
Qed.
Lemma pv_send v i m : pv (fst (trans_send E v i m)) = pv v.
Proof.
  unfold trans_send. destruct (msg_format m MAX_BUF_LEN); try reflexivity.
  destruct (se_send E (v_n v)); cbn [fst]; rewrite ?pv_touch; pvs; reflexivity.
Qed.
Lemma pv_send_empty v i ty id : pv (fst (trans_send_empty E v i ty id)) = pv v.
Proof. unfold trans_send_empty. destruct (empty_msg ty id); try reflexivity. apply pv_send. Qed.
Lemma pv_format_error v i p len : pv (fst (trans_handle_format_error E v i p len)) = pv v.
Proof.
  unfold trans_handle_format_error. destruct (parse_type_msg_id p len) as [[t id]| | |]; try reflexivity.
  destruct (t =? T_CON); [|reflexivity]. pose proof (pv_send_empty v i T_RST id) as H.
  destruct (trans_send_empty _ _ _ _ _). exact H.
Qed.
Lemma pv_recv v i b fl : pv (fst (trans_recv E C v i b fl)) = pv v.
Proof.
  unfold trans_recv. destruct fl; [reflexivity|].
  destruct (msg_parse _ _ _) as [m|e| |]; cbn [fst]; rewrite ?pv_touch; pvs; try reflexivity.
  destruct e; cbn [fst]; pvs; try reflexivity.
  match goal with |- context [trans_handle_format_error E ?v ?i ?p ?l] => pose proof (pv_format_error v i p l) as H; destruct (trans_handle_format_error E v i p l) as [v1 r] end.
  cbn [fst] in *. rewrite H. pvs. reflexivity.
Qed.
Lemma pv_reject v i m : pv (fst (trans_reject E v i m)) = pv v.
Proof. unfold trans_reject. destruct (_ =? _); [apply pv_send_empty|reflexivity]. Qed.
Lemma pv_give_up {B} v i (r : res B) : pv (fst (give_up v i r)) = pv v.
Proof. destruct r; cbn [give_up fst]; rewrite ?pv_destroy; reflexivity. Qed.
Lemma pv_timeout v i : pv (fst (trans_handle_ack_timeout E v i)) = pv v.
Proof.
  unfold trans_handle_ack_timeout. pose proof (pv_update v i) as H. destruct (trans_update_ack_timer E v i) as [v1 r]. cbn [fst] in H.
  destruct r as [|e| |]; try exact H; [rewrite pv_send; exact H|]. destruct e; cbn [fst]; rewrite ?pv_destroy; exact H.
Qed.
Lemma pv_create v i c : pv (fst (trans_create E v i c)) = pv v.
Proof. unfold trans_create. destruct (se_create E _); cbn [fst]; pvs; reflexivity. Qed.
Lemma pv_next_id v : pv (fst (next_msg_id E v)) = pv v.
Proof. unfold next_msg_id. cbv zeta. destruct (_ <? _); cbn [fst]; pvs; reflexivity. Qed.
Lemma pv_get_trans v c : pv (fst (get_trans E v c)) = pv v.
Proof.
  unfold get_trans. destruct (find_trans _ _ _); [reflexivity|].
  destruct (find_empty_trans _ _).
  - pose proof (pv_create v n c) as H. destruct (trans_create _ _ _ _). exact H.
  - cbv zeta. match goal with |- context [trans_create E ?v ?i ?c] => pose proof (pv_create v i c) as H; destruct (trans_create E v i c) end.
    cbn [fst] in *. rewrite H. apply pv_destroy.
Qed.
Lemma pv_dup v i m : pv (fst (exchange_dup E C v i m)) = pv v.
Proof.
  unfold exchange_dup. destruct (_ =? _); [|reflexivity]. destruct (get_resp_type C m) as [[]| | |]; try apply pv_give_up.
  - unfold trans_send_ack. pose proof (pv_send_empty v i T_ACK (m_id m)) as H. destruct (trans_send_empty _ _ _ _ _) as [v1 r]. cbn [fst] in H.
    destruct r; try exact H; rewrite pv_give_up; exact H.
  - pose proof (pv_send v i (t_resp (tr v i))) as H. destruct (trans_send _ _ _ _) as [v1 r]. cbn [fst] in H.
    destruct r; cbn [fst]; rewrite ?pv_destroy; exact H.
Qed.

(** What a block does to the application. *)
Definition did (a : A) (x : A * list sobs * (trans * msg * res unit)) : Prop :=
  fst (fst x) = fold_left f (map snd (calls (snd (fst x)))) a.

Lemma did_block1 a t b1 uri req resp : did a (nb_block1 P a t b1 uri req resp).
Proof.
  unfold nb_block1. cbv zeta.
  repeat match goal with
  | |- did a (a, [], _) => reflexivity
  | |- did _ (match ?x with _ => _ end) =>
      lazymatch x with
      | ap_rx _ _ _ _ _ _ => fail
      | _ => destruct x
      end
  end.
  match goal with |- did _ (let (_, _) := ?x in _) => generalize (Hrx n a a3 (t_end (t_with_block t (t_type t) (Some a3)
    (add64 (t_end t) (lenN (m_payload req) mod two32)) (t_size1 t) (t_size2 t) (add64 (t_next1 t) (lenN (m_payload req) mod two32))
    (t_next2 t) (t_uri t) (t_detail t) (t_rx t))) req); destruct x as [y [e|s bd e]] end; cbn [fst]; intros ->; [reflexivity|].
  destruct (negb _); [reflexivity|]. destruct (_ <? _); reflexivity.
Qed.
Lemma did_next a t req resp : did a (next_block P a t req resp).
Proof.
  unfold next_block. destruct (t_type t); try reflexivity; destruct (nb_start t req resp) as [?|[[[? ?] ?] ?]]; try reflexivity; apply did_block1.
Qed.
Lemma did_blockwise Cc lg a t req resp s1 s2 b bl rx : did a (handle_blockwise P Cc lg a t req resp s1 s2 b bl rx).
Proof.
  unfold handle_blockwise. cbv zeta.
  destruct ((0 <? s1) && _); [reflexivity|]. destruct ((0 <? s2) && _); [reflexivity|]. destruct (_ <? _); [reflexivity|].
  destruct (negb lg); [reflexivity|]. destruct (_ =? _).
  - destruct (let* src := rdn b bl in _); try reflexivity. destruct (path_buf _ _); try reflexivity.
  - destruct (_ || _); [|reflexivity]. destruct rx; [|reflexivity]. destruct (path_buf _ _); try reflexivity. apply did_next.
Qed.

Lemma follows_back v i a l t : a = fold_left f (map snd (calls l)) (v_app v) -> follows v (set_tr (set_app (slogs v l) a) i t).
Proof. intro H. exists (calls l). cbn [set_tr set_app slogs v_trace v_app]. rewrite calls_app. auto. Qed.

Lemma follows_answer v i m : follows v (fst (exchange_answer P E C v i m)).
Proof.
  unfold exchange_answer. cbv zeta. destruct (negb _); [apply follows_refl|].
  destruct (negb (is_type _ _)).
  - pose proof (did_next (v_app v) (tr v i) m msg_create) as H. destruct (next_block _ _ _ _ _) as [[a l] [[t resp] r]]. cbn [fst].
    apply follows_back. exact H.
  - set (v0 := slog v _). assert (H0 : pv v0 = pv v) by (apply pv_slog; reflexivity). clearbody v0.
    eapply follows_pv; [exact H0|]. clear H0.
    generalize (Hh (v_app v0) (t_client (tr v i)) m). destruct (ap_handle P (v_app v0) (t_client (tr v i)) m) as [a1 h].
    cbn [fst]. intros ->.
    assert (Hs : set_app v0 (v_app v0) = v0) by (destruct v0; reflexivity). rewrite Hs.
    destruct h as [e|l|l s1 s2 body bl rx]; cbn [fst]; try apply follows_refl.
    match goal with |- context [handle_blockwise P C ?lg ?a ?t m ?r s1 s2 body bl rx] => pose proof (did_blockwise C lg a t m r s1 s2 body bl rx) as H;
      destruct (handle_blockwise P C lg a t m r s1 s2 body bl rx) as [[a1 l1] [[t1 r1] x1]] end.
    cbn [fst]. eapply follows_pv; [exact (pv_tick v0)|]. apply follows_back. exact H.
Qed.

Lemma pv_respond v i m resp sep : pv (fst (exchange_respond E v i m resp sep)) = pv v.
Proof.
  unfold exchange_respond.
  assert (H : forall v0 id, (if (m_type m =? T_CON) && negb sep then (v, m_id m) else next_msg_id E v) = (v0, id) -> pv v0 = pv v).
  { intros v0 id H. destruct ((m_type m =? T_CON) && negb sep); [congruence|]. pose proof (pv_next_id v) as Q. rewrite H in Q. exact Q. }
  destruct (if (m_type m =? T_CON) && negb sep then (v, m_id m) else next_msg_id E v) as [v0 id]. rewrite <- (H v0 id eq_refl). clear H v.
  destruct (let* r := set_msg_id resp id in _) as [rp| | |]; try apply pv_give_up.
  pose proof (pv_send v0 i rp) as H. destruct (trans_send E v0 i rp) as [v1 r]. cbn [fst] in H. rewrite <- H. clear H v0.
  destruct r; try apply pv_give_up. cbv zeta. destruct (negb _); [cbn [fst]; rewrite pv_destroy; reflexivity|].
  destruct (msg_copy msg_create m) as [q| | |]; try (rewrite pv_give_up; reflexivity).
  destruct (msg_copy msg_create rp) as [p| | |]; try (rewrite pv_give_up; reflexivity).
  destruct (m_type rp =? T_CON); [|reflexivity].
  match goal with |- context [trans_start_ack_timer E ?v ?i] => pose proof (pv_start_ack v i) as H; destruct (trans_start_ack_timer E v i) as [v2 r] end.
  cbn [fst] in H. destruct r; try exact H; rewrite pv_give_up; exact H.
Qed.

Lemma follows_request v i m : follows v (fst (exchange_request P E C v i m)).
Proof.
  unfold exchange_request. cbv zeta. set (v0 := set_tr v i _). apply (follows_pv v v0); [reflexivity|]. clearbody v0. clear v. rename v0 into v.
  destruct (if _ =? _ then get_resp_type C m else Ok false) as [sep| | |]; try (apply pv_follows, pv_give_up).
  assert (H : pv (fst (if (m_type m =? T_CON) && sep then trans_send_ack E v i m else (v, Ok tt))) = pv v).
  { destruct (_ && _); [apply pv_send_empty|reflexivity]. }
  destruct (if (m_type m =? T_CON) && sep then trans_send_ack E v i m else (v, Ok tt)) as [v1 r]. cbn [fst] in H.
  eapply follows_pv; [exact H|]. clear H. destruct r; try (apply pv_follows, pv_give_up).
  pose proof (follows_answer v1 i m) as H. destruct (exchange_answer P E C v1 i m) as [v2 r]. cbn [fst] in H.
  eapply follows_trans; [exact H|]. apply pv_follows. destruct r; try apply pv_give_up. apply pv_respond.
Qed.

Lemma follows_msg v i m : follows v (fst (exchange_msg P E C v i m)).
Proof.
  unfold exchange_msg. destruct (_ && _); [apply pv_follows, pv_dup|]. destruct (_ && _).
  { apply pv_follows. pose proof (pv_stop_ack v i) as H. destruct (trans_stop_ack_timer E v i) as [v1 r]. cbn [fst] in H.
    destruct r; try exact H; rewrite pv_give_up; exact H. }
  destruct (_ || _); [|apply follows_request].
  apply pv_follows. pose proof (pv_reject v i m) as H. destruct (trans_reject E v i m) as [v1 r]. cbn [fst] in H.
  destruct r; cbn [fst]; rewrite ?pv_destroy; exact H.
Qed.

Lemma follows_exchange v c b fl : follows v (fst (server_exchange P E C v c b fl)).
Proof.
  unfold server_exchange. pose proof (pv_get_trans v c) as H. destruct (get_trans E v c) as [v1 r]. cbn [fst] in H.
  eapply follows_pv; [exact H|]. clear H v. destruct r as [i| | |]; try apply follows_refl.
  pose proof (pv_recv v1 i b fl) as H. destruct (trans_recv E C v1 i b fl) as [v2 r]. cbn [fst] in H.
  eapply follows_pv; [exact H|]. clear H v1. destruct r as [m|e| |]; try (apply pv_follows, pv_give_up); [apply follows_msg|].
  destruct e; try (apply pv_follows, pv_give_up). apply follows_refl.
Qed.

Lemma pv_timers l : forall v i, pv (fst (server_timers E v i l)) = pv v.
Proof.
  induction l as [|x l IH]; intros v i; cbn [server_timers]; [reflexivity|]. destruct (_ && _); [|apply IH].
  match goal with |- context [trans_handle_ack_timeout E ?v ?i] => pose proof (pv_timeout v i) as H; destruct (trans_handle_ack_timeout E v i) as [v1 r] end.
  cbn [fst] in H. rewrite pv_slog in H by reflexivity. destruct r; try exact H. rewrite IH. exact H.
Qed.

Lemma follows_run evs : forall v, follows v (fst (server_run P E C v evs)).
Proof.
  induction evs as [|e evs IH]; intro v; cbn [server_run]; [apply follows_refl|].
  assert (H : follows v (fst (server_step P E C v e))).
  { destruct e as [e|e|c b fl|l]; cbn [server_step]; try apply follows_refl.
    - pose proof (follows_exchange v c b fl) as H. destruct (server_exchange P E C v c b fl). exact H.
    - apply pv_follows. pose proof (pv_timers (firstn NUM_TRANS l) v 0) as H. destruct (server_timers E v 0 _). exact H. }
  destruct (server_step P E C v e) as [v1 r]. destruct r; [exact H|]. eapply follows_trans; [exact H|apply IH].
Qed.

Lemma follows_net Ec Cc c s v m : follows v (snd (fst (net_exch P Ec Cc E C c (s, v) m))).
Proof.
  unfold net_exch. destruct (exchange Ec Cc s m []) as [s1 ? ?|s1]; [apply follows_refl|].
  match goal with |- context [server_run P E C v ?evs] => pose proof (follows_run evs v) as H; destruct (server_run P E C v evs) as [v1 r] end.
  cbn [fst] in H. destruct (exchange _ _ _ _ _); exact H.
Qed.
End Follow.

(** Every relation that holds across each exchange holds across a transfer. *)
Section Across.
Context {St : Type} (exch : St -> msg -> St * res msg) (R : St -> St -> Prop).
Context (Rr : forall s, R s s) (Rt : forall s1 s2 s3, R s1 s2 -> R s2 s3 -> R s1 s3).
Context (Re : forall s m, R s (fst (exch s m))).

Lemma across1 req body size2 fuel : forall st size szx start, R st (fst (blockwise1_loop exch fuel st req body size size2 szx start)).
Proof.
  induction fuel as [|fuel IH]; intros st size szx start; cbn [blockwise1_loop]; [apply Rr|]. cbv zeta.
  destruct (block1_msg _ _ _ _ _ _ _ _) as [m| | |]; try apply Rr.
  pose proof (Re st m) as H. destruct (exch st m) as [st1 r]. cbn [fst] in H. eapply Rt; [exact H|].
  repeat first [apply Rr | apply IH | match goal with |- R _ (fst (match ?x with _ => _ end)) => destruct x end].
Qed.
Lemma across2 req fuel : forall st buf size szx start, R st (fst (fst (blockwise2_loop exch fuel st req buf size szx start))).
Proof.
  induction fuel as [|fuel IH]; intros st buf size szx start; cbn [blockwise2_loop]; [apply Rr|].
  destruct (block2_msg _ _ _ _) as [m| | |]; try apply Rr.
  pose proof (Re st m) as H. destruct (exch st m) as [st1 r]. cbn [fst] in H. eapply Rt; [exact H|].
  repeat first [apply Rr | apply IH | match goal with |- R _ (fst (fst (match ?x with _ => _ end))) => destruct x end].
Qed.
Lemma across2' fuel st req have buf size2 : R st (fst (fst (blockwise2 exch fuel st req have buf size2))).
Proof.
  unfold blockwise2.
  repeat first [apply Rr | apply across2 | match goal with |- R _ (fst (fst (match ?x with _ => _ end))) => destruct x end].
Qed.
Lemma across fuel st req have size1 size2 buf : R st (fst (fst (exchange_blockwise exch fuel st req have size1 size2 buf))).
Proof.
  unfold exchange_blockwise. destruct (_ =? _); [apply across2'|]. destruct (_ || _); [|apply Rr].
  assert (H : R st (fst (blockwise1 exch fuel st req buf size1 size2))).
  { unfold blockwise1. repeat first [apply Rr | apply across1 | match goal with |- R _ (fst (match ?x with _ => _ end)) => destruct x end]. }
  destruct (blockwise1 _ _ _ _ _ _ _) as [st1 r]. cbn [fst] in H. eapply Rt; [exact H|].
  repeat first [apply Rr | apply across2' | match goal with |- R _ (fst (fst (match ?x with _ => _ end))) => destruct x end].
Qed.
End Across.

(** ** The transfer server *)

Section Transfer.
Context (F : nat -> option N).

Definition save (a : tserver) (b : list N) : tserver :=
  mktserver (S (ts_n a)) (match F (ts_n a) with None => ts_file a | Some k => Some (firstn (N.to_nat k) b) end).

Lemma transfer_handle_same a m : fst (transfer_handle a m) = a.
Proof.
  unfold transfer_handle. destruct (negb _); [reflexivity|]. destruct (_ || _); [reflexivity|].
  destruct (uri_path_to_str _ _) as [[[u|] n]| | |]; try reflexivity. destruct (_ <? _); [reflexivity|]. destruct (negb _); reflexivity.
Qed.
Lemma transfer_rx_save a buf e : fst (transfer_handle_rx F a buf e) = save a (firstn (N.to_nat e) buf).
Proof.
  unfold transfer_handle_rx, save. destruct (F (ts_n a)) as [k|]; [|reflexivity]. cbv zeta.
  assert (H : firstn (N.to_nat (N.min k e)) (firstn (N.to_nat e) buf) = firstn (N.to_nat k) (firstn (N.to_nat e) buf)).
  { rewrite !firstn_firstn. f_equal. lia. }
  rewrite H. destruct (negb _); reflexivity.
Qed.
Lemma saves l : forall a, ts_file (fold_left save l a) = saved F (ts_n a) (ts_file a) l.
Proof. induction l as [|b l IH]; intro a; [reflexivity|]. cbn [fold_left saved]. rewrite IH. reflexivity. Qed.

Lemma transfer_follows E C (v : @srv tserver) evs : follows save v (fst (server_run (transfer_server F) E C v evs)).
Proof. apply follows_run; [intros a c m; apply transfer_handle_same|intros rx a buf e m; apply transfer_rx_save]. Qed.

(** A request for the transfer. *)
Lemma transfer_handle_put a m : m_ver m = 1 -> m_class m = 0 -> m_detail m = 3 -> req_path m = transfer_path ->
  transfer_handle a m = (a, HBlock [] 64 64 [] 0 (Some 0)).
Proof.
  intros H1 H2 H3 H4. unfold transfer_handle. rewrite H1, H2, H3. change (negb (1 =? COAP_VER)) with false.
  change (negb (0 =? CL_REQ) || negb (3 =? M_PUT)) with false. cbv iota.
  pose proof (uri_path_spec (m_ops m) TRANSFER_URI_PATH_BUF_LEN ltac:(discriminate)) as H. cbv zeta in H.
  fold (req_path m) in H. rewrite H4 in H. rewrite H. reflexivity.
Qed.

(** What is stored was sent to the right place. *)
Lemma transfer_handle_block a m a' l s1 s2 body bl rx : transfer_handle a m = (a', HBlock l s1 s2 body bl rx) ->
  m_detail m = 3 /\ seen_path m = transfer_path /\ s1 = 64.
Proof.
  unfold transfer_handle. destruct (negb (m_ver m =? _)); [discriminate|].
  destruct (negb (m_class m =? CL_REQ)); [discriminate|]. destruct (N.eqb_spec (m_detail m) M_PUT) as [Hd|]; [|discriminate]. cbn [negb orb].
  pose proof (uri_path_spec (m_ops m) TRANSFER_URI_PATH_BUF_LEN ltac:(discriminate)) as H. cbv zeta in H.
  fold (req_path m) in H. rewrite H. clear H.
  destruct (N.ltb_spec TRANSFER_URI_PATH_BUF_LEN (lenN (req_path m) + 1)) as [|Hl]; [discriminate|].
  unfold TRANSFER_URI_PATH_BUF_LEN in *. unfold cstr_eqb. rewrite cstr_zeros, !until_nul_cstr.
  rewrite firstn_all2 by (unfold lenN in Hl; lia).
  destruct (bytes_eqb _ _) eqn:Eb; [|discriminate]. cbn [negb]. intro H. injection H as _ _ <- _ _ _ _.
  split; [exact Hd|]. split; [|reflexivity]. unfold seen_path. rewrite firstn_all2 by (unfold lenN in Hl; lia).
  apply bytes_eqb_eq in Eb. rewrite Eb. reflexivity.
Qed.
End Transfer.
