(** Blockwise transfers of the server: what is served of a body. *)
From Coq Require Import Permutation.
From Verif Require Import BaseLemmas MsgModel MsgSpec MsgLemmas MsgFormatLemmas MsgBlockLemmas
  ClientModel ClientSpec ClientLemmas ClientReplyLemmas ServerModel ServerSpec ServerLemmas
  ServerTraceLemmas ServerPropLemmas ServerHistLemmas ServerBlockSpec ServerBlockLemmas ServerUploadLemmas
  ServerTransferLemmas.

(** ** Bodies partly served *)

Lemma partway_served body bs pos o tl : partway body bs pos o -> served body pos tl -> served body 0 (bs ++ tl).
Proof.
  intro H. revert tl. induction H as [|bs pos o b p size H IH H1 H2 H3]; intros tl Ht; [exact Ht|].
  rewrite <- app_assoc. apply IH. cbn [List.app]. eapply sv_more; eassumption.
Qed.
Lemma served_prefix body pos bs tl : served body pos (bs ++ tl) -> served body pos bs.
Proof.
  remember (bs ++ tl) as l eqn:El. intro H. revert bs El.
  induction H as [pos|pos b p size l H1 H2 H3 H IH|pos b p size H1 H2 H3 H4]; intros bs El.
  - destruct bs; [constructor|discriminate].
  - destruct bs as [|b' bs]; [constructor|]. injection El as <- El. eapply sv_more; eauto.
  - destruct bs as [|b' bs]; [constructor|]. injection El as <- El. symmetry in El. apply app_eq_nil in El as [-> ->].
    eapply sv_last; eassumption.
Qed.

(** ** The body being served at the end of a history *)

Definition pend (c : N) (h : list sobs) (body : list N) (st : N * bool * list (list N)) : Prop :=
  exists h0 mid j, h = h0 ++ SBody c body :: mid /\ Forall (inside c) mid /\ last_id c h0 = Some j /\
    st = fold_left (answers_obs c) mid (j, true, []).

Lemma pend_id c h body st : pend c h body st -> last_id c h = Some (fst (fst st)).
Proof.
  intros (h0 & mid & j & -> & Hi & Hj & ->). rewrite last_id_app. cbn [fold_left last_id_obs]. rewrite Hj.
  symmetry. apply answers_id. exact Hi.
Qed.
Lemma pend_app c h body st s : pend c h body st -> Forall (inside c) s -> pend c (h ++ s) body (fold_left (answers_obs c) s st).
Proof.
  intros (h0 & mid & j & -> & Hi & Hj & ->) Hs. exists h0, (mid ++ s), j. split; [rewrite <- app_assoc; reflexivity|].
  split; [apply Forall_app; auto|]. split; [exact Hj|]. rewrite fold_left_app. reflexivity.
Qed.
Lemma pend_split c h s body st : pend c (h ++ s) body st ->
  (exists st0, pend c h body st0 /\ Forall (inside c) s /\ st = fold_left (answers_obs c) s st0) \/
  (exists x mid j, s = x ++ SBody c body :: mid /\ Forall (inside c) mid /\ st = fold_left (answers_obs c) mid (j, true, [])).
Proof.
  intros (h0 & mid & j & He & Hi & Hj & ->). apply app_eq_app in He as [l [[-> He]|[-> ->]]].
  - destruct l as [|o l]; cbn [List.app] in He.
    + right. exists [], mid, j. auto.
    + injection He as <- ->. apply Forall_app in Hi as [H1 H2]. left. exists (fold_left (answers_obs c) l (j, true, [])).
      split; [exists h0, l, j; auto|]. split; [exact H2|apply fold_left_app].
  - right. exists l, mid, j. auto.
Qed.

Lemma still_no_body c b s x y : Forall still s -> s <> x ++ SBody c b :: y.
Proof. intros H ->. apply Forall_app in H as [_ H]. inversion H as [|? ? Hx _]. exact Hx. Qed.

(** Less of the history has fewer answers. *)
Lemma answers_less c s rest st bs : snd (fold_left (answers_obs c) (s ++ rest) st) = bs ->
  exists tl, bs = snd (fold_left (answers_obs c) s st) ++ tl.
Proof. rewrite fold_left_app. intros <-. apply answers_mono. Qed.

Lemma inside_prefix c s rest pre o y : s ++ rest = pre ++ o :: y -> Forall (inside c) s -> boundary c o -> exists z, pre = s ++ z.
Proof.
  intros H Hi Ho. apply app_eq_app in H as [l [[-> H]|[-> H]]]; [|eauto].
  destruct l as [|o' l]; [exists []; rewrite !app_nil_r; reflexivity|]. injection H as <- _.
  apply Forall_app in Hi as [_ Hi]. inversion Hi as [|? ? Hx _]. contradiction.
Qed.

(** The body of the transaction, at the end of a history. *)
Definition at_body (t : trans) (body : list N) (bs : list (list N)) : Prop :=
  t_type t = TRegular \/
  serving (t_type t) /\ exists buf, has_body t buf /\ body = firstn (N.to_nat (t_end t)) buf /\ partway body bs (t_next2 t) (Some (t_size2 t)) /\ bytes_ok body /\
    exists szx, szx < 7 /\ t_size2 t = 2 ^ (4 + szx).

(** A body is being served, for the request [m]. *)
Definition busy (C : scfg) (c : N) (h : list sobs) (body : list N) (m : msg) : Prop :=
  exists h0 mid j, h = h0 ++ SBody c body :: mid /\ Forall (inside c) mid /\ last_id c h0 = Some j /\ last_request C c h0 m.

Lemma busy_pend C c h body m : busy C c h body m -> exists st, pend c h body st.
Proof. intros (h0 & mid & j & H1 & H2 & H3 & _). eexists. exists h0, mid, j. auto. Qed.
Lemma busy_app C c h body m s : busy C c h body m -> Forall (inside c) s -> busy C c (h ++ s) body m.
Proof.
  intros (h0 & mid & j & -> & H2 & H3 & H4) Hs. exists h0, (mid ++ s), j. split; [rewrite <- app_assoc; reflexivity|].
  split; [apply Forall_app; auto|]. auto.
Qed.

Record DInv (C : scfg) (h : list sobs) (t : trans) : Prop := {
  di_pend : forall body i due bs, pend (t_client t) h body (i, due, bs) -> served body 0 bs /\ at_body t body bs;
  di_serving : serving (t_type t) -> exists body m, busy C (t_client t) h body m /\ on_target t m
}.

Lemma has_body_xfer t t' buf : xfer t' = xfer t -> has_body t buf -> has_body t' buf.
Proof. unfold xfer. intros [= H1 H2 H3 H4 H5 H6 H7 H8 H9 H10] [B1 B2 B3 B4 B5 B6]. split; congruence. Qed.
Lemma at_body_xfer t t' body bs : xfer t' = xfer t -> at_body t body bs -> at_body t' body bs.
Proof.
  intros Hx [H|(H & buf & H1 & H2 & H3)].
  - left. injection Hx as X1. congruence.
  - right. destruct H3 as [H3 H4]. pose proof (has_body_xfer _ _ _ Hx H1) as H1'. injection Hx as X1 X2 X3 X4 X5 X6 X7.
    split; [rewrite X1; exact H|]. exists buf. split; [exact H1'|]. rewrite X3, X5, X7. auto.
Qed.

Lemma on_target_xfer t t' m : xfer t' = xfer t -> on_target t m -> on_target t' m.
Proof. intro Hx. injection Hx as X1 X2 X3 X4 X5 X6 X7 X8 X9 X10. unfold on_target. rewrite X1, X8. auto. Qed.

Lemma serving_kind ty : serving ty -> ty <> TRegular /\ ~ uploading ty.
Proof. intros [->|[->| ->]]; (split; [discriminate|intros [H|H]; discriminate]). Qed.

(** ** Responses made of options the protocol has room for *)

Definition pgood (m : msg) : Prop := rwf m /\ Forall proper_op (m_ops m).

Lemma Forall_add (P : op -> Prop) l o : ops_sorted l -> Forall P l -> P o -> Forall P (op_list_add l o).
Proof.
  intros Hs H1 H2. eapply Permutation_Forall; [symmetry; apply op_list_add_perm, Hs|]. constructor; assumption.
Qed.
Lemma pgood_create : pgood msg_create.
Proof. split; [apply rwf_create|constructor]. Qed.
Lemma pgood_setter m s : pgood m -> proper_setter s -> pgood (run_setter m s).
Proof.
  intros [W G] Ht. split; [apply (rwf_setters [s]); exact W|]. unfold run_setter. destruct s as [t|c d|i|t|n v|pl|].
  - unfold set_type. destruct (_ && _); exact G.
  - unfold set_code. destruct (_ <? _); [exact G|]. destruct (_ <? _); exact G.
  - unfold set_msg_id. destruct (_ <? _); exact G.
  - unfold set_token. destruct (_ <? _); exact G.
  - unfold add_op. apply Forall_add; auto. apply W.
  - exact G.
  - exact G.
Qed.
Lemma pgood_setters l m : pgood m -> Forall proper_setter l -> pgood (fold_left run_setter l m).
Proof. intros G H. revert m G. induction H as [|s l Hs Hl IH]; intros m G; [exact G|]. apply IH, pgood_setter; assumption. Qed.
Lemma pgood_block1 m v : pgood m -> lenN v = 3 -> bytes_ok v -> pgood (with_block1 m v).
Proof.
  intros [[W1 W2 W3 W4 W5 W6 W7] G] Hl Hv. split.
  - split; auto. cbn [with_block1 m_ops]. apply (adds_sorted [_]). exact W7.
  - cbn [with_block1 m_ops]. apply Forall_add; auto. split; [vm_compute; discriminate|]. split; [|exact Hv].
    unfold o_len. cbn [o_val]. rewrite Hl. vm_compute. discriminate.
Qed.
Lemma pgood_block2 m v pl d : pgood m -> lenN v = 3 -> bytes_ok v -> d <= 31 -> pgood (with_block2 m v pl d).
Proof.
  intros [[W1 W2 W3 W4 W5 W6 W7] G] Hl Hv Hd. split.
  - split; auto; try (cbn; lia). cbn [with_block2 m_ops]. apply (adds_sorted [_]). exact W7.
  - cbn [with_block2 m_ops]. apply Forall_add; auto. split; [vm_compute; discriminate|]. split; [|exact Hv].
    unfold o_len. cbn [o_val]. rewrite Hl. vm_compute. discriminate.
Qed.

Lemma proper_deltas l : Forall proper_op l -> forall prev, deltas_ok prev l.
Proof. induction 1 as [|o l Ho Hl IH]; intro prev; cbn [deltas_ok]; [exact I|]. destruct Ho as (H1 & H2 & _). repeat split; auto. lia. Qed.

Lemma reply_encodes resp i tok ty b : pgood resp -> bytes_ok (m_payload resp) -> m_class resp = 2 ->
  i <= 65535 -> lenN tok <= 8 -> bytes_ok tok -> ty < 4 ->
  msg_format (complete resp i tok ty) MAX_BUF_LEN = Ok b -> encodes (complete resp i tok ty) b.
Proof.
  intros [Wr G] Hp Hc Hi Ht1 Ht2 Hty Hf. set (q := complete resp i tok ty) in *.
  assert (W : wf_msg q).
  { split; cbn [q complete m_ver m_type m_class m_detail m_id m_token m_ops m_payload]; try apply Wr; auto.
    eapply Forall_impl; [|exact G]. intros o (H1 & H2 & H3). split; [unfold two32; lia|]. split; [exact H3|unfold two32; lia]. }
  assert (Hd : deltas_ok 0 (m_ops q)) by (apply proper_deltas; exact G).
  assert (Hl : Forall len_ok (m_ops q)) by (eapply Forall_impl; [|exact G]; intros o (H1 & H2 & H3); unfold len_ok, two32; lia).
  destruct (format_result _ MAX_BUF_LEN W Hl) as [(F & T & Hck)|[(F & C)|[(F & C1 & C2)|(F & C1 & C2)]]];
    try (rewrite Hf in F; discriminate); [vm_compute; reflexivity|].
  rewrite Hf in F. injection F as ->.
  apply encodes_enc; [exact W|split; [cbn [q complete m_class]; rewrite Hc|exact Hd]|].
  - unfold known_class. auto.
  - apply check_consistent; [apply W|exact Hck].
Qed.

Lemma resp_type_lt4 C m : resp_type C m < 4.
Proof. unfold resp_type. destruct (_ =? _); [destruct (sepb _ _)|]; vm_compute; reflexivity. Qed.

(** One more block. *)
Lemma block_sent u buf m resp0 t2 resp r body bs o i tok ty b : has_body u buf -> serving (t_type u) ->
  body = firstn (N.to_nat (t_end u)) buf -> partway body bs (t_next2 u) o -> vals_ok (m_ops m) -> pgood resp0 -> bytes_ok body -> i <= 65535 -> lenN tok <= 8 -> bytes_ok tok -> ty < 4 ->
  next_block2 u m resp0 = (t2, resp, r) -> r = Ok tt ->
  msg_format (complete resp i tok ty) MAX_BUF_LEN = Ok b ->
  let bs' := if nth 1 b 0 / 32 =? 2 then bs ++ [b] else bs in served body 0 bs' /\ at_body t2 body bs'.
Proof.
  intros HB Hs -> Hp Hv W Hbb Hi Ht1 Ht2 Hty En -> Hf. set (body := firstn (N.to_nat (t_end u)) buf) in *.
  assert (Hlen : lenN body = t_end u) by (unfold body; rewrite lenN_firstn; pose proof (hb_end _ _ HB); lia).
  assert (Hpw : served body 0 bs) by (rewrite <- (app_nil_r bs); eapply partway_served; [exact Hp|constructor]).
  assert (Hin : forall v pl dd, In (mkop OP_BLOCK2 v) (m_ops (with_block2 resp0 v pl dd))).
  { intros v pl dd. cbn [with_block2 m_ops]. eapply Permutation_in; [symmetry; apply op_list_add_perm, W|left; reflexivity]. }
  pose proof (next_block2_spec u buf m resp0 HB Hv Hs) as Q. rewrite En in Q.
  inversion Q as [t' Ht Hn|t' x Ht Hu|t' o2 Ht E2 Hz|o1 o2 v E1 E2 D size Hsz Hend Hv3 Hvb Hbv|t' o1 o2 v E1 E2 D size Hsz Ht Hend Hv3 Hvb Hbv]; subst.
  - rewrite (format_code _ _ _ Hf) by (cbn; lia). cbn [complete with_code m_class m_detail].
    change ((32 * 4 + 0) / 32 =? 2) with false. cbv zeta iota. split; [exact Hpw|left; exact Ht].
  - assert (Hc : nth 1 b 0 / 32 = 2) by (apply (format_class _ _ _ Hf); cbn; lia).
    rewrite Hc, N.eqb_refl. cbv zeta.
    assert (Hpl : firstn (N.to_nat size) (skipn (N.to_nat (t_next2 u)) buf) = firstn (N.to_nat size) (skipn (N.to_nat (t_next2 u)) body)).
    { unfold body. rewrite skipn_firstn_comm, firstn_firstn. f_equal. fold size in Hend. lia. }
    assert (Hb2 : block2 b (complete (with_block2 resp0 v (firstn (N.to_nat size) (skipn (N.to_nat (t_next2 u)) buf)) 31) i tok ty) (t_next2 u) size true).
    { split; [apply reply_encodes; auto; [apply pgood_block2; auto; lia|cbn [with_block2 m_payload]; rewrite Hpl; apply firstn_bytes, skipn_bytes; exact Hbb]|].
      split; [reflexivity|]. exists v, (b_num (blk_or_zero o2)). split; [apply Hin|]. split; [exact Hbv|apply D]. }
    assert (Hpw' : partway body (bs ++ [b]) (t_next2 u + size) (Some size)).
    { eapply pw_more; [exact Hp|exact Hb2|fold size in Hend; lia|exact Hpl]. }
    split; [rewrite <- (app_nil_r (bs ++ [b])); eapply partway_served; [exact Hpw'|constructor]|].
    right. cbn [t_type t_with_block t_end t_next2]. split; [exact Hs|]. exists buf. split; [|split; [reflexivity|split; [exact Hpw'|split; [exact Hbb|exact Hsz]]]].
    destruct HB as [B1 B2 B3 B4 B5 B6]. split; cbn [t_body t_with_block t_end t_next2 t_detail t_size2]; auto.
    destruct Hsz as (szx & Hs7 & Hsz). change (size <= 1024). rewrite Hsz. apply pow_szx. exact Hs7.
  - assert (Hc : nth 1 b 0 / 32 = 2).
    { apply (format_class _ _ _ Hf); cbn; [lia|]. destruct (is_type _ _); [lia|]. apply (hb_detail _ _ HB). }
    rewrite Hc, N.eqb_refl. cbv zeta. split; [|left; exact Ht].
    eapply partway_served; [exact Hp|]. eapply (sv_last body _ _ _ size).
    + split; [refine (reply_encodes _ i tok ty b _ _ _ _ _ _ _ Hf); auto|].
      { apply pgood_block2; auto. destruct (is_type _ _); [lia|]. apply (hb_detail _ _ HB). }
      { cbn [with_block2 m_payload]. replace (firstn _ _) with (skipn (N.to_nat (t_next2 u)) body); [apply skipn_bytes; exact Hbb|].
        unfold body. rewrite skipn_firstn_comm. f_equal. lia. }
      split; [reflexivity|]. exists v, (b_num (blk_or_zero o2)). split; [apply Hin|]. split; [exact Hbv|apply D].
    + pose proof (hb_next _ _ HB). lia.
    + fold size in Hend. lia.
    + cbn [complete with_block2 m_payload]. unfold body. rewrite skipn_firstn_comm. f_equal. lia.
Qed.

Lemma next_block2_target u m resp0 t2 resp r : serving (t_type t2) -> next_block2 u m resp0 = (t2, resp, r) ->
  forall m0, on_target u m0 -> on_target t2 m0.
Proof.
  intros Hs H. assert (Hx : t_type (fst (fst (next_block2 u m resp0))) = TRegular \/
    t_type (fst (fst (next_block2 u m resp0))) = t_type u /\ t_uri (fst (fst (next_block2 u m resp0))) = t_uri u).
  { clear. rename u into t, m into req, resp0 into resp.
    unfold next_block2. destruct (nb_start_spec t req resp) as [t' H1 _|t' u H1 _|o1 o2 E1 E2]; [auto|auto|].
    unfold nb_block2. cbv zeta.
    assert (Hc : forall t r c d, fst (fst (end_code t r c d)) = t).
    { intros t0 r c d. unfold end_code. destruct (set_code r c d); reflexivity. }
    destruct (_ || _); [rewrite Hc; auto|].
    destruct (calc_block_szx _); try (left; reflexivity).
    destruct (format_block_val _ _ _ _); try (left; reflexivity).
    destruct (add_op _ _ _); try (left; reflexivity).
    destruct (bind _ _); try (left; reflexivity).
    rewrite Hc. destruct (_ <? _); [left|right; split]; reflexivity. }
  rewrite H in Hx. cbn [fst] in Hx. destruct Hx as [Hx|[X1 X2]]; [exfalso; apply (proj1 (serving_kind _ Hs)); exact Hx|].
  intros m0. unfold on_target. rewrite X1, X2. auto.
Qed.

Lemma tidy_in c t' s o : tidy c t' s -> In o s -> inner c o \/ o = SDestroy c.
Proof.
  intros (s0 & H & [(-> & _)|(-> & _)]) Hin; rewrite Forall_forall in H; [auto|].
  apply in_app_iff in Hin as [Hin|[<-|[]]]; auto.
Qed.

Definition no_body (o : sobs) : Prop := match o with SBody _ _ => False | _ => True end.

Lemma not_serving t : t_type t = TRegular \/ uploading (t_type t) -> ~ serving (t_type t).
Proof. intros [->|[->| ->]] [H|[H|H]]; discriminate. Qed.

Section App.
Context {A : Type} (P : app A) (E : senv) (C : scfg).
Context (HL : sc_large C < large).
Context (HK : keeps_buffer P) (HP : proper P).

(** A body to serve from its start. *)
Definition starts (m : msg) (t2 : trans) (resp : msg) (r : res unit) (body : list N) : Prop :=
  exists u buf resp0, has_body u buf /\ serving (t_type u) /\ on_target u m /\ t_next2 u = 0 /\ pgood resp0 /\ bytes_ok body /\
    body = firstn (N.to_nat (t_end u)) buf /\ next_block2 u m resp0 = (t2, resp, r).

Lemma nb1_sum a u buf m resp0 a' l t2 resp r : takes_body u buf -> pgood resp0 -> bytes_ok (m_payload m) ->
  nb1_out P a u buf m resp0 (a', l, (t2, resp, r)) ->
  (l = [] /\ ~ serving (t_type t2)) \/
  (exists b, l = [SCall (t_client u) b] /\ ~ serving (t_type t2)) \/
  (exists b body, l = [SCall (t_client u) b; SBody (t_client u) body] /\ starts m t2 resp r body).
Proof.
  intros T W Hpb H.
  inversion H as [t0 H1 H2|t0 o1 d H1 H2 H3|t0 x H1 H2|t0 o1 H1 H2 H3|o1 o2 v E1 E2 D M size Z L Bk Bv|o1 o2 v rx a0 rr l0 x E1 E2 D M size Z L Bk Bv R Ap Ro]; subst.
  1-4: left; split; [reflexivity|apply not_serving; left; assumption].
  - left. split; [reflexivity|]. apply not_serving. right. exact (tb_type _ _ T).
  - right. inversion Ro as [s2 e t0 H1|s2 ls b e t0 H1 H2|s2 ls b t0 H1 H2|s2 ls b e t0 H1 H2 H3 H4 H5 H6 H7 H8 H9 H10]; subst.
    1-3: left; eexists; (split; [reflexivity|apply not_serving; left; assumption]).
    right. eexists _, _. split; [reflexivity|].
    destruct (proj2 HP _ _ _ _ _ _ _ _ _ Ap) as [P1 P2]. specialize (P2 (taken_bytes _ _ _ (tb_bytes _ _ T) Hpb)).
    assert (Wg : pgood (fold_left run_setter ls (with_block1 resp0 v))) by (apply pgood_setters; [apply pgood_block1; auto|exact P1]).
    assert (Wr : rwf (fold_left run_setter ls (with_block1 resp0 v))) by apply Wg.
    destruct (HK _ _ _ _ _ _ _ _ _ Ap) as [K1 K2].
    assert (Hd : t_next1 u + lenN (m_payload m) <= lenN buf) by (apply D).
    rewrite (taken_len _ _ _ Hd) in K1, K2.
    exists t0, b, (fold_left run_setter ls (with_block1 resp0 v)).
    split.
    { split; auto; try lia.
      - rewrite K1. apply (tb_len _ _ T).
      - rewrite H8. apply Wr.
      - rewrite H10. destruct o2 as [b2|]; cbn [resize]; [|apply (tb_size2 _ _ T)].
        pose proof (tb_size2 _ _ T). destruct (_ <? _) eqn:Eb; [apply N.ltb_lt in Eb|]; lia. }
    split; [rewrite H4; destruct (is_type _ _); [right; left|right; right]; reflexivity|].
    split.
    { destruct D as (D1 & D2 & _). split; [|congruence]. rewrite H4.
      destruct (tb_type _ _ T) as [E0|E0]; rewrite E0 in D1 |- *; exact D1. }
    split; [exact H7|]. split; [exact Wg|]. split; [apply firstn_bytes; exact P2|]. split; [reflexivity|congruence].
Qed.

(** What an answer means for the body being served. *)
Inductive sum_ans (t1 : trans) (m : msg) (t2 : trans) : list sobs -> res msg -> Prop :=
| sa_none r2 : (forall resp, r2 = Ok resp -> m_class resp <> 2) -> t2 = t1 \/ t_type t2 = TRegular -> sum_ans t1 m t2 [] r2
| sa_upload r2 : uploading (t_type t1) -> ~ serving (t_type t2) -> sum_ans t1 m t2 [] r2
| sa_next resp r : serving (t_type t1) -> next_block2 t1 m msg_create = (t2, resp, r) -> sum_ans t1 m t2 [] (let* _ := r in Ok resp)
| sa_other o x r2 : boundary (t_client t1) o -> Forall no_body (o :: x) -> ~ serving (t_type t2) -> sum_ans t1 m t2 (o :: x) r2
| sa_body o x body resp r : boundary (t_client t1) o -> Forall no_body (o :: x) ->
    (forall j, fold_left (last_id_obs (t_client t1)) (o :: x) (Some j) = Some j) -> starts m t2 resp r body ->
    sum_ans t1 m t2 (o :: x ++ [SBody (t_client t1) body]) (let* _ := r in Ok resp).

Lemma answered_sum t1 a m t2 s2 a2 r2 : vals_ok (m_ops m) -> lenN (m_payload m) <= 1152 -> bytes_ok (m_payload m) ->
  (uploading (t_type t1) -> exists ms buf s0, up_state C s0 ms buf t1) ->
  answered P C t1 a m t2 s2 a2 r2 -> sum_ans t1 m t2 s2 r2.
Proof.
  intros Hv Hp Hpb HU Ha.
  destruct Ha as [Hz|a' l t' resp r Hz Ht En|a' e Hz Ht Eh|a' l Hz Ht Eh|a1 l s1 s2 body bl rx lg a' ol t' resp r Hz Ht Eh Eb].
  - apply sa_none; [|auto]. destruct (bad_option_resp (server_check_options C m)) as (x & -> & _ & ->). intros resp [= <-]. discriminate.
  - destruct (type_kinds (t_type t1)) as [?|[Hup|Hs]]; [contradiction| |].
    + destruct (HU Hup) as (ms & buf & s0 & U).
      pose proof (next_block1_spec P a t1 buf m msg_create (us_takes _ _ _ _ _ U) Hv Hp rwf_create) as Q. rewrite En in Q.
      destruct (nb1_sum _ _ _ _ _ _ _ _ _ _ (us_takes _ _ _ _ _ U) pgood_create Hpb Q) as [(-> & H)|[(b & -> & H)|(b & body & -> & H)]].
      * apply sa_upload; assumption.
      * apply sa_other; [reflexivity|repeat constructor|exact H].
      * apply (sa_body t1 m t' (SCall (t_client t1) b) []); [reflexivity|repeat constructor|reflexivity|exact H].
    + unfold next_block in En.
      assert (H' : l = [] /\ next_block2 t1 m msg_create = (t', resp, r)) by (destruct Hs as [E1|[E1|E1]]; rewrite E1 in En; split; congruence).
      destruct H' as [-> H']. apply sa_next; assumption.
  - apply sa_other; [reflexivity|repeat constructor|apply not_serving; auto].
  - apply sa_other; [reflexivity|repeat constructor|apply not_serving; auto].
  - destruct (proj1 HP _ _ _ _ _ _ _ _ _ _ Eh) as [P1 P2].
    assert (Wg : pgood (msg_build l)) by (apply pgood_setters; [apply pgood_create|exact P1]).
    pose proof (handle_blockwise_spec P C lg a1 t1 m (msg_build l) s1 s2 body bl rx HL) as Q. rewrite Eb in Q.
    inversion Q as [t0 e H3|t0 H3|t0 u H3 H3' H3''|u1 buf H3 H4 H5 H6 H7 H8 H9 H10 H11|u1 buf H3 H4 H5 H6 H7 H8 H9]; subst.
    1-3: apply sa_other; [reflexivity|repeat constructor|apply not_serving; auto].
    + apply (sa_body t1 m t' (SHandle (t_client t1) m) []); [reflexivity|repeat constructor|reflexivity|].
      exists u1, buf, (msg_build l). split; [exact H5|]. split; [left; exact H6|].
      split; [split; [rewrite H6; exact H3|congruence]|]. split; [exact H7|]. split; [exact Wg|]. split; [apply firstn_bytes; exact P2|].
      split; [symmetry; assumption|assumption].
    + pose proof (next_block1_spec P a1 u1 buf m (msg_build l) H3 Hv Hp (rwf_build l)) as Q'.
      match goal with Hn : next_block P a1 u1 m _ = _ |- _ => rewrite Hn in Q' end.
      destruct (nb1_sum _ _ _ _ _ _ _ _ _ _ H3 Wg Hpb Q') as [(-> & HH)|[(b & -> & HH)|(b & body' & -> & HH)]].
      * apply sa_other; [reflexivity|repeat constructor|exact HH].
      * apply sa_other; [reflexivity|repeat constructor|exact HH].
      * rewrite (core_client _ _ H6).
        apply (sa_body t1 m t' (SHandle (t_client t1) m) [SCall (t_client t1) b]); [reflexivity|repeat constructor|reflexivity|exact HH].
Qed.

Lemma unique_body c b c' b' (x y u w : list sobs) : x ++ SBody c b :: y = u ++ SBody c' b' :: w ->
  Forall no_body u -> Forall no_body w -> x = u /\ y = w /\ c = c' /\ b = b'.
Proof.
  revert u. induction x as [|o x IH]; intros [|o' u]; cbn [List.app]; intros H H1 H2.
  - injection H as -> -> ->. auto.
  - injection H as <- _. inversion H1 as [|? ? Hx _]. contradiction.
  - injection H as -> <-. apply Forall_app in H2 as [_ H2]. inversion H2 as [|? ? Hx _]. contradiction.
  - injection H as -> H. inversion H1 as [|? ? _ H1']. destruct (IH _ H H1' H2) as (-> & -> & -> & ->). auto.
Qed.
Lemma still_no s : Forall still s -> Forall no_body s.
Proof. intro H. eapply Forall_impl; [|exact H]. intros [] Ho; try exact I. exact Ho. Qed.

(** What the response adds to the answers. *)
Lemma reply_answers c m r2 s3 i bs : reply_tail C c m r2 s3 ->
  snd (fold_left (answers_obs c) s3 (i, true, bs)) = bs /\ sends s3 = [] \/
  exists resp k b, r2 = Ok resp /\ k <= 65535 /\ msg_format (complete resp k (m_token m) (resp_type C m)) MAX_BUF_LEN = Ok b /\
    snd (fold_left (answers_obs c) s3 (i, true, bs)) = if nth 1 b 0 / 32 =? 2 then bs ++ [b] else bs.
Proof.
  intros (_ & H2 & [H3|(resp & k & b & H3 & Hk & H4 & H5)]).
  - left. rewrite answers_plain by assumption. auto.
  - right. exists resp, k, b. split; [exact H3|]. split; [exact Hk|]. split; [exact H4|]. rewrite (answers_one _ _ b) by assumption. reflexivity.
Qed.

Lemma rx_serves h t id a d t' s id' a' r : SInv h t -> UInv P C h t -> DInv C h t -> bytes_ok d -> lenN d <= 1152 ->
  rx_run P C t id a d t' s id' a' r ->
  (forall s' rest body i due bs, s = s' ++ rest -> pend (t_client t) (h ++ s') body (i, due, bs) -> served body 0 bs) /\
  (t_active t' = true -> fine false r -> DInv C (h ++ s) t').
Proof.
  intros HS HU HD Hd Hdl Hx. pose proof (proj1 (si_ver _ _ HS)) as Hver.
  set (c := t_client t) in *.
  assert (Hst : forall body i due bs, pend c h body (i, due, bs) -> i = m_id (t_req t)).
  { intros body i due bs H. apply pend_id in H. cbn [fst] in H. pose proof (si_id _ _ HS) as H'. fold c in H'. congruence. }
  apply rx_run_shape in Hx; [|assumption..].
  destruct Hx as [[[Q1 Q2] Q3]|(m & t1 & s1 & t2 & s2 & r2 & s3 & now & a2 & R & W & Hty & Hcl & Hne & H1 & H2 & -> & Hs3 & Hsv)].
  - fold c in Q2, Q3. split.
    + intros s' rest body i due bs -> Hp. apply pend_split in Hp as [([[i0 d0] b0] & H0 & Hi & He)|(x & mid & j & -> & _)].
      2: { exfalso. eapply (still_no_body c body); [exact Q1|rewrite <- app_assoc; reflexivity]. }
      pose proof (Hst _ _ _ _ H0) as ->. destruct (answers_less _ _ _ _ _ (Q2 d0 b0)) as [tl Ht]. rewrite <- He in Ht. cbn [snd] in Ht.
      destruct (di_pend _ _ _ HD _ _ _ _ H0) as [Hs _]. rewrite Ht in Hs. eapply served_prefix. exact Hs.
    + intros Ha _. destruct (Q3 Ha) as (X1 & X2 & X3). split; rewrite X2; fold c.
      * intros body i due bs Hp. apply pend_split in Hp as [([[i0 d0] b0] & H0 & Hi & He)|(x & mid & j & -> & _)].
        2: { exfalso. eapply (still_no_body c body); [exact Q1|reflexivity]. }
        pose proof (Hst _ _ _ _ H0) as ->. pose proof (Q2 d0 b0) as Hb. rewrite <- He in Hb. cbn [snd] in Hb. subst b0.
        destruct (di_pend _ _ _ HD _ _ _ _ H0) as [Hs Hat]. split; [exact Hs|eapply at_body_xfer; [exact X1|exact Hat]].
      * intro Hs. assert (Hs' : serving (t_type t)) by (injection X1 as Y1; rewrite <- Y1; exact Hs).
        destruct (di_serving _ _ _ HD Hs') as (body & m0 & Hp & Ht0). exists body, m0.
        split; [apply busy_app; [exact Hp|exact X3]|]. eapply on_target_xfer; [exact X1|exact Ht0].
  - fold c in Hs3, Hsv |- *. destruct (head_id C _ _ _ Hd (proj2 R)) as [Hdt Hdi].
    destruct (reads_parts _ _ _ Hd R) as (Hv & Hpb & Hpl).
    assert (Hx1 : xfer t1 = xfer t) by (rewrite (acked_xfer _ _ _ _ _ H1); reflexivity).
    assert (Hc1 : t_client t1 = c) by (rewrite (acked_client _ _ _ _ _ H1); reflexivity).
    destruct (acked_still _ _ _ _ _ H1) as (A1 & A2 & A3). destruct (acked_quiet C _ _ _ _ c H1) as [_ A4].
    set (pre := SRecv c d :: SUse c now :: s1).
    assert (Ppre : Forall (inside c) pre) by (constructor; [intros []|constructor; [intros []|exact A4]]).
    assert (Pst : Forall still pre) by (constructor; [exact I|constructor; [exact I|exact A1]]).
    assert (Hfold : forall due bs, fold_left (answers_obs c) pre (m_id (t_req t), due, bs) = (m_id m, true, bs)).
    { intros due bs. unfold pre. rewrite answers_recv, Hdt, Hdi.
      replace (m_type m <=? 1) with true by (destruct Hty as [->| ->]; reflexivity).
      rewrite (proj2 (N.eqb_neq _ _) Hne). cbn [negb]. change (SUse c now :: s1) with ([SUse c now] ++ s1).
      rewrite fold_left_app. cbn [fold_left answers_obs]. apply answers_class; assumption. }
    assert (HU1 : uploading (t_type t1) -> exists ms buf s0, up_state C s0 ms buf t1).
    { intro Hu1. assert (Hu' : uploading (t_type t)) by (injection Hx1 as X1; rewrite <- X1; exact Hu1).
      destruct (HU Hu') as (ms & buf & s0 & S & U & _). exists ms, buf, s0. eapply up_state_xfer; [exact Hx1|exact U]. }
    pose proof (answered_sum _ _ _ _ _ _ _ Hv Hpl Hpb HU1 H2) as Hsum.
    change (SRecv c d :: SUse c now :: s1 ++ s2 ++ s3) with (pre ++ s2 ++ s3).
    assert (Q3 : Forall still s3) by apply Hs3.
    (* nothing but the response *)
    assert (Hplain : s2 = [] ->
       (forall body bs, at_body t1 body bs -> served body 0 bs ->
          let bs' := snd (fold_left (answers_obs c) s3 (m_id m, true, bs)) in
          served body 0 bs' /\ (sends s3 <> [] -> at_body t2 body bs')) ->
       (serving (t_type t2) -> serving (t_type t1)) ->
       (serving (t_type t2) -> forall m0, on_target t1 m0 -> on_target t2 m0) ->
       (forall s' rest body i due bs, pre ++ s2 ++ s3 = s' ++ rest -> pend c (h ++ s') body (i, due, bs) -> served body 0 bs) /\
       (t_active t' = true -> fine false r -> DInv C (h ++ pre ++ s2 ++ s3) t')).
    { intros -> Hb Hk Hk'. cbn [List.app].
      assert (Hall : Forall still (pre ++ s3)) by (apply Forall_app; auto).
      assert (Hstep : forall body i due bs, pend c h body (i, due, bs) ->
         let bs' := snd (fold_left (answers_obs c) (pre ++ s3) (i, due, bs)) in
         served body 0 bs' /\ (sends s3 <> [] -> at_body t2 body bs')).
      { intros body i due bs Hp. pose proof (Hst _ _ _ _ Hp) as ->. rewrite fold_left_app, Hfold.
        destruct (di_pend _ _ _ HD _ _ _ _ Hp) as [Hs Hat]. apply Hb; [eapply at_body_xfer; [exact Hx1|exact Hat]|exact Hs]. }
      split.
      - intros s' rest body i due bs He Hp. apply pend_split in Hp as [([[i0 d0] b0] & H0 & Hi & He')|(x & mid & j & -> & _)].
        2: { exfalso. eapply (still_no_body c body); [exact Hall|rewrite He, <- app_assoc; reflexivity]. }
        destruct (Hstep _ _ _ _ H0) as [Hs _]. rewrite He in Hs.
        destruct (answers_less c s' rest (i0, d0, b0) _ eq_refl) as [tl Ht]. rewrite Ht, <- He' in Hs. eapply served_prefix. exact Hs.
      - intros Ha Hf. destruct (Hsv Ha Hf) as (X1 & X2 & X3 & X4). split; rewrite X2; fold c.
        + intros body i due bs Hp. apply pend_split in Hp as [([[i0 d0] b0] & H0 & Hi & He')|(x & mid & j & Hx & _)].
          2: { exfalso. eapply (still_no_body c body); [exact Hall|exact Hx]. }
          destruct (Hstep _ _ _ _ H0) as [Hs Hat]. rewrite <- He' in Hs, Hat. cbn [snd] in Hs, Hat. split; [exact Hs|].
          eapply at_body_xfer; [exact X1|apply Hat; exact X4].
        + intro Hs. assert (Hs' : serving (t_type t2)) by (injection X1 as Y1; rewrite <- Y1; exact Hs).
          apply Hk in Hs'. assert (Hs0 : serving (t_type t)) by (injection Hx1 as Y1; rewrite <- Y1; exact Hs').
          destruct (di_serving _ _ _ HD Hs0) as (body & m0 & Hp & Ht0). exists body, m0.
          split; [apply busy_app; [exact Hp|apply Forall_app; auto]|]. eapply on_target_xfer; [exact X1|]. apply Hk'; [injection X1 as Y1; rewrite <- Y1; exact Hs|]. eapply on_target_xfer; [exact Hx1|exact Ht0]. }
    (* the handler or the callback is called *)
    assert (Hnr : forall o x body, s2 = o :: x ++ [SBody c body] -> forall d', ~ In (SRecv c d') (o :: x)).
    { intros o x body -> d' Hc. destruct (answered_fine _ _ _ _ _ _ _ _ _ H2) as (_ & _ & [Hbl|(l' & Hl & Hbl)]); rewrite Forall_forall in Hbl.
      - destruct (Hbl (SRecv c d')) as [[? ?]|[? ?]]; try discriminate. destruct Hc as [->|Hc]; [left; reflexivity|right; apply in_or_app; auto].
      - injection Hl as -> <-. destruct Hc as [Hc|Hc]; [discriminate|].
        destruct (Hbl (SRecv c d')) as [[? ?]|[? ?]]; try discriminate. apply in_or_app; auto. }
    assert (Hold : forall o y s' rest body i due bs, boundary c o -> pre ++ (o :: y) ++ s3 = s' ++ rest ->
       forall i0 d0 b0, pend c h body (i0, d0, b0) -> Forall (inside c) s' ->
       (i, due, bs) = fold_left (answers_obs c) s' (i0, d0, b0) -> served body 0 bs).
    { intros o y s' rest body i due bs Ho He i0 d0 b0 H0 Hi He'. symmetry in He. cbn [List.app] in He.
      destruct (inside_prefix _ _ _ _ _ _ He Hi Ho) as [z Hz].
      pose proof (Hst _ _ _ _ H0) as ->. destruct (di_pend _ _ _ HD _ _ _ _ H0) as [Hs _].
      pose proof (Hfold d0 b0) as Hf. rewrite Hz in Hf.
      destruct (answers_less c s' z (m_id (t_req t), d0, b0) b0) as [tl Ht]; [rewrite Hf; reflexivity|].
      rewrite <- He' in Ht. cbn [snd] in Ht. rewrite Ht in Hs. eapply served_prefix. exact Hs. }
    destruct Hsum as [r2 Hr2 Ht2|r2 Hup Ht2|resp r0 Hsr En|o x r2 Ho Hnb Ht2|o x body resp r0 Ho Hnb Hlid Hst2].
    + apply Hplain; [reflexivity| | |].
      * intros body bs Hat Hs.
        assert (Heq : snd (fold_left (answers_obs c) s3 (m_id m, true, bs)) = bs).
        { destruct (reply_answers _ _ _ _ (m_id m) bs Hs3) as [[Hq _]|(resp & k & b & -> & _ & Hf & Hq)]; [exact Hq|]. rewrite Hq.
          destruct (answered_fine _ _ _ _ _ _ _ _ _ H2) as (_ & Wr & _). specialize (Wr _ eq_refl).
          rewrite (format_class _ _ _ Hf) by (cbn; apply Wr). cbn [complete m_class].
          rewrite (proj2 (N.eqb_neq _ _) (Hr2 _ eq_refl)). reflexivity. }
        cbv zeta. rewrite Heq. split; [exact Hs|]. intros _. destruct Ht2 as [->|Ht2]; [exact Hat|left; exact Ht2].
      * destruct Ht2 as [->|Ht2]; [auto|]. rewrite Ht2. intros [H|[H|H]]; discriminate.
      * destruct Ht2 as [->|Ht2]; [auto|]. rewrite Ht2. intros [H|[H|H]]; discriminate.
    + apply Hplain; [reflexivity| |intro; contradiction|intro; contradiction].
      intros body bs [Hat|[Hat _]] _; exfalso; [rewrite Hat in Hup; destruct Hup; discriminate|].
      apply (proj2 (serving_kind _ Hat)). exact Hup.
    + apply Hplain; [reflexivity| |auto|intro Hs2; eapply next_block2_target; [exact Hs2|exact En]].
      intros body bs [Hat|(_ & buf & HB & -> & Hpw & Hbb & _)] Hs; [exfalso; apply (proj1 (serving_kind _ Hsr)); exact Hat|].
      destruct (reply_answers _ _ _ _ (m_id m) bs Hs3) as [[Hq Hq']|(resp' & k & b & Hr & Hk & Hf & Hq)]; cbv zeta; rewrite Hq.
      * split; [exact Hs|]. intro; contradiction.
      * destruct r0 as [[]|e|u|]; cbn [bind] in Hr; try discriminate. injection Hr as <-.
        destruct (block_sent _ _ _ _ _ _ _ _ _ _ _ _ _ _ HB Hsr eq_refl Hpw Hv pgood_create Hbb Hk (pw_tkl _ W) (pw_tok _ W) (resp_type_lt4 C m) En eq_refl Hf) as [B1 B2]. auto.
    + rewrite Hc1 in Ho. split.
      * intros s' rest body i due bs He Hp. apply pend_split in Hp as [([[i0 d0] b0] & H0 & Hi & He')|(x' & mid & j & -> & _)].
        -- eapply Hold; eassumption.
        -- exfalso. assert (Hn : Forall no_body (pre ++ (o :: x) ++ s3)) by (rewrite !Forall_app; auto using still_no).
           rewrite He, <- app_assoc in Hn. apply Forall_app in Hn as [_ Hn]. inversion Hn. contradiction.
      * intros Ha Hf. destruct (Hsv Ha Hf) as (X1 & X2 & X3 & X4). split; rewrite X2; fold c.
        -- intros body i due bs Hp. exfalso. apply pend_split in Hp as [([[i0 d0] b0] & H0 & Hi & He')|(x' & mid & j & He & _)].
           ++ rewrite !Forall_app in Hi. destruct Hi as (_ & Hi & _). inversion Hi. contradiction.
           ++ assert (Hn : Forall no_body (pre ++ (o :: x) ++ s3)) by (rewrite !Forall_app; auto using still_no).
              rewrite He in Hn. apply Forall_app in Hn as [_ Hn]. inversion Hn. contradiction.
        -- intro Hs. exfalso. apply Ht2. injection X1 as Y1. rewrite <- Y1. exact Hs.
    + rewrite Hc1 in Ho, Hlid |- *. destruct Hst2 as (u & buf & resp0 & HB & Hsu & Htu & Hn0 & W0 & Hbb & -> & En).
      set (body := firstn (N.to_nat (t_end u)) buf) in *.
      assert (Eall : pre ++ (o :: x ++ [SBody c body]) ++ s3 = (pre ++ o :: x) ++ SBody c body :: s3).
      { cbn [List.app]. rewrite <- !app_assoc. cbn [List.app]. rewrite <- ?app_assoc. reflexivity. }
      assert (Hnb1 : Forall no_body (pre ++ o :: x)) by (apply Forall_app; auto using still_no).
      assert (Hnew : forall j, let bs := snd (fold_left (answers_obs c) s3 (j, true, [])) in
         served body 0 bs /\ (sends s3 <> [] -> at_body t2 body bs)).
      { intro j. destruct (reply_answers _ _ _ _ j [] Hs3) as [[Hq Hq']|(resp' & k & b & Hr & Hk & Hf & Hq)]; cbv zeta; rewrite Hq.
        - split; [constructor|]. intro; contradiction.
        - destruct r0 as [[]|e|u0|]; cbn [bind] in Hr; try discriminate. injection Hr as <-.
          assert (Hpw : partway body [] (t_next2 u) None) by (rewrite Hn0; constructor).
          destruct (block_sent _ _ _ _ _ _ _ _ _ _ _ _ _ _ HB Hsu eq_refl Hpw Hv W0 Hbb Hk (pw_tkl _ W) (pw_tok _ W) (resp_type_lt4 C m) En eq_refl Hf) as [B1 B2]. auto. }
      split.
      * intros s' rest body' i due bs He Hp. apply pend_split in Hp as [([[i0 d0] b0] & H0 & Hi & He')|(x' & mid & j & -> & Hi & He')].
        -- eapply (Hold o (x ++ [SBody c body])); eassumption.
        -- rewrite Eall in He. symmetry in He. rewrite <- (app_assoc x') in He. cbn [List.app] in He.
           apply unique_body in He as (-> & He & _ & ->); [|exact Hnb1|apply still_no; exact Q3].
           destruct (Hnew j) as [Hs _]. rewrite <- He in Hs.
           destruct (answers_less c mid rest (j, true, []) _ eq_refl) as [tl Ht]. rewrite Ht, <- He' in Hs. eapply served_prefix. exact Hs.
      * intros Ha Hf. destruct (Hsv Ha Hf) as (X1 & X2 & X3 & X4). split; rewrite X2; fold c.
        -- intros body' i due bs Hp. apply pend_split in Hp as [([[i0 d0] b0] & H0 & Hi & He')|(x' & mid & j & He & Hi & He')].
           ++ exfalso. rewrite !Forall_app in Hi. destruct Hi as (_ & Hi & _). inversion Hi. contradiction.
           ++ rewrite Eall in He. symmetry in He. apply unique_body in He as (-> & -> & _ & ->); [|exact Hnb1|apply still_no; exact Q3].
              destruct (Hnew j) as [Hs Hat]. rewrite <- He' in Hs, Hat. split; [exact Hs|]. eapply at_body_xfer; [exact X1|apply Hat; exact X4].
        -- intro Hst'. exists body, m. split.
           2: { eapply on_target_xfer; [exact X1|]. eapply next_block2_target; [|exact En|exact Htu]. injection X1 as Y1. rewrite <- Y1. exact Hst'. }
           exists (h ++ pre ++ o :: x), s3, (m_id m).
           split; [rewrite Eall, app_assoc; reflexivity|]. split; [exact X3|]. split.
           2: { exists h, d, (SUse c now :: s1 ++ o :: x). split; [reflexivity|]. split; [exact R|].
                split; [destruct Hty as [->| ->]; vm_compute; discriminate|]. intros d' [Hc|Hc]; [discriminate|].
                apply in_app_iff in Hc as [Hc|Hc]; [|eapply Hnr; [|exact Hc]; rewrite Hc1; reflexivity].
                pose proof (proj1 (acked_quiet C _ _ _ _ c H1)) as Hq. rewrite Forall_forall in Hq. apply (Hq _ Hc). }
           rewrite !last_id_app, fold_left_app. rewrite <- (Hlid (m_id m)). f_equal.
           pose proof (si_id _ _ HS) as Hi. fold c in Hi. rewrite Hi, <- (answers_id c pre _ true []) by exact Ppre. rewrite Hfold. reflexivity.
Qed.

Lemma tm_quiet t t' s r : tm_run t t' s r -> Forall still s /\
  (forall st, snd (fold_left (answers_obs (t_client t)) s st) = snd st) /\
  (t_active t' = true -> xfer t' = xfer t /\ t_client t' = t_client t /\ Forall (inside (t_client t)) s).
Proof.
  assert (Hq : forall x, Forall plain x -> forall st, snd (fold_left (answers_obs (t_client t)) (STimer (t_client t) :: x) st) = snd st).
  { intros x Hx [[i due] bs]. cbn [fold_left answers_obs]. rewrite N.eqb_refl. rewrite answers_quiet by exact Hx. reflexivity. }
  intros []; (split; [dull|split; [apply Hq; dull|first [discriminate|intros _; split; [reflexivity|split; [reflexivity|dull]]]]]).
Qed.

Lemma tm_serves h t t' s r : SInv h t -> DInv C h t -> tm_run t t' s r ->
  (forall s' rest body i due bs, s = s' ++ rest -> pend (t_client t) (h ++ s') body (i, due, bs) -> served body 0 bs) /\
  (t_active t' = true -> DInv C (h ++ s) t').
Proof.
  intros HS HD Hr. destruct (tm_quiet _ _ _ _ Hr) as (Q1 & Q2 & Q3). split.
  - intros s' rest body i due bs -> Hp. apply pend_split in Hp as [([[i0 d0] b0] & H0 & Hi & He)|(x & mid & j & -> & _)].
    2: { exfalso. eapply (still_no_body (t_client t) body); [exact Q1|rewrite <- app_assoc; reflexivity]. }
    destruct (answers_less _ _ _ _ _ (Q2 (i0, d0, b0))) as [tl Ht]. rewrite <- He in Ht. cbn [snd] in Ht.
    destruct (di_pend _ _ _ HD _ _ _ _ H0) as [Hs _]. rewrite Ht in Hs. eapply served_prefix. exact Hs.
  - intro Ha. destruct (Q3 Ha) as (X1 & X2 & X3). split; rewrite X2.
    + intros body i due bs Hp. apply pend_split in Hp as [([[i0 d0] b0] & H0 & Hi & He)|(x & mid & j & -> & _)].
      2: { exfalso. eapply (still_no_body (t_client t) body); [exact Q1|reflexivity]. }
      pose proof (Q2 (i0, d0, b0)) as Hb. rewrite <- He in Hb. cbn [snd] in Hb. subst b0.
      destruct (di_pend _ _ _ HD _ _ _ _ H0) as [Hs Hat]. split; [exact Hs|eapply at_body_xfer; [exact X1|exact Hat]].
    + intro Hs. assert (Hs' : serving (t_type t)) by (injection X1 as Y1; rewrite <- Y1; exact Hs).
      destruct (di_serving _ _ _ HD Hs') as (body & m0 & Hp & Ht0). exists body, m0.
        split; [apply busy_app; [exact Hp|exact X3]|]. eapply on_target_xfer; [exact X1|exact Ht0].
Qed.

Definition Inv2 (v : @srv A) : Prop := slots SInv v /\ slots (UInv P C) v /\ slots (DInv C) v.

Lemma pend_foreign c h s body st : pend c (h ++ s) body st -> Forall (foreign c) s -> pend c h body st.
Proof.
  intros Hp Hf. apply pend_split in Hp as [(st0 & H0 & _ & ->)|(x & mid & j & -> & _)].
  - rewrite answers_foreign by exact Hf. exact H0.
  - exfalso. apply Forall_app in Hf as [_ Hf]. inversion Hf as [|? ? Hx _]. apply Hx. reflexivity.
Qed.

Lemma DInv_foreign h t s : DInv C h t -> Forall (foreign (t_client t)) s -> DInv C (h ++ s) t.
Proof.
  intros [D1 D2] Hf. split.
  - intros body i due bs Hp. eapply D1, pend_foreign; eassumption.
  - intro Hs. destruct (D2 Hs) as (body & m & Hp & Ht). exists body, m. split; [apply busy_app; [exact Hp|apply foreign_inside; exact Hf]|exact Ht].
Qed.

Lemma DInv_fresh h c now : DInv C (h ++ [SCreate c; SUse c now]) (fresh_trans c now).
Proof.
  split; cbn [fresh_trans t_client t_type].
  - intros body i due bs Hp. exfalso. apply pend_split in Hp as [(st0 & _ & Hi & _)|(x & mid & j & Hx & _)].
    + inversion Hi as [|? ? Ho _]. apply Ho. reflexivity.
    + destruct x as [|o1 [|o2 [|o3 x]]]; discriminate.
  - intros [H|[H|H]]; discriminate.
Qed.

Lemma Inv2_micro v v' s : base v -> Inv2 v -> micro P E C false v v' s -> Inv2 v'.
Proof.
  intros Hb (HS & HU & HD) Hm.
  pose proof (SInv_micro P E C _ _ _ Hb HS Hm) as HS'. pose proof (UInv_micro P E C _ _ _ HL Hb HS HU Hm) as HU'.
  split; [exact HS'|]. split; [exact HU'|].
  assert (H : slots (fun h t => (SInv h t /\ UInv P C h t) /\ DInv C h t) v').
  2: { intros i Hi Ha. apply H; assumption. }
  eapply slots_micro; [..|exact Hb|intros i Hi Ha; split; [split; [apply HS|apply HU]|apply HD]; assumption|exact Hm].
  - intros h t x [[HI HQ] HR] Hf. split; [|apply DInv_foreign; assumption]. split.
    + destruct HI as [Iu Ii Iv If]. split; auto.
      * rewrite last_use_app, last_use_foreign by exact Hf. exact Iu.
      * rewrite last_id_app, last_id_foreign by exact Hf. exact Ii.
    + intro Hu. destruct (HQ Hu) as (ms & buf & s0 & S & U & Of). exists ms, buf, s0. split; [|split; [exact U|exact Of]].
      rewrite <- (app_nil_r ms). eapply since_at_app; [exact S|apply requests_foreign; exact Hf|apply foreign_inside; exact Hf].
  - intros h c now. split; [|apply DInv_fresh]. split.
    + split; cbn [fresh_trans t_client t_last_use t_req t_resp]; auto.
      * rewrite last_use_app. cbn. rewrite N.eqb_refl. reflexivity.
      * rewrite last_id_app. cbn. rewrite N.eqb_refl. reflexivity.
      * exists [64; 0; 0; 0]. vm_compute. reflexivity.
    + intros [H|H]; discriminate.
  - intros t d h t' x id a id' a' r [[HI HQ] HR] Ha Ha' Hd Hdl Hid Hr Hf.
    destruct (rx_serves _ _ _ _ _ _ _ _ _ _ HI HQ HR Hd Hdl Hr) as [_ HD2]. specialize (HD2 Ha' Hf).
    apply rx_run_survive in Hr as (m & now & s' & Hp & W & -> & Hs); [|assumption..].
    split; [split; [eapply SInv_survive; eassumption|eapply UInv_survive; eassumption]|exact HD2].
  - intros t h t' x r [[HI HQ] HR] Ha _ Ha' Hr Hf. destruct (tm_serves _ _ _ _ _ HI HR Hr) as [_ HD2]. specialize (HD2 Ha').
    destruct HI as [Iu Ii Iv If]. split; [|exact HD2]. split.
    + destruct Hr as [Hl|e Hl Hn|Hl|b now Hl Hbb|b e Hl Hbb|Hl Hbb]; try discriminate;
      (split; [rewrite last_use_app; cbn; rewrite ?N.eqb_refl; auto|rewrite last_id_app; cbn; rewrite ?N.eqb_refl; auto|exact Iv|exact If]).
    + assert (Hx : xfer t' = xfer t /\ t_client t' = t_client t /\ m_id (t_req t') = m_id (t_req t) /\
                   Forall silent x /\ Forall (inside (t_client t)) x).
      { destruct Hr; try discriminate; (split; [reflexivity|split; [reflexivity|split; [reflexivity|split; dull]]]). }
      destruct Hx as (X1 & X2 & X3 & X4 & X5). intro Hu.
      assert (Hu' : uploading (t_type t)) by (injection X1 as Y1; rewrite <- Y1; exact Hu).
      destruct (HQ Hu') as (ms & buf & s0 & S & U & Of). exists ms, buf, s0. rewrite X2, X3.
      split; [|split; [eapply up_state_xfer; eassumption|exact Of]]. rewrite <- (app_nil_r ms).
      eapply since_at_app; [exact S|apply requests_silent; exact X4|exact X5].
Qed.

Lemma Inv2_init id a : Inv2 (server_init id a).
Proof.
  split; [apply SInv_init|]. split; [apply UInv_init|].
  intros i Hi Ai. unfold tr, server_init in Ai. cbn [v_tr] in Ai. rewrite nth_repeat in Ai. discriminate.
Qed.

(** ** The history *)

Lemma answers_nothing c o st : (forall b ok, o <> SSend c b ok) -> (forall d, o <> SRecv c d) -> o <> STimer c -> answers_obs c st o = st.
Proof.
  intros H1 H2 H3. destruct st as [[i due] bs]. destruct o; cbn [answers_obs]; try reflexivity;
    (destruct (N.eqb_spec c0 c) as [->|]; [exfalso; first [eapply H1; reflexivity|eapply H2; reflexivity|apply H3; reflexivity]|reflexivity]).
Qed.

Lemma run_served id a evs v r : id <= 65535 -> Forall sev_ok evs -> server_run P E C (server_init id a) evs = (v, r) ->
  forall mid tr1 c body tr2 j, v_trace v = tr1 ++ SBody c body :: mid ++ tr2 -> Forall (inside c) mid -> last_id c tr1 = Some j ->
  served body 0 (answers c j mid).
Proof.
  intros Hid Hev Hr mid. induction mid as [|o mid IH] using rev_ind; intros tr1 c body tr2 j Htr Hi Hj; [constructor|].
  apply Forall_app in Hi as [Hi Ho]. inversion Ho as [|? ? Ho' _]. subst.
  assert (IH' : served body 0 (answers c j mid)).
  { eapply IH; [|exact Hi|exact Hj]. rewrite Htr, <- app_assoc. reflexivity. }
  assert (Hno : (forall st, answers_obs c st o = st) -> served body 0 (answers c j (mid ++ [o]))).
  { intro Hn. unfold answers. rewrite fold_left_app. cbn [fold_left]. rewrite Hn. exact IH'. }
  assert (Htr' : v_trace v = (tr1 ++ SBody c body :: mid) ++ o :: tr2) by (rewrite Htr, <- !app_assoc; reflexivity).
  destruct (run_locate P E C Inv2 _ _ _ _ _ (Inv2_init id a) (fun v v' s => Inv2_micro v v' s) Hid Hev Hr _ _ _ Htr')
    as (v1 & v2 & x1 & y1 & y2 & Hb & (HS & HU & HD) & Hm & Hx & _).
  assert (Hpend : forall c', c' = c -> pend c' (v_trace v1 ++ (x1 ++ [o])) body
                    (fold_left (answers_obs c) (mid ++ [o]) (j, true, []))).
  { intros c' ->. exists tr1, (mid ++ [o]), j. split; [rewrite app_assoc, <- Hx, <- app_assoc; reflexivity|].
    split; [apply Forall_app; auto|]. split; [exact Hj|reflexivity]. }
  remember (x1 ++ o :: y1) as sg eqn:Esg.
  assert (Esg' : sg = (x1 ++ [o]) ++ y1) by (rewrite Esg, <- app_assoc; reflexivity).
  assert (Hin : In o sg) by (rewrite Esg; apply in_or_app; right; left; reflexivity).
  unfold answers in *. destruct (fold_left (answers_obs c) (mid ++ [o]) (j, true, [])) as [[i' due'] bs'] eqn:Ef. cbn [snd] in *.
  assert (Hforeign : forall c', c' <> c -> (inner c' o \/ o = SDestroy c') -> served body 0 bs').
  { intros c' Hc [Hk| ->]; [|apply Hno; intros [[? ?] ?]; reflexivity].
    apply Hno. intro st. apply answers_nothing; [intros b ok ->|intros d ->| intros ->]; cbn in Hk; congruence. }
  pose proof (micro_kind P E C _ _ _ _ Hm) as Hkind.
  destruct Hm as [i v2 Hi' Ha Hu|i c' now v2 Hi' Ha Hn Hu|i v2 Hi' Ha Hu|i d t' s' id' a' r' v2 Hi' Ha Hd Hdl Hid' Hrx Hfi Hu|i t' s' r' v2 Hi' Ha Hma Hrx Hfi Hu].
  - apply Hno. intros [[? ?] ?]. destruct Hin as [<-|[]]. reflexivity.
  - apply Hno. intros [[? ?] ?]. destruct Hin as [<-|[<-|[]]]; reflexivity.
  - destruct Hin.
  - destruct (N.eq_dec (t_client (tr v1 i)) c) as [Hc|Hc].
    + destruct (rx_serves _ _ _ _ _ _ _ _ _ _ (HS i Hi' Ha) (HU i Hi' Ha) (HD i Hi' Ha) Hd Hdl Hrx) as [Q _].
      eapply Q; [exact Esg'|apply Hpend; exact Hc].
    + apply (Hforeign _ Hc). pose proof (rx_run_tidy P C _ _ _ _ _ _ _ _ _ Ha Hrx) as Ht.
      eapply tidy_in; eassumption.
  - destruct (N.eq_dec (t_client (tr v1 i)) c) as [Hc|Hc].
    + destruct (tm_serves _ _ _ _ _ (HS i Hi' Ha) (HD i Hi' Ha) Hrx) as [Q _]. eapply Q; [exact Esg'|apply Hpend; exact Hc].
    + apply (Hforeign _ Hc). pose proof (tm_run_tidy _ _ _ _ Ha Hrx) as Ht.
      eapply tidy_in; eassumption.
Qed.

(** A body is served by a transaction that knows a request. *)
Lemma body_id id a evs v r tr1 c body tr2 : id <= 65535 -> Forall sev_ok evs -> server_run P E C (server_init id a) evs = (v, r) ->
  v_trace v = tr1 ++ SBody c body :: tr2 -> exists j, last_id c tr1 = Some j.
Proof.
  intros Hid Hev Hr Htr.
  destruct (run_locate P E C Inv2 _ _ _ _ _ (Inv2_init id a) (fun v v' s => Inv2_micro v v' s) Hid Hev Hr _ _ _ Htr)
    as (v1 & v2 & x1 & y1 & y2 & Hb & (HS & _) & Hm & -> & _).
  assert (Hin : In (SBody c body) (x1 ++ SBody c body :: y1)) by (apply in_or_app; right; left; reflexivity).
  apply micro_kind in Hm. remember (x1 ++ SBody c body :: y1) as sg eqn:Esg.
  destruct Hm as [i t' s id' a' Hi Ha Ht Hu|i c' now Hi Ha Hn Hu|i Hi Ha Hu].
  - assert (Hc : t_client (tr v1 i) = c).
    { destruct (tidy_in _ _ _ _ Ht Hin) as [H|H]; [cbn in H; congruence|discriminate]. }
    pose proof (si_id _ _ (HS i Hi Ha)) as Hj. rewrite Hc in *. rewrite last_id_app, Hj.
    assert (Hx1 : Forall (inner c) x1).
    { destruct Ht as (s0 & H0 & [(-> & _)|(-> & _)]); [rewrite Esg in H0; apply Forall_app in H0 as [H0 _]; exact H0|].
      assert (Hlast : exists y, s0 = x1 ++ SBody c body :: y).
      { destruct (snoc_split _ _ _ _ _ Esg) as [(_ & _ & Hs)|(y & _ & Hs)]; [discriminate|exists y; exact Hs]. }
      destruct Hlast as [y ->]. apply Forall_app in H0 as [H0 _]. exact H0. }
    clear -Hx1. generalize (m_id (t_req (tr v1 i))). induction Hx1 as [|o x Ho Hx IH]; intro j; [exists j; reflexivity|]. cbn [fold_left].
    destruct o; cbn in Ho |- *; try contradiction; try apply IH. destruct (_ && _); apply IH.
  - exfalso. destruct Hin as [H|[H|[]]]; discriminate.
  - destruct Hin.
Qed.

End App.

Lemma download_served A (P : app A) E C id a evs v r tr1 c body mid tr2 :
  sc_large C < large -> keeps_buffer P -> proper P ->
  id <= 65535 -> Forall sev_ok evs -> server_run P E C (server_init id a) evs = (v, r) ->
  v_trace v = tr1 ++ SBody c body :: mid ++ tr2 -> (forall o, In o mid -> ~ boundary c o) ->
  exists j, last_id c tr1 = Some j /\ served body 0 (answers c j mid).
Proof.
  intros HL HK HP Hid Hev Hr Htr Hmid.
  destruct (body_id P E C HL HK HP id a evs v r tr1 c body (mid ++ tr2) Hid Hev Hr Htr) as [j Hj].
  exists j. split; [exact Hj|].
  apply (run_served P E C HL HK HP id a evs v r Hid Hev Hr mid tr1 c body tr2 j Htr); [|exact Hj].
  apply Forall_forall. exact Hmid.
Qed.
