(** What the server does without undefined behaviour. *)
From Coq Require Import Permutation.
From Verif Require Import BaseLemmas MsgModel MsgSpec MsgLemmas MsgFormatLemmas MsgBlockLemmas
  ClientModel ClientSpec ClientLemmas ClientReplyLemmas ServerModel ServerSpec ServerLemmas ClientBlockLemmas
  ServerTraceLemmas ServerPropLemmas ServerHistLemmas ServerBlockSpec ServerBlockLemmas ServerUploadLemmas
  ServerTransferLemmas ServerDownloadLemmas ServerBlockStepLemmas.

(** ** Formatting *)

Lemma format_no_ub m : m_ver m = 1 -> m_type m < 4 -> m_class m <= 7 -> m_detail m <= 31 -> m_id m <= 65535 ->
  lenN (m_token m) <= 8 -> bytes_ok (m_token m) -> ops_sorted (m_ops m) -> Forall good_op (m_ops m) ->
  (exists b, msg_format m MAX_BUF_LEN = Ok b) \/ (exists e, msg_format m MAX_BUF_LEN = Err e).
Proof.
  intros H1 H2 H3 H4 H5 H6 H7 H8 H9.
  set (m0 := mkmsg (m_ver m) (m_type m) (m_class m) (m_detail m) (m_id m) (m_token m) (m_ops m) []).
  assert (W : wf_msg m0).
  { split; cbn [m0 m_ver m_type m_class m_detail m_id m_token m_ops m_payload]; auto; [|constructor].
    eapply Forall_impl; [|exact H9]. intros o Ho. apply Ho. }
  assert (Hl : Forall len_ok (m_ops m0)) by (eapply Forall_impl; [|exact H9]; intros o Ho; apply Ho).
  assert (Hn : Forall no_short (m_ops m0)) by (eapply Forall_impl; [|exact H9]; intros o Ho; apply Ho).
  pose proof (format_result m0 MAX_BUF_LEN W Hl) as Hr. cbv zeta in Hr.
  destruct (check_ub m) as [Hck|Hck]; [|right; exists EBADMSG; unfold msg_format; rewrite Hck; reflexivity].
  assert (Hck0 : msg_check m0 = Ok tt).
  { revert Hck. unfold msg_check. cbn [m0 m_type m_class m_detail m_token m_ops m_payload]. change (negb (lenN (@nil N) =? 0)) with false.
    destruct (_ && _); [|auto]. rewrite orb_false_r.
    destruct (m_type m =? T_NON), (lenN (m_token m) =? 0), (lenN (m_ops m) =? 0); cbn [orb negb]; auto; discriminate. }
  assert (E : msg_format m MAX_BUF_LEN = let* o3 := msg_format m0 MAX_BUF_LEN in format_payload MAX_BUF_LEN m o3 (sub64 MAX_BUF_LEN (lenN o3))).
  { unfold msg_format. rewrite Hck, Hck0. change (format_hdr MAX_BUF_LEN m0) with (format_hdr MAX_BUF_LEN m).
    change (format_token MAX_BUF_LEN m0) with (format_token MAX_BUF_LEN m). change (m_ops m0) with (m_ops m).
    cbn [bind]. destruct (format_hdr _ _ _ _); cbn [bind]; auto.
    destruct (format_token _ _ _ _); cbn [bind]; auto. destruct (format_ops _ _ _ _ _); cbn [bind]; auto. }
  destruct Hr as [(Hr & Hsz & _)|[(Hr & _)|[(Hr & _)|(_ & _ & Hr)]]].
  - unfold MAX_BUF_LEN, two64. lia.
  - rewrite E, Hr. cbn [bind]. unfold format_payload. destruct (_ =? _); [left; eauto|].
    destruct (N.ltb_spec (sub64 MAX_BUF_LEN (lenN (enc_msg m0))) (lenN (m_payload m) + 1)) as [Hlt|Hge]; [right; eauto|].
    left. unfold wr. rewrite lenN_enc_msg in *. unfold sub64 in Hge. unfold MAX_BUF_LEN, two64 in *. rewrite lenN_cons.
    match goal with |- context [?a <=? ?b] => destruct (N.leb_spec a b) end; eauto. exfalso. lia.
  - right. rewrite E, Hr. eexists. reflexivity.
  - right. rewrite E, Hr. eexists. reflexivity.
  - contradiction.
Qed.

Lemma good_op_block num v : 13 <= num -> num < 65536 -> lenN v = 3 -> bytes_ok v -> good_op (mkop num v).
Proof.
  intros H1 H2 Hl Hv. split; [|split].
  - split; [cbn; unfold two32; lia|]. split; [exact Hv|]. unfold o_len. cbn. rewrite Hl. reflexivity.
  - unfold len_ok, o_len. cbn. rewrite Hl. reflexivity.
  - left. exact H1.
Qed.

Definition good (m : msg) : Prop := rwf m /\ Forall good_op (m_ops m).

Lemma good_create : good msg_create.
Proof. split; [apply rwf_create|constructor]. Qed.

Lemma good_setter m s : good m -> tame s -> good (run_setter m s).
Proof.
  intros [W G] Ht. split; [apply (rwf_setters [s]); exact W|]. unfold run_setter. destruct s as [t|c d|i|t|n v|pl|].
  - unfold set_type. destruct (_ && _); exact G.
  - unfold set_code. destruct (_ <? _); [exact G|]. destruct (_ <? _); exact G.
  - unfold set_msg_id. destruct (_ <? _); exact G.
  - unfold set_token. destruct (_ <? _); exact G.
  - unfold add_op. apply Forall_add; auto. apply W.
  - exact G.
  - exact G.
Qed.
Lemma good_setters l m : good m -> Forall tame l -> good (fold_left run_setter l m).
Proof. intros G H. revert m G. induction H as [|s l Hs Hl IH]; intros m G; [exact G|]. apply IH, good_setter; assumption. Qed.

Lemma good_code m c d : good m -> c <= 7 -> d <= 31 -> good (with_code m c d).
Proof. intros [[W1 W2 W3 W4 W5 W6 W7] G] Hc Hd. split; [split; auto|exact G]. Qed.
Lemma good_block1 m v : good m -> lenN v = 3 -> bytes_ok v -> good (with_block1 m v).
Proof.
  intros [[W1 W2 W3 W4 W5 W6 W7] G] Hl Hv. split.
  - split; auto. cbn [with_block1 m_ops]. apply (adds_sorted [_]). exact W7.
  - cbn [with_block1 m_ops]. apply Forall_add; auto. apply good_op_block; auto; vm_compute; [discriminate|reflexivity].
Qed.
Lemma good_block2 m v pl d : good m -> lenN v = 3 -> bytes_ok v -> d <= 31 -> good (with_block2 m v pl d).
Proof.
  intros [[W1 W2 W3 W4 W5 W6 W7] G] Hl Hv Hd. split.
  - split; auto; try (cbn; lia). cbn [with_block2 m_ops]. apply (adds_sorted [_]). exact W7.
  - cbn [with_block2 m_ops]. apply Forall_add; auto. apply good_op_block; auto; vm_compute; [discriminate|reflexivity].
Qed.

Section App.
Context {A : Type} (P : app A) (E : senv) (C : scfg).
Context (HL : sc_large C < large).
Context (HW : well_behaved P).

Lemma behaved_keeps : keeps_buffer P.
Proof. intros rx a buf bend req a' l b' e' H. apply HW in H as (_ & H). exact H. Qed.

Definition safe_ans (m : msg) (x : trans * msg * res unit) : Prop :=
  let '(_, resp, r) := x in
  (r = Ok tt /\ good resp) \/ (exists e, r = Err e) \/ block_ub m.

Lemma nb2_safe t buf m resp : has_body t buf -> serving (t_type t) -> vals_ok (m_ops m) -> good resp ->
  safe_ans m (next_block2 t m resp).
Proof.
  intros HB Hs Hv G. pose proof (next_block2_spec t buf m resp HB Hv Hs) as Q.
  destruct Q as [t' Ht Hn|t' x Ht Hu|t' o2 Ht E2 Hz|o1 o2 v E1 E2 D size Hsz Hend Hv3 Hvb Hbv|t' o1 o2 v E1 E2 D size Hsz Ht Hend Hv3 Hvb Hbv]; cbn [safe_ans].
  - left. split; [reflexivity|]. apply good_code; auto; lia.
  - auto.
  - right. left. eauto.
  - left. split; [reflexivity|]. apply good_block2; auto; lia.
  - left. split; [reflexivity|]. apply good_block2; auto. destruct (is_type _ _); [lia|apply HB].
Qed.

Lemma nb1_safe a t buf m resp : takes_body t buf -> vals_ok (m_ops m) -> lenN (m_payload m) <= 1152 -> good resp ->
  safe_ans m (snd (next_block P a t m resp)).
Proof.
  intros T Hv Hp G. pose proof (next_block1_spec P a t buf m resp T Hv Hp (proj1 G)) as Q.
  destruct Q as [t0 H1 H2|t0 o1 d H1 H2 H3|t0 u H1 H2|t0 o1 H1 H2 H3|o1 o2 v E1 E2 D M size Z L Bk Bv|o1 o2 v rx a0 rr l0 x E1 E2 D M size Z L Bk Bv R Ap Ro];
    cbn [snd safe_ans].
  - left. split; [reflexivity|]. apply good_code; auto; lia.
  - left. split; [reflexivity|]. apply good_code; auto; [lia|].
    destruct H3 as [(_ & [(_ & ->)|(_ & [(_ & ->)|(_ & _ & ->)])])|(_ & ->)]; lia.
  - auto.
  - right. left. eauto.
  - left. split; [reflexivity|]. apply good_code; [|lia|lia]. apply good_block1; auto.
  - assert (G1 : good (with_block1 resp v)) by (apply good_block1; auto).
    pose proof (tb_size2 _ _ T) as Hs2.
    inversion Ro as [s2 e t0 H1|s2 ls b e t0 H1 H2|s2 ls b t0 H1 H2|s2 ls b e t0 H1 H2 H3 H4 H5 H6 H7 H8 H9 H10]; subst; cbn [safe_ans].
    + right. left. eauto.
    + left. split; [reflexivity|]. apply HW in Ap as (Ht & _). apply good_setters; auto.
    + left. split; [reflexivity|]. apply HW in Ap as (Ht & _). apply good_setters; auto.
    + apply HW in Ap as (Ht & K1 & K2). assert (G2 := good_setters _ _ G1 Ht).
      rewrite (taken_len _ _ _ (proj2 (proj2 (proj2 (proj2 D))))) in K1, K2.
      eapply (nb2_safe t0 b); auto.
      * split; auto; try lia; [rewrite K1; apply T|rewrite H8; apply G2|]. rewrite H10. unfold resize. destruct o2 as [b2|]; [|exact Hs2].
        destruct (N.ltb_spec (b_size b2) (t_size2 t)); lia.
      * rewrite H4. destruct (is_type _ _); [right; left|right; right]; reflexivity.
Qed.

Lemma answered_safe t1 a m t2 s2 a2 r2 : vals_ok (m_ops m) -> lenN (m_payload m) <= 1152 ->
  (uploading (t_type t1) -> exists buf, takes_body t1 buf) -> (serving (t_type t1) -> exists buf, has_body t1 buf) ->
  answered P C t1 a m t2 s2 a2 r2 -> (exists resp, r2 = Ok resp /\ good resp) \/ (exists e, r2 = Err e) \/ block_ub m.
Proof.
  intros Hv Hp HU HS Ha.
  assert (Hsafe : forall t' resp r, safe_ans m (t', resp, r) ->
     (exists resp', (let* _ := r in Ok resp) = Ok resp' /\ good resp') \/ (exists e, (let* _ := r in Ok resp) = Err e) \/ block_ub m).
  { intros t' resp r [(-> & G)|[(e & ->)|Hb]]; [left; exists resp; auto|right; left; exists e; reflexivity|auto]. }
  destruct Ha as [Hz|a' l t' resp r Hz Ht En|a' e Hz Ht Eh|a' l Hz Ht Eh|a1 l s1 s2 body bl rx lg a' ol t' resp r Hz Ht Eh Eb].
  - left. destruct (bad_option_resp (server_check_options C m)) as (x & -> & W & ->). eexists. split; [reflexivity|]. split; [exact W|constructor].
  - apply (Hsafe t'). destruct (type_kinds (t_type t1)) as [?|[Hup|Hs]]; [contradiction| |].
    + destruct (HU Hup) as (buf & T). pose proof (nb1_safe a t1 buf m msg_create T Hv Hp good_create) as Q. rewrite En in Q. exact Q.
    + destruct (HS Hs) as (buf & B). pose proof (nb2_safe t1 buf m msg_create B Hs Hv good_create) as Q.
      unfold next_block in En. assert (En' : next_block2 t1 m msg_create = (t', resp, r)) by (destruct Hs as [E1|[E1|E1]]; rewrite E1 in En; congruence).
      rewrite En' in Q. exact Q.
  - right. left. eauto.
  - left. eexists. split; [reflexivity|]. apply HW in Eh. apply good_setters; [apply good_create|exact Eh].
  - apply (Hsafe t'). apply HW in Eh as [Hl Hbl]. assert (G := good_setters _ _ good_create Hl). fold (msg_build l) in G.
    pose proof (handle_blockwise_spec P C lg a1 t1 m (msg_build l) s1 s2 body bl rx HL) as Q. rewrite Eb in Q.
    inversion Q as [t0 e H3|t0 H3|t0 u H3 H3' H3''|u1 buf H3 H4 H5 H6 H7 H8 H9 H10 H11|u1 buf H3 H4 H5 H6 H7 H8 H9]; subst.
    + right. left. eauto.
    + left. split; [reflexivity|]. apply good_code; auto; lia.
    + lia.
    + match goal with Hn : next_block2 _ _ _ = _ |- _ => rename Hn into Hnb end. rewrite Hnb.
      pose proof (nb2_safe u1 buf m (msg_build l) H5 (or_introl H6) Hv G) as Q'. rewrite Hnb in Q'. exact Q'.
    + match goal with Hn : next_block P _ _ _ _ = _ |- _ => rename Hn into Hnb end.
      pose proof (nb1_safe a1 u1 buf m (msg_build l) H3 Hv Hp G) as Q'. rewrite Hnb in Q'. exact Q'.
Qed.

(** ** A transaction that serves a body has one *)

Definition BInv (t : trans) : Prop := serving (t_type t) -> exists buf, has_body t buf.

Lemma BInv_xfer t t' : xfer t' = xfer t -> BInv t -> BInv t'.
Proof.
  intros Hx H Hs. assert (Hs' : serving (t_type t)) by (injection Hx as X1; rewrite <- X1; exact Hs).
  destruct (H Hs') as [buf B]. exists buf. eapply has_body_xfer; eassumption.
Qed.
Lemma BInv_not t : ~ serving (t_type t) -> BInv t.
Proof. intros H Hs. contradiction. Qed.

Lemma nb2_keeps u buf m resp0 t2 resp r : has_body u buf -> serving (t_type u) -> vals_ok (m_ops m) ->
  next_block2 u m resp0 = (t2, resp, r) -> BInv t2.
Proof.
  intros HB Hs Hv En. pose proof (next_block2_spec u buf m resp0 HB Hv Hs) as Q. rewrite En in Q.
  inversion Q as [t' Ht Hn|t' x Ht Hu|t' o2 Ht E2 Hz|o1 o2 v E1 E2 D size Hsz Hend Hv3 Hvb Hbv|t' o1 o2 v E1 E2 D size Hsz Ht Hend Hv3 Hvb Hbv]; subst;
    try (apply BInv_not, not_serving; left; assumption).
  intros _. exists buf. destruct HB as [B1 B2 B3 B4 B5 B6]. split; cbn [t_body t_with_block t_end t_next2 t_detail t_size2]; auto.
  destruct Hsz as (szx & Hs7 & Hsz). change (size <= 1024). rewrite Hsz. apply pow_szx. exact Hs7.
Qed.
Lemma nb1_keeps a u buf m resp0 a' l t2 resp r : takes_body u buf -> rwf resp0 ->
  nb1_out P a u buf m resp0 (a', l, (t2, resp, r)) -> vals_ok (m_ops m) -> BInv t2.
Proof.
  intros T W H Hv.
  inversion H as [t0 H1 H2|t0 o1 d H1 H2 H3|t0 x H1 H2|t0 o1 H1 H2 H3|o1 o2 v E1 E2 D M size Z L Bk Bv|o1 o2 v rx a0 rr l0 x E1 E2 D M size Z L Bk Bv R Ap Ro]; subst.
  1-4: apply BInv_not, not_serving; left; assumption.
  - apply BInv_not, not_serving. right. exact (tb_type _ _ T).
  - inversion Ro as [s2 e t0 H1|s2 ls b e t0 H1 H2|s2 ls b t0 H1 H2|s2 ls b e t0 H1 H2 H3 H4 H5 H6 H7 H8 H9 H10]; subst.
    1-3: apply BInv_not, not_serving; left; assumption.
    assert (Wr : rwf (fold_left run_setter ls (with_block1 resp0 v))).
    { apply rwf_setters. destruct W as [W1 W2 W3 W4 W5 W6 W7]. split; auto. cbn [with_block1 m_ops]. apply (adds_sorted [_]). exact W7. }
    destruct (behaved_keeps _ _ _ _ _ _ _ _ _ Ap) as [K1 K2].
    assert (Hd : t_next1 u + lenN (m_payload m) <= lenN buf) by (apply D).
    rewrite (taken_len _ _ _ Hd) in K1, K2.
    eapply (nb2_keeps t0 b); [|rewrite H4; destruct (is_type _ _); [right; left|right; right]; reflexivity|exact Hv|eassumption].
    split; auto; try lia.
    + rewrite K1. apply (tb_len _ _ T).
    + rewrite H8. apply Wr.
    + rewrite H10. destruct o2 as [b2|]; cbn [resize]; [|apply (tb_size2 _ _ T)].
      pose proof (tb_size2 _ _ T). destruct (_ <? _) eqn:Eb; [apply N.ltb_lt in Eb|]; lia.
Qed.

Lemma answered_body t1 a m t2 s2 a2 r2 : vals_ok (m_ops m) -> lenN (m_payload m) <= 1152 ->
  (uploading (t_type t1) -> exists buf, takes_body t1 buf) -> BInv t1 -> answered P C t1 a m t2 s2 a2 r2 -> BInv t2.
Proof.
  intros Hv Hp HU HS Ha.
  destruct Ha as [Hz|a' l t' resp r Hz Ht En|a' e Hz Ht Eh|a' l Hz Ht Eh|a1 l s1 s2 body bl rx lg a' ol t' resp r Hz Ht Eh Eb].
  - exact HS.
  - destruct (type_kinds (t_type t1)) as [?|[Hup|Hs]]; [contradiction| |].
    + destruct (HU Hup) as (buf & T). pose proof (next_block1_spec P a t1 buf m msg_create T Hv Hp rwf_create) as Q. rewrite En in Q.
      eapply nb1_keeps; [exact T|exact rwf_create|exact Q|exact Hv].
    + destruct (HS Hs) as (buf & B). unfold next_block in En.
      assert (En' : next_block2 t1 m msg_create = (t', resp, r)) by (destruct Hs as [E1|[E1|E1]]; rewrite E1 in En; congruence).
      eapply nb2_keeps; [exact B|exact Hs|exact Hv|exact En'].
  - apply BInv_not, not_serving. auto.
  - apply BInv_not, not_serving. auto.
  - pose proof (handle_blockwise_spec P C lg a1 t1 m (msg_build l) s1 s2 body bl rx HL) as Q. rewrite Eb in Q.
    inversion Q as [t0 e H3|t0 H3|t0 u H3 H3' H3''|u1 buf H3 H4 H5 H6 H7 H8 H9 H10 H11|u1 buf H3 H4 H5 H6 H7 H8 H9]; subst.
    1-3: apply BInv_not, not_serving; auto.
    + match goal with Hn : next_block2 _ _ _ = _ |- _ => rename Hn into Hnb end.
      eapply nb2_keeps; [exact H5|left; exact H6|exact Hv|exact Hnb].
    + match goal with Hn : next_block P _ _ _ _ = _ |- _ => rename Hn into Hnb end.
      pose proof (next_block1_spec P a1 u1 buf m (msg_build l) H3 Hv Hp (rwf_build l)) as Q'. rewrite Hnb in Q'.
      eapply nb1_keeps; [exact H3|apply rwf_build|exact Q'|exact Hv].
Qed.

Lemma rx_body h t id a d t' s id' a' r : SInv h t -> UInv P C h t -> BInv t -> bytes_ok d -> lenN d <= 1152 ->
  rx_run P C t id a d t' s id' a' r -> t_active t' = true -> fine false r -> BInv t'.
Proof.
  intros HS HU HB Hd Hdl Hx Ha Hf. pose proof (proj1 (si_ver _ _ HS)) as Hver.
  apply rx_run_shape in Hx; [|assumption..].
  destruct Hx as [[_ Q]|(m & t1 & s1 & t2 & s2 & r2 & s3 & now & a2 & R & W & Hty & Hcl & Hne & H1 & H2 & -> & Hs3 & Hsv)].
  - eapply BInv_xfer; [apply (Q Ha)|exact HB].
  - destruct (reads_parts _ _ _ Hd R) as (Hv & _ & Hpl).
    assert (Hx1 : xfer t1 = xfer t) by (rewrite (acked_xfer _ _ _ _ _ H1); reflexivity).
    destruct (Hsv Ha Hf) as (X1 & _). eapply BInv_xfer; [exact X1|].
    eapply answered_body; [exact Hv|exact Hpl| |eapply BInv_xfer; [exact Hx1|exact HB]|exact H2].
    intro Hu1. assert (Hu' : uploading (t_type t)) by (injection Hx1 as Y1; rewrite <- Y1; exact Hu1).
    destruct (HU Hu') as (ms & buf & s0 & S & U & _). exists buf. apply (us_takes _ _ _ _ _ (up_state_xfer _ _ _ _ _ _ Hx1 U)).
Qed.

Definition Inv3 (v : @srv A) : Prop := slots SInv v /\ slots (UInv P C) v /\ slots (fun _ t => BInv t) v.

Lemma Inv3_micro v v' s : base v -> Inv3 v -> micro P E C false v v' s -> Inv3 v'.
Proof.
  intros Hb (HS & HU & HD) Hm.
  pose proof (SInv_micro P E C _ _ _ Hb HS Hm) as HS'. pose proof (UInv_micro P E C _ _ _ HL Hb HS HU Hm) as HU'.
  split; [exact HS'|]. split; [exact HU'|].
  assert (H : slots (fun h t => (SInv h t /\ UInv P C h t) /\ BInv t) v').
  2: { intros i Hi Ha. apply H; assumption. }
  eapply slots_micro; [..|exact Hb|intros i Hi Ha; split; [split; [apply HS|apply HU]|apply HD]; assumption|exact Hm].
  - intros h t x [[HI HQ] HR] Hf. split; [|exact HR]. split.
    + destruct HI as [Iu Ii Iv If]. split; auto.
      * rewrite last_use_app, last_use_foreign by exact Hf. exact Iu.
      * rewrite last_id_app, last_id_foreign by exact Hf. exact Ii.
    + intro Hu. destruct (HQ Hu) as (ms & buf & s0 & S & U & Of). exists ms, buf, s0. split; [|split; [exact U|exact Of]].
      rewrite <- (app_nil_r ms). eapply since_at_app; [exact S|apply requests_foreign; exact Hf|apply foreign_inside; exact Hf].
  - intros h c now. split; [|intros [H|[H|H]]; discriminate]. split.
    + split; cbn [fresh_trans t_client t_last_use t_req t_resp]; auto.
      * rewrite last_use_app. cbn. rewrite N.eqb_refl. reflexivity.
      * rewrite last_id_app. cbn. rewrite N.eqb_refl. reflexivity.
      * exists [64; 0; 0; 0]. vm_compute. reflexivity.
    + intros [H|H]; discriminate.
  - intros t d h t' x id a id' a' r [[HI HQ] HR] Ha Ha' Hd Hdl Hid Hr Hf.
    pose proof (rx_body _ _ _ _ _ _ _ _ _ _ HI HQ HR Hd Hdl Hr Ha' Hf) as HD2.
    apply rx_run_survive in Hr as (m & now & s' & Hp & W & -> & Hs); [|assumption..].
    split; [split; [eapply SInv_survive; eassumption|eapply UInv_survive; eassumption]|exact HD2].
  - intros t h t' x r [[HI HQ] HR] Ha _ Ha' Hr Hf.
    assert (HD2 : BInv t') by (eapply BInv_xfer; [apply (proj2 (proj2 (tm_quiet _ _ _ _ Hr)) Ha')|exact HR]).
    destruct HI as [Iu Ii Iv If]. split; [|exact HD2]. split.
    + destruct Hr as [Hl|e Hl Hn|Hl|b now Hl Hbb|b e Hl Hbb|Hl Hbb]; try discriminate;
      (split; [rewrite last_use_app; cbn; rewrite ?N.eqb_refl; auto|rewrite last_id_app; cbn; rewrite ?N.eqb_refl; auto|exact Iv|exact If]).
    + assert (Hx : xfer t' = xfer t /\ t_client t' = t_client t /\ m_id (t_req t') = m_id (t_req t) /\
                   Forall silent x /\ Forall (inside (t_client t)) x).
      { destruct Hr; try discriminate; (split; [reflexivity|split; [reflexivity|split; [reflexivity|split; dull]]]). }
      destruct Hx as (X1 & X2 & X3 & X4 & X5). intro Hu.
      assert (Hu' : uploading (t_type t)) by (injection X1 as Y1; rewrite <- Y1; exact Hu).
      destruct (HQ Hu') as (ms & buf & s0 & S & U & Of). exists ms, buf, s0. rewrite X2, X3.
      split; [|split; [eapply up_state_xfer; eassumption|exact Of]]. rewrite <- (app_nil_r ms).
      eapply since_at_app; [exact S|apply requests_silent; exact X4|exact X5].
Qed.

Lemma Inv3_init id a : Inv3 (server_init id a).
Proof.
  split; [apply SInv_init|]. split; [apply UInv_init|].
  intros i Hi Ha. exfalso. revert Ha. do 8 (destruct i as [|i]; [discriminate|]). lia.
Qed.

Lemma run_safe h t id a d t' s id' a' r : SInv h t -> UInv P C h t -> BInv t -> bytes_ok d -> lenN d <= 1152 ->
  rx_run P C t id a d t' s id' a' r ->
  r = Ok tt \/ (exists e, r = Err e) \/ unparsed C d \/ exists m, reads C d m /\ block_ub m.
Proof.
  intros HS HU HD Hd Hdl Hx.
  destruct Hx as [r1 Hp Hn1 Hn2|e s3 Hp Hs|m now t1 s3 id1 a1 r1 Hp W Hr].
  - right. right. left. destruct (N.eq_dec (lenN d) 1152) as [Hl|Hl]; [|exfalso].
    { split; [exact Hl|]. rewrite Hl in Hp. change (N.to_nat (1152 - 1152)) with 0%nat in Hp. cbn [repeat] in Hp.
      rewrite app_nil_r in Hp. rewrite Hp. auto. }
    destruct (parse_err_or_ok (sc_sg C) d (repeat 0 (N.to_nat (1152 - lenN d)))) as [[m H]|[H|H]].
    + destruct (N.to_nat (1152 - lenN d)) eqn:En; [lia|discriminate].
    + eapply Hn1. rewrite <- Hp. exact H.
    + eapply Hn2. rewrite <- Hp. exact H.
    + eapply Hn2. rewrite <- Hp. exact H.
  - right. left. eauto.
  - assert (R : reads C d m) by (split; [lia|exact Hp]). destruct (reads_parts _ _ _ Hd R) as (Hv & _ & Hpl).
    inversion Hr as [H1 H2|now' H1 H2 H3|e H1 H2 H3|b now' H1 H2 H3 H4|b H1 H2 H3 H4|t0 s0 r0 H1 H2 H3 H4 H5|H1 H2|e H1 H2|H1|s0 H1 H2 H3 H4|t0 s0 id0 a0 r0 H1 H2 H3 H4]; subst; eauto.
    + exfalso. destruct (si_fmt _ _ HS) as [b Hb]. apply (H4 b Hb).
    + inversion H4 as [e Hc Hs|t2 s1' t3 s2 a2 e Hak Han|t2 s1' t3 s2 a2 r2 Hak Han N1 N2|t2 s1' t3 s2 a2 resp sx id2 i2 t4 s4 r3 Hak Han Hid B1 B2 Hso]; subst; eauto.
      all: assert (Hx1 : xfer t2 = xfer t) by (rewrite (acked_xfer _ _ _ _ _ Hak); reflexivity).
      all: assert (HU1 : uploading (t_type t2) -> exists buf, takes_body t2 buf)
        by (intro Hu; assert (Hu' : uploading (t_type t)) by (injection Hx1 as X1; rewrite <- X1; exact Hu);
            destruct (HU Hu') as (ms & buf & z & _ & U & _); exists buf; apply (us_takes _ _ _ _ _ (up_state_xfer _ _ _ _ _ _ Hx1 U))).
      all: assert (HD1 : BInv t2) by (eapply BInv_xfer; [exact Hx1|exact HD]).
      all: destruct (answered_safe _ _ _ _ _ _ _ Hv Hpl HU1 HD1 Han) as [(resp' & Hr2 & G)|[(e' & Hr2)|Hub]]; [| |right; right; right; eauto].
      * exfalso. eapply N1. exact Hr2.
      * exfalso. eapply N2. exact Hr2.
      * injection Hr2 as <-. destruct G as [Wr Go]. pose proof (resp_type_lt C m) as Hty.
        destruct (format_no_ub (complete resp i2 (m_token m) (resp_type C m))) as [(b & Hb)|(e & He)];
          try (apply Wr); try (apply W); auto; [cbn; lia| |].
        -- inversion Hso as [e Hf|r9 Hf N1 N2|b' e Hf|b' now' Hf|b' now' q Hf _ _|b' now' q r9 Hf _ _|b' now' r9 e Hf _]; subst; eauto.
           exfalso. eapply N1. exact Hb.
        -- inversion Hso as [e' Hf|r9 Hf N1 N2|b' e' Hf|b' now' Hf|b' now' q Hf _ _|b' now' q r9 Hf _ _|b' now' r9 e' Hf _]; subst; eauto.
           exfalso. eapply N2. exact He.
      * discriminate.
Qed.



Lemma timers_safe l (v : @srv A) i v' r : base v -> slots SInv v -> (i + length l <= 8)%nat -> server_timers E v i l = (v', r) -> ~ stops r.
Proof.
  revert v i. induction l as [|x l IH]; intros v i Hb HS Hi; cbn [server_timers length] in *.
  - intros [= <- <-] [[u H]|H]; discriminate.
  - destruct x; cbn [andb]; [|intro H; eapply IH; [exact Hb|exact HS| |exact H]; lia].
    destruct (t_active (tr v i)) eqn:Ea; cbn [andb]; [|intro H; eapply IH; [exact Hb|exact HS| |exact H]; lia].
    destruct (t_armed (tr v i)) eqn:Er; [|intro H; eapply IH; [exact Hb|exact HS| |exact H]; lia].
    destruct (trans_handle_ack_timeout E _ i) as [v1 r1] eqn:Et.
    apply timeout_spec in Et as (t' & s & Hm & Hu); [|rewrite (ba_len _ Hb); lia].
    destruct (si_fmt _ _ (HS i ltac:(lia) Ea)) as [b Hfmt].
    assert (Hr1 : r1 = Ok tt \/ exists e, r1 = Err e) by (destruct Hm; eauto; exfalso; eauto; congruence).
    destruct Hr1 as [->|[e ->]]; [|intros [= <- <-] [[u H]|H]; discriminate].
    assert (Hmi : forall ub, micro P E C ub v v1 s) by (intro ub; eapply mi_timer; try eassumption; try lia; right; reflexivity).
    intro H. eapply IH in H; [exact H|exact (micro_base P E C true _ _ _ Hb (Hmi true))| |lia].
    exact (SInv_micro P E C _ _ _ Hb HS (Hmi false)).
Qed.

Lemma step_safe v e v' r s x : step P E C v e v' r s -> r = Some x -> stops x ->
  exists c d, e = EvRx c d None /\ (unparsed C (firstn 1152 d) \/ exists m, reads C (firstn 1152 d) m /\ block_ub m).
Proof.
  intros Hst -> Hx. pose proof Hst as (Hre & He & Hs & _).
  destruct (reach_inv P E C Inv3 v) as [Hb [HS [HU HD]]]; auto;
    [intros; apply Inv3_init|exact Inv3_micro|].
  destruct e as [e|e|c d fail|l].
  - cbn [server_step] in Hs. injection Hs as _ <-. destruct Hx as [[u H]|H]; discriminate.
  - discriminate.
  - apply step_in_rx in Hst as [_ Hst]. cbn in He.
    assert (Hrecv : exists v1 s1 i t' s2 id' a' r1, got E v c v1 s1 (Some i) /\ fail = None /\
       rx_run P C (tr v1 i) (v_id v1) (v_app v1) (rx_cut d) t' s2 id' a' r1 /\ outcome r1 = Some x).
    { inversion Hst as [| | |v1 s1 i t' s2 id' a' r1 v2 Hg Hf Hid Hrun Hu H1 H2 H3]; try discriminate.
      exists v1, s1, i, t', s2, id', a', r1. auto. }
    destruct Hrecv as (v1 & s1 & i & t' & s2 & id' & a' & r1 & Hg & -> & Hrun & Ho).
    exists c, d. split; [reflexivity|]. change (firstn 1152 d) with (rx_cut d). assert (Hd : lenN (rx_cut d) <= 1152) by apply rx_cut_len.
    pose proof (got_slot _ _ _ _ _ _ Hb Hg) as (Hi & Ha & Hc & _).
    destruct (micros_inv P E C false Inv3 _ _ _ Inv3_micro ltac:(discriminate) Hb (conj HS (conj HU HD)) (got_micros P E C _ _ _ _ _ Hb Hg))
      as [Hb1 (HS1 & HU1 & HD1)].
    destruct (run_safe (v_trace v1) _ _ _ _ _ _ _ _ _ (HS1 i Hi Ha) (HU1 i Hi Ha) (HD1 i Hi Ha) (rx_cut_bytes _ He) Hd Hrun) as [->|[(e & ->)|H]];
      [discriminate|discriminate|exact H].
  - exfalso. cbn [server_step] in Hs. destruct (server_timers E v 0 (firstn NUM_TRANS l)) as [v1 r1] eqn:Et.
    apply timers_safe in Et; auto; [|cbn [Nat.add]; rewrite firstn_length; unfold NUM_TRANS; lia].
    apply Et. destruct r1; injection Hs as _ Hs; try discriminate; subst x; exact Hx.
Qed.

End App.
