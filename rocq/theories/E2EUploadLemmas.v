(** Whole transfers between the two libraries: bodies that the client sends. *)
From Coq Require Import Permutation.
From Verif Require Import BaseLemmas MsgModel MsgSpec MsgLemmas MsgFormatLemmas MsgBlockLemmas ClientModel ClientSpec
  ClientLemmas ClientPropLemmas ClientBlockLemmas ServerModel ServerSpec ServerLemmas ServerPropLemmas ServerBlockSpec
  ServerBlockLemmas ServerUploadLemmas ServerTransferLemmas ServerDownloadLemmas E2EModel E2ESpec E2ELemmas E2EDownloadLemmas.

(** ** Options that setters add *)

Lemma setter_ops s m : m_ops (run_setter m s) = fold_left op_list_add (added [s]) (m_ops m).
Proof.
  destruct s as [t|c d|i|t|n v|pl|]; unfold run_setter; cbv zeta iota; cbn [added map concat List.app fold_left]; try reflexivity.
  - unfold set_type. destruct (_ && _); reflexivity.
  - unfold set_code. destruct (_ <? _); [reflexivity|]. destruct (_ <? _); reflexivity.
  - unfold set_msg_id. destruct (_ <? _); reflexivity.
  - unfold set_token. destruct (_ <? _); reflexivity.
Qed.

Lemma fold_ops l : forall m, m_ops (fold_left run_setter l m) = fold_left op_list_add (added l) (m_ops m).
Proof.
  induction l as [|s l IH]; intro m; cbn [fold_left added map concat]; [reflexivity|].
  rewrite IH, fold_left_app, setter_ops. cbn [added map concat]. rewrite app_nil_r. reflexivity.
Qed.

Lemma wf_fold l m : wf_msg m -> Forall setter_ok l -> wf_msg (fold_left run_setter l m).
Proof.
  revert m. induction l as [|s l IH]; intros m W Hl; cbn [fold_left]; [exact W|].
  inversion Hl; subst. apply IH; [apply wf_run_setter; assumption|assumption].
Qed.

Lemma low_perm l l' : Permutation l l' -> low l -> low l'.
Proof. intros Hp H. eapply Permutation_Forall; [exact Hp|exact H]. Qed.

(** ** The client's message *)

Lemma block1_request req body start b b2 more plen : light 100 req ->
  with_num OP_BLOCK1 (m_ops req) = [] -> with_num OP_BLOCK2 (m_ops req) = [] -> b < 7 -> b2 < 7 ->
  start mod 2 ^ (4 + b) = 0 -> start / 2 ^ (4 + b) < 1048576 -> bytes_ok body -> start + plen <= lenN body -> 0 < plen <= 1024 ->
  exists m, block1_msg req body start (2 ^ (4 + b)) (2 ^ (4 + b2)) b more plen = Ok m /\ light 112 m /\ m_type m = m_type req /\ asks req m /\
    m_payload m = firstn (N.to_nat plen) (skipn (N.to_nat start) body) /\
    parse_block_op (m_ops m) OP_BLOCK1 = Ok (Some (mkblk (start / 2 ^ (4 + b)) more (2 ^ (4 + b)))) /\
    parse_block_op (m_ops m) OP_BLOCK2 = Ok (if more then None else Some (mkblk 0 false (2 ^ (4 + b2)))) /\
    (forall proxy, acceptable proxy req -> acceptable proxy m).
Proof.
  intros [W Hl Hr Hp] Hn1 Hn2 Hb Hb2 Hmod Hnum Hbb Hlen Hpl. unfold block1_msg. rewrite (copy_req _ W). cbn [bind].
  rewrite N.shiftr_div_pow2, (N.add_comm b 4). rewrite (N.mod_small (start / 2 ^ (4 + b)) two32) by (unfold two32; lia).
  destruct (format_block_3 (start / 2 ^ (4 + b)) more b Hnum Hb) as (v & -> & Hv & Hvb & Hbv). cbn [bind add_op].
  pose proof (wf_sorted _ W) as Hs.
  set (m1 := mkmsg _ _ _ _ _ _ _ _).
  assert (W1 : wf_msg m1).
  { apply (wf_run_setter req (AddOp OP_BLOCK1 v)); [exact W|]. cbn. split; [reflexivity|]. split; [exact Hvb|]. unfold o_len. cbn [o_val]. rewrite Hv. reflexivity. }
  assert (Hadv : adv body start = Ok (skipn (N.to_nat start) body)).
  { unfold adv. destruct (N.leb_spec start (lenN body)); [reflexivity|lia]. }
  assert (Hrdn : rdn (skipn (N.to_nat start) body) plen = Ok (firstn (N.to_nat plen) (skipn (N.to_nat start) body))).
  { unfold rdn. rewrite lenN_skipn. destruct (N.leb_spec plen (lenN body - start)); [reflexivity|lia]. }
  set (pl := firstn (N.to_nat plen) (skipn (N.to_nat start) body)) in *.
  assert (Hlp : lenN pl = plen) by (apply lenN_block; exact Hlen).
  assert (Hbp : bytes_ok pl) by (apply firstn_bytes, skipn_bytes; exact Hbb).
  pose proof (wf_sorted _ W1) as Hs1. clearbody pl.
  assert (Hspl : forall m, wf_msg m -> exists m', set_payload m pl = Ok m' /\ wf_msg m' /\ m_type m' = m_type m /\ m_class m' = m_class m /\
     m_detail m' = m_detail m /\ m_ops m' = m_ops m /\ m_payload m' = pl).
  { intros m Wm. exists (run_setter m (SetPayload pl)). pose proof (wf_run_setter m (SetPayload pl) Wm Hbp) as Wm'.
    unfold run_setter in *. unfold set_payload in *. split; [reflexivity|]. split; [exact Wm'|]. repeat split; reflexivity. }
  assert (Hroom1 : room (m_ops m1) <= 106).
  { cbn [m1 m_ops]. rewrite room_add by exact Hs. unfold o_len. cbn [o_val]. lia. }
  assert (Hlow1 : low (m_ops m1)) by (apply low_add; auto; cbn; unfold OP_BLOCK1; lia).
  assert (Hw1 : forall n, with_num n (m_ops m1) = with_num n (m_ops req) ++ (if OP_BLOCK1 =? n then [mkop OP_BLOCK1 v] else [])).
  { intro n. cbn [m1 m_ops]. rewrite with_num_add by exact Hs. reflexivity. }
  destruct more.
  - cbn [bind]. rewrite Hadv. cbn [bind]. rewrite Hrdn. cbn [bind].
    destruct (Hspl m1 W1) as (m & -> & Wm & M1 & M2 & M3 & M4 & M5). exists m. split; [reflexivity|].
    split; [split; rewrite ?M4, ?M5; auto; lia|]. split; [exact M1|]. split.
    { split; [exact M2|]. split; [exact M3|]. split; [apply wf_ver; exact Wm|]. intros n N1 N2. rewrite M4, Hw1. destruct (N.eqb_spec OP_BLOCK1 n); [congruence|]. apply app_nil_r. }
    split; [exact M5|]. rewrite M4. split.
    { apply (parse_block_one OP_BLOCK1 _ v); auto. rewrite Hw1, Hn1. reflexivity. }
    split; [rewrite parse_block_num by (right; reflexivity); rewrite Hw1, Hn2; reflexivity|].
    intros proxy Ha. eapply acceptable_add; [exact Hs|exact M4|left; reflexivity|exact Ha].
  - destruct (format_block_3 0 false b2 ltac:(lia) Hb2) as (v2 & -> & Hv2 & Hvb2 & Hbv2). cbn [bind add_op].
    set (m2 := mkmsg _ _ _ _ _ _ _ _).
    assert (W2 : wf_msg m2).
    { apply (wf_run_setter m1 (AddOp OP_BLOCK2 v2)); [exact W1|]. cbn. split; [reflexivity|]. split; [exact Hvb2|]. unfold o_len. cbn [o_val]. rewrite Hv2. reflexivity. }
    rewrite Hadv. cbn [bind]. rewrite Hrdn. cbn [bind].
    assert (Hw2 : forall n, with_num n (m_ops m2) = with_num n (m_ops m1) ++ (if OP_BLOCK2 =? n then [mkop OP_BLOCK2 v2] else [])).
    { intro n. cbn [m2 m_ops]. rewrite with_num_add by exact Hs1. reflexivity. }
    destruct (Hspl m2 W2) as (m & -> & Wm & M1 & M2 & M3 & M4 & M5). exists m. split; [reflexivity|].
    split.
    { split; rewrite ?M4, ?M5; [exact Wm| | |lia].
      - cbn [m2 m_ops]. apply low_add; auto. cbn. unfold OP_BLOCK2. lia.
      - cbn [m2 m_ops]. rewrite room_add by exact Hs1. unfold o_len at 1. cbn [o_val]. lia. }
    split; [exact M1|]. split.
    { split; [exact M2|]. split; [exact M3|]. split; [apply wf_ver; exact Wm|]. intros n N1 N2. rewrite M4, Hw2, Hw1. destruct (N.eqb_spec OP_BLOCK1 n); [congruence|].
      destruct (N.eqb_spec OP_BLOCK2 n); [congruence|]. rewrite !app_nil_r. reflexivity. }
    split; [exact M5|]. rewrite M4. split.
    { apply (parse_block_one OP_BLOCK1 _ v); auto. rewrite Hw2, Hw1, Hn1. reflexivity. }
    split.
    { apply (parse_block_one OP_BLOCK2 _ v2); auto. rewrite Hw2, Hw1, Hn2. reflexivity. }
    intros proxy Ha. eapply (acceptable_add proxy m1); [exact Hs1|exact M4|right; reflexivity|].
    eapply acceptable_add; [exact Hs|reflexivity|left; reflexivity|exact Ha].
Qed.

(** ** The server's part *)

(** A transaction that has taken [body] up to [start]. *)
Record taking (C : scfg) (t : trans) (buf body : list N) (req : msg) (start a s2 rx : N) : Prop := {
  tk_tb : takes_body t buf;
  tk_method : method_of (t_type t) (m_detail req);
  tk_path : cstr (t_uri t) = seen_path req;
  tk_got : firstn (N.to_nat start) buf = firstn (N.to_nat start) body;
  tk_len : lenN buf = sc_large C;
  tk_next : t_next1 t = start;
  tk_size1 : t_size1 t = 2 ^ (4 + a);
  tk_size2 : t_size2 t = s2;
  tk_rx : t_rx t = Some rx
}.

Lemma taking_xfer C t u buf body req start a s2 rx : xfer u = xfer t -> taking C t buf body req start a s2 rx -> taking C u buf body req start a s2 rx.
Proof.
  intros Hx [[B1 B2 B3 B4 B5 B6 B7 B8 B9 B10] H2 H3 H4 H5 H6 H7 H8 H9].
  unfold xfer in Hx. injection Hx as E1 E2 E3 E4 E5 E6 E7 E8 E9 E10.
  split; rewrite ?E1, ?E3, ?E4, ?E5, ?E6, ?E8, ?E10; auto. split; rewrite ?E1, ?E2, ?E3, ?E4, ?E5, ?E6, ?E7, ?E10; auto.
Qed.

Lemma min_pow x a b : x = 2 ^ (4 + a) -> (if 2 ^ (4 + b) <? x then 2 ^ (4 + b) else x) = 2 ^ (4 + N.min a b).
Proof.
  intros ->. destruct (N.ltb_spec b a) as [H|H].
  - assert (2 ^ (4 + b) < 2 ^ (4 + a)) by (apply N.pow_lt_mono_r; lia).
    replace (N.min a b) with b by lia. destruct (N.ltb_spec (2 ^ (4 + b)) (2 ^ (4 + a))); [reflexivity|lia].
  - assert (2 ^ (4 + a) <= 2 ^ (4 + b)) by (apply N.pow_le_mono_r; lia).
    replace (N.min a b) with a by lia. destruct (N.ltb_spec (2 ^ (4 + b)) (2 ^ (4 + a))); [lia|reflexivity].
Qed.

Lemma start_min start a b : (start = 0 \/ a = b) -> start mod 2 ^ (4 + b) = 0 ->
  start / 2 ^ (4 + b) = start / 2 ^ (4 + N.min a b) /\ start mod 2 ^ (4 + N.min a b) = 0 /\
  start / 2 ^ (4 + N.min a b) * 2 ^ (4 + N.min a b) = start.
Proof.
  intros Hab Hmod. set (k := N.min a b). assert (Hnz : 2 ^ (4 + k) <> 0) by (apply N.pow_nonzero; discriminate).
  assert (H : start / 2 ^ (4 + b) = start / 2 ^ (4 + k) /\ start mod 2 ^ (4 + k) = 0).
  { destruct Hab as [->|Hab].
    - rewrite !N.div_0_l by (apply N.pow_nonzero; lia). split; [reflexivity|]. apply N.mod_0_l. exact Hnz.
    - replace k with b by (unfold k; lia). auto. }
  destruct H as [H1 H2]. split; [exact H1|]. split; [exact H2|].
  clear - H2 Hnz. clearbody k. pose proof (N.div_mod start (2 ^ (4 + k)) Hnz) as H. rewrite H2, N.add_0_r, N.mul_comm in H. congruence.
Qed.

Ltac nlia := repeat match goal with H : context[_ ^ _] |- _ => clear H end; lia.

Section Srv.
Context {A : Type} (P : app A) (C : scfg).

Lemma take_block1 x t buf body req start a b s2 rx more o2 plen m resp0 :
  taking C t buf body req start a s2 rx -> a < 7 -> b < 7 -> (start = 0 \/ a = b) -> start mod 2 ^ (4 + b) = 0 ->
  start + plen <= lenN body -> lenN body <= sc_large C -> 0 < plen <= 1024 -> wf_msg m -> asks req m -> rwf resp0 ->
  m_payload m = firstn (N.to_nat plen) (skipn (N.to_nat start) body) ->
  parse_block_op (m_ops m) OP_BLOCK1 = Ok (Some (mkblk (start / 2 ^ (4 + b)) more (2 ^ (4 + b)))) ->
  parse_block_op (m_ops m) OP_BLOCK2 = Ok o2 ->
  let k := N.min a b in
  exists v, lenN v = 3 /\ bytes_ok v /\ block_value (be_val v) (mkblk (start / 2 ^ (4 + k)) more (2 ^ (4 + k))) /\
    firstn (N.to_nat (start + plen)) (taken t buf m) = firstn (N.to_nat (start + plen)) body /\
    lenN (taken t buf m) = sc_large C /\ bytes_ok (taken t buf m) /\
    if more then exists t', next_block P x t m resp0 = (x, [], (t', with_code (with_block1 resp0 v) 2 31, Ok tt)) /\
      taking C t' (taken t buf m) body req (start + plen) k (resize o2 s2) rx
    else forall x' rr, ap_rx P rx x (taken t buf m) (start + plen) m = (x', rr) ->
      exists l y, next_block P x t m resp0 = (x', SCall (t_client t) (firstn (N.to_nat (start + plen)) body) :: l, y) /\
        rx_out t m (with_block1 resp0 v) (resize o2 s2) rr l y.
Proof.
  intros [TB TM TP TG TL TN TS1 TS2 TR] Ha Hb Hab Hmod Hfit Hcap Hpl W Hask Wr Hm Hp1 Hp2 k.
  destruct (start_min start a b Hab Hmod) as (S1 & S2 & S3). fold k in S1, S2, S3.
  assert (Hk : k < 7) by (clear - Ha Hb; unfold k; lia).
  assert (Hlm : lenN (m_payload m) = plen) by (rewrite Hm; apply lenN_block; exact Hfit).
  assert (Hv : vals_ok (m_ops m)).
  { eapply Forall_impl; [|apply (wf_ops _ W)]. intros o (_ & H & _). exact H. }
  assert (Hre : resize (Some (mkblk (start / 2 ^ (4 + b)) more (2 ^ (4 + b)))) (t_size1 t) = 2 ^ (4 + k)).
  { cbn [resize b_size]. apply min_pow. exact TS1. }
  clearbody k.
  assert (Hdue : due1 t buf m (Some (mkblk (start / 2 ^ (4 + b)) more (2 ^ (4 + b))))).
  { split; [destruct Hask as (_ & -> & _); exact TM|]. split; [rewrite TP; apply asks_seen; exact Hask|].
    split; [rewrite Hre; cbn [blk_or_zero b_num]; rewrite S1, TN; exact S3|].
    split; [intro E; rewrite E in Hlm; cbn in Hlm; unfold lenN in Hlm; cbn in Hlm; nlia|]. rewrite TN, Hlm, TL. nlia. }
  assert (Htk : firstn (N.to_nat (start + plen)) (taken t buf m) = firstn (N.to_nat (start + plen)) body).
  { unfold taken. rewrite TN, Hlm, TG, app_assoc.
    assert (E : firstn (N.to_nat start) body ++ m_payload m = firstn (N.to_nat (start + plen)) body).
    { rewrite Hm. rewrite <- (firstn_skipn (N.to_nat start) (firstn (N.to_nat (start + plen)) body)).
      rewrite firstn_firstn. replace (Nat.min (N.to_nat start) (N.to_nat (start + plen))) with (N.to_nat start) by nlia. f_equal.
      rewrite skipn_firstn_comm. f_equal. nlia. }
    rewrite E. rewrite firstn_app, firstn_firstn, Nat.min_id, firstn_length.
    replace (N.to_nat (start + plen) - Nat.min (N.to_nat (start + plen)) (length body))%nat with 0%nat by (unfold lenN in Hfit; nlia).
    cbn [firstn]. apply app_nil_r. }
  assert (Hlt : lenN (taken t buf m) = sc_large C).
  { unfold taken. rewrite !lenN_app, lenN_firstn, lenN_skipn, TN, Hlm, TL. nlia. }
  assert (Hbt : bytes_ok (taken t buf m)) by (apply taken_bytes; [apply TB|apply (wf_payload _ W)]).
  pose proof (next_block1_spec P x t buf m resp0 TB Hv ltac:(nlia) Wr) as Hn.
  destruct Hn as [t' Ht Hno|t' o1 d Ht Hq Hno|t' u Ht Hno|t' o1 Ht Hq Hno|o1 o2' v Hq1 Hq2 Hd Hmore size Hs Hvl Hvb Hbv
    |o1 o2' v rx' x' rr l y Hq1 Hq2 Hd Hmore size Hs Hvl Hvb Hbv Hrx Hap Hro].
  - exfalso. destruct Hno; congruence.
  - exfalso. rewrite Hp1 in Hq. injection Hq as <-. destruct Hdue as (D1 & D2 & D3 & D4 & D5).
    destruct Hno as [(_ & [(R & _)|(_ & [(R & _)|(_ & R & _)])])|(R & _)]; [congruence|congruence|nlia|tauto].
  - exfalso. unfold block_ub in Hno. destruct Hno as [[z Hz]|[z Hz]]; congruence.
  - exfalso. rewrite Hp1 in Hq. injection Hq as <-. rewrite Hre in Hno. rewrite szx_calc in Hno by exact Hk. discriminate.
  - rewrite Hp1 in Hq1. injection Hq1 as <-. rewrite Hp2 in Hq2. injection Hq2 as <-. subst size. rewrite Hre in *.
    cbn [blk_or_zero b_num b_more] in Hbv, Hmore. subst more. rewrite S1 in Hbv.
    exists v. do 6 (split; [assumption|]). eexists. split; [reflexivity|].
    rewrite TN, Hlm in *.
    destruct TB as [B1 B2 B3 B4 B5 B6 B7 B8 B9 B10]. pose proof (pow_szx k Hk) as Hpk.
    split; cbn [t_type t_body t_with_block t_next1 t_next2 t_end t_detail t_size1 t_size2 t_rx t_uri]; auto.
    split; cbn [t_type t_body t_with_block t_next1 t_next2 t_end t_detail t_size1 t_size2 t_rx t_uri]; auto; try apply Hpk; try nlia.
    + unfold resize. destruct o2 as [bb|]; [destruct (N.ltb_spec (b_size bb) (t_size2 t)); nlia|nlia].
    + rewrite TS2. reflexivity.
  - rewrite Hp1 in Hq1. injection Hq1 as <-. rewrite Hp2 in Hq2. injection Hq2 as <-. subst size. rewrite Hre in *.
    cbn [blk_or_zero b_num b_more] in Hbv, Hmore. subst more. rewrite S1 in Hbv. rewrite TN, Hlm in *. rewrite TR in Hrx. injection Hrx as <-.
    exists v. do 6 (split; [assumption|]). intros x2 rr2 E. rewrite Hap in E. injection E as <- <-.
    exists l, y. rewrite Htk, <- TS2. auto.
Qed.

(** The start of an upload. *)
Lemma handle_put x t m req resp s1 s2 hb bl rx a body :
  sc_large C < large -> m_detail m = 2 \/ m_detail m = 3 -> asks req m -> a < 7 -> s1 = 2 ^ (4 + a) -> s2 = 0 \/ block_size s2 -> bl <= sc_large C ->
  exists t1, handle_blockwise P C true x t m resp s1 s2 hb bl (Some rx) = next_block P x t1 m resp /\
    taking C t1 (repeat 0 (N.to_nat (sc_large C))) body req 0 a s2 rx /\ t_client t1 = t_client t.
Proof.
  intros HL Hd Ha He H1 H2 Hl. unfold handle_blockwise. cbv zeta. rewrite (good_bad s2 H2).
  assert (Hs1 : calc_block_szx s1 = Ok a) by (rewrite H1; apply szx_calc; exact He). rewrite Hs1, andb_false_r.
  destruct (N.ltb_spec (sc_large C) bl); [lia|]. cbn [negb].
  rewrite path_buf_eq. pose proof (cstr_path m (N.to_nat (257 - lenN (firstn 256 (req_path m))))) as Hcp.
  set (uri := firstn 256 _ ++ _) in *.
  assert (Hs2 : s2 <= 1024) by (apply valid_size, good_bad; exact H2).
  pose proof (pow_szx a He) as Hpa. destruct Ha as (Hac & Had & Hav & Haw). assert (Ha : asks req m) by (repeat split; assumption).
  assert (Hgen : forall ty, (ty = TPut1 \/ ty = TPost1) -> method_of ty (m_detail req) ->
    taking C (t_with_block (clear_blockwise t) ty (Some (repeat 0 (N.to_nat (sc_large C)))) 0 s1 s2 0 0 uri 0 (Some rx))
      (repeat 0 (N.to_nat (sc_large C))) body req 0 a s2 rx).
  { intros ty Hty Hme. split; cbn [t_type t_body t_with_block t_next1 t_next2 t_end t_detail t_size1 t_size2 t_rx t_uri]; auto.
    - split; cbn [t_type t_body t_with_block t_next1 t_next2 t_end t_detail t_size1 t_size2 t_rx t_uri]; rewrite ?lenN_zeros; auto; try lia; try discriminate.
      apply zeros_bytes.
    - rewrite Hcp. apply asks_seen. exact Ha.
    - apply lenN_zeros. }
  unfold M_GET, M_PUT, M_POST. rewrite Had in *. destruct Hd as [Hd|Hd]; rewrite Hd in *; cbn [N.eqb Pos.eqb orb];
    (eexists; split; [reflexivity|]; split; [apply Hgen; [auto|reflexivity]|reflexivity]).
Qed.
End Srv.

(** ** One block through the network *)

Lemma reply_light1 resp0 v c d : light 106 resp0 -> lenN v = 3 -> bytes_ok v -> c <= 7 -> d <= 31 ->
  light 112 (with_code (with_block1 resp0 v) c d).
Proof.
  intros [W Hl Hr Hp] Hv Hvb Hc Hd. pose proof (wf_sorted _ W) as Hs.
  assert (Wm : wf_msg (run_setter resp0 (AddOp OP_BLOCK1 v))).
  { apply wf_run_setter; [exact W|]. cbn. split; [reflexivity|]. split; [exact Hvb|]. unfold o_len. cbn [o_val]. rewrite Hv. reflexivity. }
  split; cbn [with_code with_block1 m_ops m_payload]; [|apply low_add; auto; cbn; unfold OP_BLOCK1; lia| |exact Hp].
  - destruct Wm as [W1 W2 W3 W4 W5 W6 W7 W8 W9 W10].
    split; cbn [with_code with_block1 m_ver m_type m_class m_detail m_id m_token m_ops m_payload]; auto.
  - rewrite room_add by exact Hs. unfold o_len. cbn [o_val]. lia.
Qed.

Lemma reply_block1 resp0 v b : ops_sorted (m_ops resp0) -> with_num OP_BLOCK1 (m_ops resp0) = [] ->
  lenN v = 3 -> bytes_ok v -> block_value (be_val v) b ->
  parse_block_op (m_ops (with_block1 resp0 v)) OP_BLOCK1 = Ok (Some b).
Proof.
  intros Hs Hn Hv Hvb Hb. apply (parse_block_one OP_BLOCK1 _ v); auto. cbn [with_block1 m_ops].
  rewrite with_num_add, Hn by exact Hs. reflexivity.
Qed.

(** The code that calls of the application leave does not depend on the response they
    are made on, or they do not set any. *)
Definition accepts_at (d : N) (l : list setter) : Prop :=
  forall m, let r := fold_left run_setter l m in m_class r = 2 /\ m_detail r = d /\ m_payload r = m_payload m.
Lemma detail_fold l : (exists d, forall m, m_detail (fold_left run_setter l m) = d) \/ (forall m, m_detail (fold_left run_setter l m) = m_detail m).
Proof.
  induction l as [|s l IH]; [right; reflexivity|]. destruct IH as [[d IH]|IH].
  { left. exists d. intro m. apply IH. }
  destruct s as [x|x y|x|x|x y|x|]; cbn [fold_left];
    try (right; intro m; rewrite IH; unfold run_setter, set_type, set_msg_id, set_token, add_op, set_payload;
      repeat match goal with |- context [if ?b then _ else _] => destruct b end; reflexivity).
  destruct (MAX_CODE_CLASS <? x) eqn:E1; [right; intro m; rewrite IH; unfold run_setter, set_code; rewrite E1; reflexivity|].
  destruct (MAX_CODE_DETAIL <? y) eqn:E2; [right; intro m; rewrite IH; unfold run_setter, set_code; rewrite E1, E2; reflexivity|].
  left. exists y. intro m. rewrite IH. unfold run_setter, set_code. rewrite E1, E2. reflexivity.
Qed.
Lemma accepts_code l : accepts l -> exists d, (d = 1 \/ d = 4) /\ accepts_at d l.
Proof.
  intro H. destruct (detail_fold l) as [[d Hd]|Hd].
  - exists d. destruct (H msg_create) as (_ & Q & _). rewrite Hd in Q. split; [exact Q|]. intro m. destruct (H m) as (H1 & _ & H3). split; [exact H1|]. split; [apply Hd|exact H3].
  - exfalso. destruct (H msg_create) as (_ & H1 & _). rewrite Hd in H1. destruct H1; discriminate.
Qed.

(** The response after the callback: [l0] are the options before. *)
Lemma final_light d l resp0 v : light 100 resp0 -> Forall setter_ok l -> low (added l) -> room (added l) + room (m_ops resp0) <= 100 ->
  lenN v = 3 -> bytes_ok v -> accepts_at d l -> m_payload resp0 = [] ->
  let r := fold_left run_setter l (with_block1 resp0 v) in
  light 106 r /\ m_class r = 2 /\ m_detail r = d /\ m_payload r = [] /\
  Permutation (m_ops r) (added l ++ mkop OP_BLOCK1 v :: m_ops resp0) /\
  (forall n, with_num n (m_ops r) = (with_num n (m_ops resp0) ++ (if OP_BLOCK1 =? n then [mkop OP_BLOCK1 v] else [])) ++ with_num n (added l)).
Proof.
  intros [W Hl Hr Hp] Hs Hla Hra Hv Hvb Hac Hp0 r. destruct (Hac (with_block1 resp0 v)) as (R1 & R2 & R3). fold r in R1, R2, R3.
  pose proof (wf_sorted _ W) as Hso.
  assert (Wm : wf_msg (with_block1 resp0 v)).
  { apply (wf_run_setter resp0 (AddOp OP_BLOCK1 v)); [exact W|]. cbn. split; [reflexivity|]. split; [exact Hvb|]. unfold o_len. cbn [o_val]. rewrite Hv. reflexivity. }
  pose proof (wf_fold l _ Wm Hs) as Wr. fold r in Wr.
  assert (Hpm : Permutation (m_ops r) (added l ++ mkop OP_BLOCK1 v :: m_ops resp0)).
  { unfold r. rewrite fold_ops. rewrite adds_perm by apply (wf_sorted _ Wm). apply Permutation_app; [reflexivity|].
    cbn [with_block1 m_ops]. apply op_list_add_perm. exact Hso. }
  split.
  { split; [exact Wr| | |rewrite R3; exact Hp].
    - eapply low_perm; [apply Permutation_sym; exact Hpm|]. apply Forall_app. split; [exact Hla|]. constructor; [cbn; unfold OP_BLOCK1; lia|exact Hl].
    - rewrite (room_perm _ _ Hpm), room_app. cbn [room fold_right]. fold (room (m_ops resp0)). unfold o_len. cbn [o_val]. lia. }
  split; [exact R1|]. split; [exact R2|]. split; [rewrite R3; exact Hp0|]. split; [exact Hpm|].
  intro n. unfold r. rewrite fold_ops, adds_with_num by apply (wf_sorted _ Wm). cbn [with_block1 m_ops].
  rewrite with_num_add by exact Hso. reflexivity.
Qed.

Section Net.
Context {A : Type} (P : app A) (Ec : env) (Cc : cfg) (Es : senv) (Cs : scfg) (c : N).
Context (HF : no_failures Ec Es).
Context (req : msg) (HG : good_req Cs req) (HP : m_detail req = 2 \/ m_detail req = 3).
Context (d : N) (HD : d = 1 \/ d = 4).

(** The server answers [u] with block [m] as transaction [t1] with the response
    [resp0] would, in state [x0] of the application. *)
Definition answers_as (v1 : @srv A) (i : nat) (ms : msg) (x0 : A) (pre : list sobs) (resp0 : msg) (Tk : trans -> Prop) : Prop :=
  forall u, stripped (tr v1 i) u -> exists t1, Tk t1 /\ t_client t1 = c /\
    reply_of P Cs c (v_app v1) u ms = let '(x, ol, y) := next_block P x0 t1 ms resp0 in (x, pre ++ ol, y).

Lemma net_more s v v1 i body buf start plen a b b2 s2 rx x0 pre resp0 m :
  ready Es c v v1 i -> match_req (tr v1 i) (stamped_req Ec (c_nrand s) m) = false ->
  a < 7 -> b < 7 -> b2 < 7 -> (start = 0 \/ a = b) -> start mod 2 ^ (4 + b) = 0 -> start / 2 ^ (4 + b) < 1048576 ->
  bytes_ok body -> start + plen <= lenN body -> lenN body <= sc_large Cs -> 0 < plen <= 1024 ->
  block1_msg req body start (2 ^ (4 + b)) (2 ^ (4 + b2)) b true plen = Ok m ->
  light 106 resp0 -> with_num OP_BLOCK1 (m_ops resp0) = [] -> acceptable (cf_proxy Cc) resp0 -> calls pre = [] ->
  answers_as v1 i (stamped_req Ec (c_nrand s) m) x0 pre resp0 (fun t1 => taking Cs t1 buf body req start a s2 rx) ->
  let k := N.min a b in
  exists s' v' q h tk,
    net_exch P Ec Cc Es Cs c (s, v) m = ((s', v'), Ok q) /\
    c_nrand s' = (7 + c_nrand s)%nat /\ ready Es c v' v' i /\ v_app v' = x0 /\
    m_id (t_req (tr v' i)) = req_id Ec (c_nrand s) /\ v_trace v' = v_trace v ++ h /\ calls h = [] /\
    taking Cs (tr v' i) tk body req (start + plen) k s2 rx /\
    m_class q = 2 /\ m_detail q = 31 /\ parse_block_op (m_ops q) OP_BLOCK1 = Ok (Some (mkblk (start / 2 ^ (4 + k)) true (2 ^ (4 + k)))).
Proof.
  intros Hre Hmr Ha Hb Hb2 Hab Hmod Hnum Hbb Hfit Hcap Hpl Hmsg L0 Hn0 Hac Hpre Hans k.
  pose proof HG as [GL G1 G2 GT GC GD GR].
  destruct (block1_request req body start b b2 true plen GL G1 G2 Hb Hb2 Hmod Hnum Hbb Hfit Hpl) as (m' & Hm' & Lm & Tm & Am & Pm & B1 & B2 & Acc).
  rewrite Hmsg in Hm'. injection Hm' as <-.
  set (ms := stamped_req Ec (c_nrand s) m) in *.
  destruct (net_round P Ec Cc Es Cs c HF
    (fun a' l t2 resp => a' = x0 /\ calls l = [] /\ exists v tk, lenN v = 3 /\ bytes_ok v /\
       block_value (be_val v) (mkblk (start / 2 ^ (4 + k)) true (2 ^ (4 + k))) /\
       taking Cs t2 tk body req (start + plen) k s2 rx /\ resp = with_code (with_block1 resp0 v) 2 31)
    s v v1 i m) as (s' & v' & a' & l & t2 & resp & t3 & h & He & HQ & Hns & Hre' & Happ & Ht3 & Hx & Hid & Htr & Hch).
  { exact Hre. } { exact Lm. } { congruence. } { destruct Am as (-> & _). exact GC. }
  { destruct Am as (_ & -> & _). destruct GD as [->|[->| ->]]; discriminate. }
  { exact Hmr. }
  { apply (direct_sepb Cs req); [exact GR| |exact Am]. pose proof (li_room _ _ GL). nlia. }
  { apply (acceptable_ops _ m); [reflexivity|]. apply Acc. apply GR. }
  { fold ms. intros u Hu. destruct (Hans u Hu) as (t1 & Htk & Hcl & ->).
    destruct (take_block1 P Cs x0 t1 buf body req start a b s2 rx true None plen ms resp0 Htk Ha Hb Hab Hmod Hfit Hcap Hpl)
      as (v0 & V1 & V2 & V3 & _ & _ & _ & t' & -> & Ht'); auto.
    { apply wf_stamped_req. apply Lm. } { apply wf_rwf. apply L0. }
    do 4 eexists. split; [rewrite app_nil_r; reflexivity|]. split.
    { split; [reflexivity|]. split; [exact Hpre|]. exists v0. eexists. do 3 (split; [assumption|]). split; [exact Ht'|reflexivity]. }
    split; [apply reply_light1; auto; discriminate|]. split; [left; reflexivity|].
    eapply (acceptable_add _ resp0); [apply L0|reflexivity|left; reflexivity|exact Hac]. }
  fold ms in He, Hid. destruct HQ as (-> & Hcl & v0 & tk & V1 & V2 & V3 & Htk & ->).
  exists s', v', (reply_to ms (with_code (with_block1 resp0 v0) 2 31)), h, tk.
  split; [exact He|]. split; [exact Hns|]. split; [exact Hre'|]. split; [exact Happ|].
  split; [rewrite Ht3; exact Hid|]. split; [exact Htr|]. split; [congruence|].
  split; [rewrite Ht3; eapply taking_xfer; [exact Hx|exact Htk]|].
  split; [reflexivity|]. split; [reflexivity|]. apply (reply_block1 resp0); auto. apply L0.
Qed.

(** What the callback does with the body. *)
Definition rx_takes (x0 : A) (rx : N) (body : list N) (l : list setter) (rbody : list N) : Prop :=
  forall m buf, asks req m -> firstn (N.to_nat (lenN body)) buf = body -> lenN buf = sc_large Cs -> bytes_ok buf ->
  exists x b, ap_rx P rx x0 buf (lenN body) m = (x, RxDone l b (lenN rbody)) /\
    firstn (N.to_nat (lenN rbody)) b = rbody /\ lenN rbody <= lenN b /\ lenN b = sc_large Cs.

(** The first block of the response. *)
Definition first_block (rbody : list N) (t : trans) (q : msg) (more : bool) (k : N) : Prop :=
  parse_block_op (m_ops q) OP_BLOCK2 = Ok (Some (mkblk 0 more (2 ^ (4 + k)))) /\
  if more then
    2 ^ (4 + k) <= lenN rbody /\ m_detail q = 31 /\ m_payload q = firstn (N.to_nat (2 ^ (4 + k))) rbody /\
    (t_type t = TPut2 \/ t_type t = TPost2) /\ t_detail t = d /\
    exists sbuf, serving t sbuf rbody req (2 ^ (4 + k)) k
  else lenN rbody < 2 ^ (4 + k) /\ m_detail q = d /\ m_payload q = rbody.

Lemma net_last s v v1 i body buf start plen a b b2 s2 rx x0 pre resp0 m l rbody :
  ready Es c v v1 i -> match_req (tr v1 i) (stamped_req Ec (c_nrand s) m) = false ->
  a < 7 -> b < 7 -> b2 < 7 -> (start = 0 \/ a = b) -> start mod 2 ^ (4 + b) = 0 -> start / 2 ^ (4 + b) < 1048576 ->
  bytes_ok body -> start + plen = lenN body -> lenN body <= sc_large Cs -> 0 < plen <= 1024 ->
  block1_msg req body start (2 ^ (4 + b)) (2 ^ (4 + b2)) b false plen = Ok m ->
  light 100 resp0 -> with_num OP_BLOCK1 (m_ops resp0) = [] -> with_num OP_BLOCK2 (m_ops resp0) = [] -> acceptable (cf_proxy Cc) resp0 ->
  m_payload resp0 = [] ->
  calls pre = [] ->
  answers_as v1 i (stamped_req Ec (c_nrand s) m) x0 pre resp0 (fun t1 => taking Cs t1 buf body req start a s2 rx) ->
  rx_takes x0 rx body l rbody -> sc_large Cs < large -> bytes_ok rbody -> (rbody <> [] -> exists e, e < 7 /\ s2 = 2 ^ (4 + e)) ->
  Forall setter_ok l -> low (added l) -> room (added l) + room (m_ops resp0) <= 100 -> accepts_at d l ->
  with_num OP_BLOCK1 (added l) = [] -> with_num OP_BLOCK2 (added l) = [] -> (forall mm, m_ops mm = added l -> acceptable (cf_proxy Cc) mm) ->
  let k := N.min a b in
  exists s' v' q h,
    net_exch P Ec Cc Es Cs c (s, v) m = ((s', v'), Ok q) /\
    c_nrand s' = (7 + c_nrand s)%nat /\ ready Es c v' v' i /\
    m_id (t_req (tr v' i)) = req_id Ec (c_nrand s) /\ v_trace v' = v_trace v ++ h /\ calls h = [(c, body)] /\
    m_class q = 2 /\ (m_detail q = 31 \/ m_detail q = d) /\
    parse_block_op (m_ops q) OP_BLOCK1 = Ok (Some (mkblk (start / 2 ^ (4 + k)) false (2 ^ (4 + k)))) /\
    (rbody = [] -> m_payload q = [] /\ m_detail q = d) /\
    (rbody <> [] -> exists more k2, k2 <= b2 /\ (exists e, s2 = 2 ^ (4 + e) /\ k2 <= e /\ (k2 = e \/ k2 = b2)) /\ first_block rbody (tr v' i) q more k2).
Proof.
  intros Hre Hmr Ha Hb Hb2 Hab Hmod Hnum Hbb Hfit Hcap Hpl Hmsg L0 Hn0 Hn02 Hac Hp0 Hpre Hans Hrx HL Hrb Hs2 Hls Hll Hlr Hla Hw1 Hw2 Hlac k.
  pose proof HG as [GL G1 G2 GT GC GD GR].
  assert (Hfit' : start + plen <= lenN body) by nlia.
  destruct (block1_request req body start b b2 false plen GL G1 G2 Hb Hb2 Hmod Hnum Hbb Hfit' Hpl) as (m' & Hm' & Lm & Tm & Am & Pm & B1 & B2 & Acc).
  rewrite Hmsg in Hm'. injection Hm' as <-.
  set (ms := stamped_req Ec (c_nrand s) m) in *.
  assert (Wms : wf_msg ms) by (apply wf_stamped_req; apply Lm).
  destruct (net_round P Ec Cc Es Cs c HF
    (fun a' l1 t2 q => calls l1 = [(c, body)] /\ m_class q = 2 /\ (m_detail q = 31 \/ m_detail q = d) /\
       parse_block_op (m_ops q) OP_BLOCK1 = Ok (Some (mkblk (start / 2 ^ (4 + k)) false (2 ^ (4 + k)))) /\
       (rbody = [] -> m_payload q = [] /\ m_detail q = d) /\
       (rbody <> [] -> exists more k2, k2 <= b2 /\ (exists e, s2 = 2 ^ (4 + e) /\ k2 <= e /\ (k2 = e \/ k2 = b2)) /\ first_block rbody t2 q more k2))
    s v v1 i m) as (s' & v' & a' & l1 & t2 & resp & t3 & h & He & HQ & Hns & Hre' & Happ & Ht3 & Hx & Hid & Htr & Hch).
  { exact Hre. } { exact Lm. } { congruence. } { destruct Am as (-> & _). exact GC. }
  { destruct Am as (_ & -> & _). destruct GD as [->|[->| ->]]; discriminate. }
  { exact Hmr. }
  { apply (direct_sepb Cs req); [exact GR| |exact Am]. pose proof (li_room _ _ GL). nlia. }
  { apply (acceptable_ops _ m); [reflexivity|]. apply Acc. apply GR. }
  { fold ms. intros u Hu. destruct (Hans u Hu) as (t1 & Htk & Hcl & ->).
    destruct (take_block1 P Cs x0 t1 buf body req start a b s2 rx false (Some (mkblk 0 false (2 ^ (4 + b2)))) plen ms resp0 Htk Ha Hb Hab Hmod Hfit' Hcap Hpl)
      as (v0 & V1 & V2 & V3 & T1 & T2 & T3 & Hcall); auto.
    { apply wf_rwf. apply L0. }
    rewrite Hfit in *.
    assert (Hall : firstn (N.to_nat (lenN body)) body = body) by (apply firstn_all2; unfold lenN; nlia). rewrite Hall in *.
    destruct (Hrx ms (taken t1 buf ms) Am T1 T2 T3) as (x & b0 & Hap & R1 & R2 & R3).
    destruct (Hcall _ _ Hap) as (ol & y & -> & Hro). clear Hcall.
    destruct (final_light d l resp0 v0 L0 Hls Hll Hlr V1 V2 Hla Hp0) as (F1 & F2 & F3 & F4 & F5 & F6).
    set (r := fold_left run_setter l (with_block1 resp0 v0)) in *.
    assert (Hpb1 : parse_block_op (m_ops r) OP_BLOCK1 = Ok (Some (mkblk (start / 2 ^ (4 + k)) false (2 ^ (4 + k))))).
    { apply (parse_block_one OP_BLOCK1 _ v0); auto. rewrite F6, Hn0, Hw1. reflexivity. }
    assert (Hr2 : with_num OP_BLOCK2 (m_ops r) = []) by (rewrite F6, Hn02, Hw2; reflexivity).
    assert (Hacr : acceptable (cf_proxy Cc) r).
    { intros o Ho Hbit. apply (Permutation_in _ F5) in Ho. apply in_app_or in Ho as [Ho|[<-|Ho]].
      - apply (Hlac (mkmsg 0 0 0 0 0 [] (added l) []) eq_refl o Ho Hbit).
      - clear. cbn [o_num In]. unfold OP_BLOCK1. do 13 right. left. reflexivity.
      - apply (Hac o Ho Hbit). }
    remember (RxDone l b0 (lenN rbody)) as rr eqn:Err. remember (resize _ s2) as s3 eqn:Es3 in Hro.
    destruct Hro as [z e t' Ht|z ls bb e t' Ht Hne|z ls bb t' Ht Hce|z ls bb e t' H0 Hce Hco Hty Hbd Hen Hnx Hdt Huri Hsz];
      [discriminate|exfalso; injection Err as -> -> _; contradiction| |].
    - injection Err as -> -> Hlen0. fold r.
      assert (rbody = []) as Hnil by (destruct rbody; [reflexivity|unfold lenN in Hlen0; cbn in Hlen0; nlia]).
      do 4 eexists. split; [reflexivity|]. split.
      { split; [rewrite calls_app, Hpre, Hcl; reflexivity|]. split; [exact F2|]. split; [right; exact F3|]. split; [exact Hpb1|].
        split; [auto|]. intro H. destruct (H Hnil). }
      split; [eapply light_le; [|exact F1]; nlia|]. split; [left; exact F2|exact Hacr].
    - injection Err as -> -> ->. fold r. fold r in Hdt.
      assert (Hne : rbody <> []) by (intros ->; unfold lenN in H0; cbn in H0; nlia).
      destruct (Hs2 Hne) as (e & He & Es2).
      rewrite Es3 in Hsz. cbn [resize b_size] in Hsz. rewrite (min_pow s2 e b2 Es2) in Hsz.
      destruct Htk as [TB TM TP TG TL TN TS1 TS2 TR].
      assert (Hty' : t_type t' = TPut2 \/ t_type t' = TPost2).
      { rewrite Hty. destruct (is_type _ _); auto. }
      assert (Hme : method_of (t_type t') (m_detail req)).
      { rewrite Hty. pose proof (tb_type _ _ TB) as [E|E]; rewrite E in TM |- *; exact TM. }
      assert (Hm7 : N.min e b2 < 7) by nlia.
      pose proof (pow_szx (N.min e b2) Hm7) as Hp7.
      assert (Hsv : serving t' b0 rbody req 0 (N.min e b2)).
      { split; auto.
        - split; rewrite ?Hbd, ?Hnx, ?Hen, ?Hdt, ?Hsz; auto; try nlia; try apply Hp7.
        - rewrite Huri. exact TP. }
      destruct (serve_block t' b0 rbody req 0 (N.min e b2) b2 ms r Hsv) as (k2 & v2 & t2 & K1 & K2 & K3 & U1 & U2 & Hcase); auto.
      { nlia. } { rewrite N.div_0_l by (apply N.pow_nonzero; discriminate). reflexivity. }
      { right. eexists. exact B1. }
      rewrite !N.div_0_l in Hcase by (apply N.pow_nonzero; discriminate).
      assert (Hk2 : k2 <= b2 /\ (exists e, s2 = 2 ^ (4 + e) /\ k2 <= e /\ (k2 = e \/ k2 = b2))).
      { split; [exact K2|]. exists e. split; [exact Es2|]. clear - K1 K2 K3. lia. }
      pose proof (pow_szx k2 ltac:(nlia)) as Hpk2.
      assert (Hdb : last_detail t' = m_detail r).
      { unfold last_detail. rewrite Hdt. destruct Hty' as [-> | ->]; reflexivity. }
      change (skipn (N.to_nat 0) rbody) with rbody in Hcase. rewrite !N.add_0_l in Hcase. rewrite Hdb in Hcase.
      assert (Hpw : forall pl d0, parse_block_op (m_ops (with_block2 r v2 pl d0)) OP_BLOCK1 = Ok (Some (mkblk (start / 2 ^ (4 + k)) false (2 ^ (4 + k))))).
      { intros pl d0. rewrite parse_block_num by (left; reflexivity). cbn [with_block2 m_ops].
        rewrite with_num_add by (apply (wf_sorted _ (li_wf _ _ F1))). cbn [o_num]. change (OP_BLOCK2 =? OP_BLOCK1) with false. cbv iota. rewrite app_nil_r.
        rewrite <- parse_block_num by (left; reflexivity). exact Hpb1. }
      destruct Hcase as [(C1 & C2 & C3 & C4 & C5 & ->)|(C1 & C2 & C3 & ->)].
      + do 4 eexists. split; [reflexivity|]. split.
        { split; [rewrite calls_app, Hpre, Hcl; reflexivity|]. split; [reflexivity|]. split; [left; reflexivity|]. split; [apply Hpw|].
          split; [intro H; destruct (Hne H)|]. intros _. exists true, k2. split; [apply Hk2|]. split; [apply Hk2|]. split.
          - apply (reply_block2 r); auto. apply (wf_sorted _ (li_wf _ _ F1)).
          - split; [exact C1|]. split; [reflexivity|]. split; [reflexivity|]. rewrite C3, C4, Hdt. split; [exact Hty'|]. split; [exact F3|].
            exists b0. exact C2. }
        split.
        { apply reply_light; auto; try apply F1; [apply firstn_bytes; exact Hrb| |discriminate].
          rewrite lenN_firstn. apply N.le_trans with (2 ^ (4 + k2)); [apply N.le_min_l|apply Hpk2]. }
        split; [left; reflexivity|]. eapply (acceptable_add _ r); [apply (wf_sorted _ (li_wf _ _ F1))|reflexivity|right; reflexivity|exact Hacr].
      + do 4 eexists. split; [reflexivity|]. split.
        { split; [rewrite calls_app, Hpre, Hcl; reflexivity|]. split; [reflexivity|]. split; [right; exact F3|]. split; [apply Hpw|].
          split; [intro H; destruct (Hne H)|]. intros _. exists false, k2. split; [apply Hk2|]. split; [apply Hk2|]. split.
          - apply (reply_block2 r); auto. apply (wf_sorted _ (li_wf _ _ F1)).
          - split; [exact C1|]. split; [exact F3|reflexivity]. }
        split.
        { apply reply_light; try assumption; try apply F1.
          apply N.lt_le_incl. eapply N.lt_le_trans; [exact C1|apply Hpk2]. }
        split; [left; reflexivity|]. eapply (acceptable_add _ r); [apply (wf_sorted _ (li_wf _ _ F1))|reflexivity|right; reflexivity|exact Hacr]. }
  fold ms in He, Hid. destruct HQ as (Q1 & Q2 & Q3 & Q4 & Q5 & Q6).
  exists s', v', (reply_to ms resp), h.
  split; [exact He|]. split; [exact Hns|]. split; [exact Hre'|].
  split; [rewrite Ht3; exact Hid|]. split; [exact Htr|]. split; [congruence|].
  split; [exact Q2|]. split; [exact Q3|]. split; [exact Q4|]. split; [exact Q5|].
  intro Hne. destruct (Q6 Hne) as (more & k2 & K1 & K2 & F1 & F2). exists more, k2. split; [exact K1|]. split; [exact K2|]. split; [exact F1|].
  destruct more; [|exact F2]. destruct F2 as (C1 & C2 & C3 & C4 & C5 & sbuf & C6). rewrite Ht3.
  pose proof Hx as Hx'. unfold xfer in Hx'. injection Hx' as E1 E2 E3 E4 E5 E6 E7 E8 E9 E10. rewrite E1, E9.
  do 5 (split; [assumption|]). exists sbuf. eapply serving_xfer; [exact Hx|exact C6].
Qed.

(** ** The loop *)

Section Loop.
Context (body rbody : list N) (l : list setter) (s2 rx b2 : N) (i n total : nat).
Context (Hbb : bytes_ok body) (Hcap : lenN body <= sc_large Cs) (HL : sc_large Cs < large) (Hrb : bytes_ok rbody).
Context (Hb2 : b2 < 7) (Hs2 : rbody <> [] -> exists e, e < 7 /\ s2 = 2 ^ (4 + e)).
Context (Hls : Forall setter_ok l) (Hll : low (added l)) (Hla : accepts_at d l).
Context (Hw1 : with_num OP_BLOCK1 (added l) = []) (Hw2 : with_num OP_BLOCK2 (added l) = []).
Context (Hlac : forall mm, m_ops mm = added l -> acceptable (cf_proxy Cc) mm).

(** What the uploading leaves behind. *)
Definition uploads (v : @srv A) (r : (cst * @srv A) * res (N * msg)) : Prop :=
  exists s' v' q h j,
    r = ((s', v'), Ok (lenN body, q)) /\ v_trace v' = v_trace v ++ h /\ calls h = [(c, body)] /\ m_class q = 2 /\
    (j < total)%nat /\ c_nrand s' = (n + 7 * S j)%nat /\ ready Es c v' v' i /\ m_id (t_req (tr v' i)) = id_no Ec n j /\
    (rbody = [] -> m_payload q = [] /\ m_detail q = d) /\
    (rbody <> [] -> exists more k2, k2 <= b2 /\ (exists e, s2 = 2 ^ (4 + e) /\ k2 <= e /\ (k2 = e \/ k2 = b2)) /\ first_block rbody (tr v' i) q more k2).

Definition good_resp (resp0 : msg) : Prop :=
  light 100 resp0 /\ with_num OP_BLOCK1 (m_ops resp0) = [] /\ with_num OP_BLOCK2 (m_ops resp0) = [] /\
  acceptable (cf_proxy Cc) resp0 /\ m_payload resp0 = [] /\ room (added l) + room (m_ops resp0) <= 100.

Lemma up_step fuel j s v v1 buf start a b x0 pre resp0 :
  ready Es c v v1 i -> (forall m, m_id m = req_id Ec (c_nrand s) -> match_req (tr v1 i) m = false) ->
  a < 7 -> b < 7 -> (start = 0 \/ a = b) -> start mod 2 ^ (4 + b) = 0 -> start / 2 ^ (4 + b) < 1048576 ->
  start < lenN body -> (j < total)%nat -> c_nrand s = (n + 7 * j)%nat -> good_resp resp0 -> calls pre = [] -> rx_takes x0 rx body l rbody ->
  (forall m more plen, block1_msg req body start (2 ^ (4 + b)) (2 ^ (4 + b2)) b more plen = Ok m ->
     (more = negb (lenN body <=? start + 2 ^ (4 + b))) -> (plen = if more then 2 ^ (4 + b) else lenN body - start) ->
     answers_as v1 i (stamped_req Ec (c_nrand s) m) x0 pre resp0 (fun t1 => taking Cs t1 buf body req start a s2 rx)) ->
  (forall s' v' buf', start + 2 ^ (4 + b) < lenN body -> c_nrand s' = (n + 7 * S j)%nat -> ready Es c v' v' i ->
     taking Cs (tr v' i) buf' body req (start + 2 ^ (4 + b)) (N.min a b) s2 rx -> v_app v' = x0 -> m_id (t_req (tr v' i)) = id_no Ec n j ->
     uploads v' (blockwise1_loop (net_exch P Ec Cc Es Cs c) fuel (s', v') req body (2 ^ (4 + N.min a b)) (2 ^ (4 + b2)) (N.min a b) (start + 2 ^ (4 + b)))) ->
  uploads v (blockwise1_loop (net_exch P Ec Cc Es Cs c) (S fuel) (s, v) req body (2 ^ (4 + b)) (2 ^ (4 + b2)) b start).
Proof.
  intros Hre Hmr Ha Hb Hab Hmod Hnum Hlt Hj Hn (L0 & Hn1 & Hn2 & Hac & Hp0 & Hroom) Hpre Hrx Hans Hnext.
  pose proof (pow_szx b Hb) as Hpb. pose proof HG as [GL G1 G2 GT GC GD GR].
  destruct (start_min start a b Hab Hmod) as (_ & _ & S3).
  assert (Hmul : mul32 (start / 2 ^ (4 + N.min a b)) (2 ^ (4 + N.min a b)) = start).
  { unfold mul32. rewrite S3. apply N.mod_small. apply N.lt_trans with (1048576 * 1024); [|reflexivity].
    assert (E : start = 2 ^ (4 + b) * (start / 2 ^ (4 + b))).
    { pose proof (N.div_mod start (2 ^ (4 + b)) ltac:(nlia)) as H. rewrite Hmod, N.add_0_r in H. exact H. }
    rewrite E. clear - Hnum Hpb. revert Hnum. generalize (start / 2 ^ (4 + b)). intros q Hq.
    apply N.le_lt_trans with (1024 * q); [apply N.mul_le_mono_r; apply Hpb|nlia]. }
  assert (Hmin : (if 2 ^ (4 + N.min a b) <? 2 ^ (4 + b) then 2 ^ (4 + N.min a b) else 2 ^ (4 + b)) = 2 ^ (4 + N.min a b)).
  { rewrite (min_pow (2 ^ (4 + b)) b (N.min a b) eq_refl). f_equal. clear. lia. }
  assert (Hk7 : N.min a b < 7) by (clear - Ha; lia).
  remember (N.min a b) as k eqn:Ek.
  remember (2 ^ (4 + b)) as size eqn:Esz.
  cbn [blockwise1_loop].
  assert (Hadd : add64 start size = start + size) by (unfold add64; apply N.mod_small; unfold large, two64 in *; nlia).
  rewrite Hadd. 
  set (last := lenN body <=? start + size) in *. cbv zeta.
  set (plen := if last then lenN body - start else size).
  assert (Hplen : (if last then sub64 (lenN body) start mod two32 else size) = plen).
  { unfold plen. unfold last. destruct (N.leb_spec (lenN body) (start + size)); [|reflexivity].
    unfold sub64. rewrite (N.mod_small start) by (unfold two64, large in *; nlia).
    replace (lenN body + two64 - start) with (lenN body - start + 1 * two64) by (unfold two64; nlia).
    rewrite N.mod_add by discriminate. rewrite (N.mod_small _ two64) by (unfold two64, large in *; nlia). apply N.mod_small. unfold two32. nlia. }
  rewrite Hplen.
  assert (Hpr : start + plen <= lenN body /\ 0 < plen <= 1024).
  { unfold plen, last. destruct (N.leb_spec (lenN body) (start + size)); nlia. }
  destruct Hpr as [Hfit Hpr].
  assert (Hlast : if last then start + plen = lenN body else plen = size /\ start + size < lenN body).
  { unfold plen, last. destruct (N.leb_spec (lenN body) (start + size)); nlia. }
  assert (Hans' : forall m, block1_msg req body start size (2 ^ (4 + b2)) b (negb last) plen = Ok m ->
     answers_as v1 i (stamped_req Ec (c_nrand s) m) x0 pre resp0 (fun t1 => taking Cs t1 buf body req start a s2 rx)).
  { intros m Hm. apply (Hans m (negb last) plen Hm); [reflexivity|]. unfold plen. destruct last; reflexivity. }
  clear Hans. clearbody plen. clearbody last.
  assert (Hadd2 : add64 start plen = start + plen) by (unfold add64; apply N.mod_small; unfold large, two64 in *; nlia).
  rewrite Esz in Hmod, Hnum.
  destruct (block1_request req body start b b2 (negb last) plen GL G1 G2 Hb Hb2 Hmod Hnum Hbb Hfit Hpr) as (m & Hm & _).
  rewrite <- Esz in Hm. rewrite Hm. specialize (Hans' m Hm). rewrite Esz in Hm.
  assert (Hmr' : match_req (tr v1 i) (stamped_req Ec (c_nrand s) m) = false) by (apply Hmr; reflexivity).
  assert (Hid' : req_id Ec (c_nrand s) = id_no Ec n j) by (rewrite Hn; reflexivity).
  destruct last; cbn [negb] in Hm.
  - destruct (net_last s v v1 i body buf start plen a b b2 s2 rx x0 pre resp0 m l rbody)
      as (s' & v' & q & h & He & Hns & Hre' & Hidq & Htr & Hch & Q1 & Q2 & Q3 & Q4 & Q5); auto.
    rewrite He. rewrite Q1. change (negb (2 =? CL_SUCCESS)) with false. cbv iota.
    replace (negb (m_detail q =? CONTINUE) && negb (m_detail q =? CREATED) && negb (m_detail q =? CHANGED)) with false
      by (destruct Q2 as [-> | ->]; [|destruct HD as [-> | ->]]; reflexivity).
    rewrite <- Ek in Q3. rewrite Q3. cbn [b_size b_num]. rewrite Hmin, Hmul, N.eqb_refl. cbn [negb]. rewrite szx_calc by exact Hk7.
    rewrite Hadd2, Hlast, N.leb_refl.
    exists s', v', q, h, j. split; [reflexivity|]. split; [exact Htr|]. split; [exact Hch|]. split; [exact Q1|]. split; [exact Hj|].
    split; [rewrite Hns, Hn; clear; lia|]. split; [exact Hre'|]. split; [rewrite Hidq; exact Hid'|]. auto.
  - destruct Hlast as [-> Hlt2].
    destruct (net_more s v v1 i body buf start size a b b2 s2 rx x0 pre resp0 m)
      as (s' & v' & q & h & tk & He & Hns & Hre' & Happ & Hidq & Htr & Hch & Htk & Q1 & Q2 & Q3); auto.
    { eapply light_le; [|exact L0]. discriminate. }
    rewrite He. rewrite Q1. change (negb (2 =? CL_SUCCESS)) with false. cbv iota. rewrite Q2.
    change (negb (31 =? CONTINUE) && negb (31 =? CREATED) && negb (31 =? CHANGED)) with false. cbv iota.
    rewrite <- Ek in Q3, Htk. rewrite Q3. cbn [b_size b_num]. rewrite Hmin, Hmul, N.eqb_refl. cbn [negb]. rewrite szx_calc by exact Hk7.
    rewrite Hadd. destruct (N.leb_spec (lenN body) (start + size)); [exfalso; nlia|].
    destruct (Hnext s' v' tk Hlt2) as (s3 & v3 & q3 & h3 & j3 & U1 & U2 & U3 & U4); auto.
    { rewrite Hns, Hn. clear. lia. } { rewrite Hidq. exact Hid'. }
    exists s3, v3, q3, (h ++ h3), j3. split; [exact U1|]. split; [rewrite U2, Htr, app_assoc; reflexivity|].
    split; [rewrite calls_app, Hch, U3; reflexivity|exact U4].
Qed.

Lemma good_create : room (added l) <= 100 -> good_resp msg_create.
Proof.
  intro H. split; [|split; [|split; [|split; [|split]]]]; try reflexivity.
  - split; [apply wf_create|constructor|discriminate|vm_compute; discriminate].
  - intros o [].
  - cbn [msg_create m_ops room fold_right]. lia.
Qed.

Lemma reply_next1 a u m : t_type u = TPut1 \/ t_type u = TPost1 ->
  reply_of P Cs c a u m = let '(x, ol, y) := next_block P a u m msg_create in (x, [] ++ ol, y).
Proof. unfold reply_of. intros [E|E]; rewrite E; cbn [is_type]; destruct (next_block P a u m msg_create) as [[x ol] y]; reflexivity. Qed.

Context (Hids : forall k, (k < total)%nat -> id_no Ec n k <> id_no Ec n (S k)).

Lemma upload_loop fuel : forall j s v buf start b x0,
  (lenN body - start) / 16 < N.of_nat fuel -> (S j + fuel <= total)%nat -> c_nrand s = (n + 7 * S j)%nat ->
  ready Es c v v i -> taking Cs (tr v i) buf body req start b s2 rx -> v_app v = x0 -> b < 7 -> start mod 2 ^ (4 + b) = 0 -> start < lenN body ->
  lenN body / 2 ^ (4 + b) < 1048576 -> m_id (t_req (tr v i)) = id_no Ec n j -> room (added l) <= 100 -> rx_takes x0 rx body l rbody ->
  uploads v (blockwise1_loop (net_exch P Ec Cc Es Cs c) fuel (s, v) req body (2 ^ (4 + b)) (2 ^ (4 + b2)) b start).
Proof.
  induction fuel as [|fuel IH]; intros j s v buf start b x0 Hf Hj Hn Hre Htk Hx0 Hb Hmod Hlt Hnum Hid Hrl Hrx; [exfalso; nlia|].
  pose proof (pow_szx b Hb) as Hpb.
  apply (up_step fuel (S j) s v v buf start b b x0 [] msg_create); auto; try nlia.
  - intros m Hm. apply match_other. rewrite Hid, Hm, Hn. apply (Hids j). nlia.
  - eapply N.le_lt_trans; [apply N.div_le_mono; [nlia|apply N.lt_le_incl; exact Hlt]|exact Hnum].
  - apply good_create. exact Hrl.
  - intros m more plen _ _ _ u (Hx & Hcl & _). exists u. split; [eapply taking_xfer; [exact Hx|exact Htk]|].
    split; [rewrite Hcl; apply (re_client _ _ _ _ _ Hre)|].
    rewrite <- Hx0. apply reply_next1. unfold xfer in Hx. injection Hx as E1 _ _ _ _ _ _ _ _ _. rewrite E1. apply (tb_type _ _ (tk_tb _ _ _ _ _ _ _ _ _ Htk)).
  - intros s' v' buf' Hlt2 Hn' Hre' Htk' Hx' Hid'. rewrite N.min_id in *.
    apply (IH (S j) s' v' buf' (start + 2 ^ (4 + b)) b x0); auto.
    + apply N.lt_le_trans with (N.of_nat fuel); [|apply N.le_refl]. 
      assert (E : (lenN body - (start + 2 ^ (4 + b))) / 16 <= (lenN body - start - 1 * 16) / 16) by (apply N.div_le_mono; [discriminate|clear - Hpb; lia]).
      assert (E2 : (lenN body - start - 1 * 16) / 16 = (lenN body - start) / 16 - 1) by (clear; lia).
      clear - E E2 Hf Hlt2 Hpb. lia.
    + nlia.
    + rewrite N.add_mod, Hmod, N.mod_same by nlia. rewrite N.mod_0_l by nlia. reflexivity.
Qed.
End Loop.

(** ** The whole transfer *)

Lemma upload_all s (v : @srv A) l0 l s1 s2 hb bl rx body rbody size1 size2 fuel :
  reachable P Es Cs v -> idle v c -> sc_large Cs < large ->
  (forall m, asks req m -> exists x, ap_handle P (v_app v) c m = (x, HBlock l0 s1 s2 hb bl (Some rx)) /\ rx_takes x rx body l rbody) ->
  bl <= sc_large Cs -> Forall setter_ok (l0 ++ l) -> plain (added (l0 ++ l)) -> (forall mm, m_ops mm = added (l0 ++ l) -> acceptable (cf_proxy Cc) mm) ->
  m_payload (msg_build l0) = [] -> accepts_at d l ->
  block_size s1 -> (s2 = 0 \/ block_size s2) -> (rbody <> [] -> block_size s2) -> block_size size1 -> block_size size2 ->
  bytes_ok body -> bytes_ok rbody -> body <> [] -> lenN body <= sc_large Cs -> lenN rbody <= lenN body -> lenN rbody <= sc_large Cs ->
  lenN body < 1048576 * N.min s1 size1 -> (rbody <> [] -> lenN rbody < 1048576 * N.min s2 size2) ->
  lenN body / 16 < N.of_nat fuel ->
  fresh_id c (id_no Ec (c_nrand s) 0) (v_trace v) ->
  (forall k, (k < 2 * fuel)%nat -> id_no Ec (c_nrand s) k <> id_no Ec (c_nrand s) (S k)) ->
  exists s' v' resp h,
    exchange_blockwise (net_exch P Ec Cc Es Cs c) fuel (s, v) req None size1 size2 body =
      ((s', v'), rbody ++ skipn (length rbody) body, Ok (lenN rbody, resp)) /\
    m_class resp = 2 /\ m_detail resp = d /\ v_trace v' = v_trace v ++ h /\ calls h = [(c, body)].
Proof.
  intros Hreach Hidle HL Hh Hbl Hst Hplain Hacp Hp0 Hla H1 H2 H2' H3 H4 Hbb Hrb Hne Hcap Hrlen Hrcap Hn1 Hn2 Hfu Hfr Hids.
  apply block_size_pow in H1 as (a & Ha & E1). apply block_size_pow in H3 as (b & Hb & E3). apply block_size_pow in H4 as (b2 & Hb2 & E4).
  pose proof (pow_szx a Ha) as Hpa. pose proof (pow_szx b Hb) as Hpb. pose proof (pow_szx b2 Hb2) as Hpb2.
  assert (Hs2 : rbody <> [] -> exists e, e < 7 /\ s2 = 2 ^ (4 + e)) by (intro H; apply block_size_pow; auto).
  apply Forall_app in Hst as [Hs0 Hsl].
  assert (Hadd : added (l0 ++ l) = added l0 ++ added l) by (unfold added; rewrite map_app, concat_app; reflexivity).
  rewrite Hadd in Hplain, Hacp. destruct Hplain as [Hpf Hroom]. rewrite room_app in Hroom. apply Forall_app in Hpf as [Hpf0 Hpfl].
  destruct (build_ops_spec l0) as (Hbs & Hbp & Hbw).
  assert (Pl : plain (added l)) by (split; [exact Hpfl|lia]).
  assert (P0 : plain (added l0)) by (split; [exact Hpf0|lia]).
  destruct (plain_none _ Pl) as [Hw1 Hw2]. destruct (plain_none _ P0) as [Hw01 Hw02].
  assert (Hgr : good_resp l (msg_build l0)).
  { split; [|split; [|split; [|split; [|split]]]]; try (rewrite Hbw; assumption); auto.
    - split; [apply wf_build; exact Hs0|eapply low_perm; [apply Permutation_sym; exact Hbp|apply plain_low; exact P0]|rewrite (room_perm _ _ Hbp); lia|].
      rewrite Hp0. vm_compute. discriminate.
    - intros o Ho Hbit. apply (Permutation_in _ Hbp) in Ho.
      apply (Hacp (mkmsg 0 0 0 0 0 [] (added l0 ++ added l) []) eq_refl o); [apply in_or_app; left; exact Ho|exact Hbit].
    - rewrite (room_perm _ _ Hbp). lia. }
  assert (Hlac : forall mm, m_ops mm = added l -> acceptable (cf_proxy Cc) mm).
  { intros mm Hmm o Ho Hbit. rewrite Hmm in Ho.
    apply (Hacp (mkmsg 0 0 0 0 0 [] (added l0 ++ added l) []) eq_refl o); [apply in_or_app; right; exact Ho|exact Hbit]. }
  assert (Hlb : 0 < lenN body) by (destruct body; [destruct (Hne eq_refl)|rewrite lenN_cons; lia]).
  unfold exchange_blockwise, M_GET, M_PUT, M_POST.
  assert (Hmeth : (m_detail req =? 1) = false /\ (m_detail req =? 3) || (m_detail req =? 2) = true) by (destruct HP as [-> | ->]; split; reflexivity).
  destruct Hmeth as [-> ->]. unfold blockwise1.
  assert (Hz1 : (size1 =? 0) = false) by (apply N.eqb_neq; rewrite E3; nlia).
  assert (Hz2 : (size2 =? 0) = false) by (apply N.eqb_neq; rewrite E4; nlia).
  rewrite Hz1, Hz2. cbn [orb]. rewrite E3, E4, !szx_calc by assumption.
  assert (Hid0 : id_no Ec (c_nrand s) 0 = req_id Ec (c_nrand s)) by (unfold id_no; f_equal; clear; lia).
  rewrite Hid0 in Hfr.
  destruct (ready_first P Ec Es Cs c HF v _ Hreach Hidle Hfr) as (v1 & i & Hre & Hty & Hnm).
  destruct fuel as [|fuel]; [exfalso; clear - Hfu; lia|].
  pose proof HG as [GL G1 G2 GT GC GD GR].
  assert (Hids1 : forall k, (k < S fuel)%nat -> id_no Ec (c_nrand s) k <> id_no Ec (c_nrand s) (S k)).
  { intros k Hk. apply Hids. clear - Hk. lia. }
  assert (Hnum : lenN body / 2 ^ (4 + N.min a b) < 1048576).
  { apply N.div_lt_upper_bound; [apply N.pow_nonzero; discriminate|]. rewrite N.mul_comm.
    rewrite E1, E3 in Hn1. destruct (N.le_ge_cases a b) as [H|H].
    - replace (N.min a b) with a by (clear - H; lia). eapply N.lt_le_trans; [exact Hn1|]. apply N.mul_le_mono_l, N.le_min_l.
    - replace (N.min a b) with b by (clear - H; lia). eapply N.lt_le_trans; [exact Hn1|]. apply N.mul_le_mono_l, N.le_min_r. }
  assert (Hmod0 : 0 mod 2 ^ (4 + b) = 0) by (apply N.mod_0_l, N.pow_nonzero; discriminate).
  assert (Hdiv0 : 0 / 2 ^ (4 + b) < 1048576) by (rewrite N.div_0_l by (apply N.pow_nonzero; discriminate); reflexivity).
  (* the first message *)
  set (more := negb (lenN body <=? 0 + 2 ^ (4 + b))).
  set (plen := if more then 2 ^ (4 + b) else lenN body - 0).
  assert (Hpr : 0 + plen <= lenN body /\ 0 < plen <= 1024).
  { unfold plen, more. rewrite !N.add_0_l. destruct (N.leb_spec (lenN body) (2 ^ (4 + b))); cbn [negb]; clear - H Hpb Hlb; lia. }
  destruct Hpr as [Hfit Hpr].
  destruct (block1_request req body 0 b b2 more plen GL G1 G2 Hb Hb2 Hmod0 Hdiv0 Hbb Hfit Hpr) as (m & Hm & _ & _ & Am & _).
  set (ms := stamped_req Ec (c_nrand s) m).
  assert (Ams : asks req ms) by exact Am.
  destruct (Hh ms Ams) as (x & Hap & Hrx).
  assert (Hup : uploads body rbody s2 b2 i (c_nrand s) (S fuel) v
    (blockwise1_loop (net_exch P Ec Cc Es Cs c) (S fuel) (s, v) req body (2 ^ (4 + b)) (2 ^ (4 + b2)) b 0)).
  { eapply (up_step body rbody l s2 rx b2 i (c_nrand s) (S fuel) Hbb Hcap HL Hrb Hb2 Hs2 Hsl (plain_low _ Pl) Hla Hw1 Hw2 Hlac
      fuel 0 s v v1 (repeat 0 (N.to_nat (sc_large Cs))) 0 a b x [SHandle c ms] (msg_build l0)); auto.
    - apply Nat.lt_0_succ.
    - intros m' more' plen' Hm' Hmo Hple. assert (more' = more) as -> by exact Hmo. assert (plen' = plen) as -> by exact Hple.
      rewrite Hm in Hm'. injection Hm' as <-. fold ms. intros u (Hx & Hcl & _).
      assert (Hut : t_type u = TRegular).
      { unfold xfer in Hx. injection Hx as X1 _ _ _ _ _ _ _ _ _. congruence. }
      destruct (handle_put P Cs x u ms req (msg_build l0) s1 s2 hb bl rx a body HL) as (t1 & Hhb & Htk & Hct); auto.
      { destruct Ams as (_ & -> & _). exact HP. }
      exists t1. split; [exact Htk|]. split; [rewrite Hct, Hcl; apply (re_client _ _ _ _ _ Hre)|].
      unfold reply_of. rewrite Hut. cbn [is_type]. rewrite (re_app _ _ _ _ _ Hre). rewrite Hap, Hhb.
      destruct (next_block P x t1 ms (msg_build l0)) as [[x2 ol] y]. reflexivity.
    - intros s' v' buf' Hlt Hn' Hre' Htk' Hx' Hid'.
      eapply (upload_loop body rbody l s2 rx b2 i (c_nrand s) (S fuel) Hbb Hcap HL Hrb Hb2 Hs2 Hsl (plain_low _ Pl) Hla Hw1 Hw2 Hlac Hids1
        fuel 0 s' v' buf' (0 + 2 ^ (4 + b)) (N.min a b) x); auto.
      + rewrite N.add_0_l in *. 
        assert (E : (lenN body - 2 ^ (4 + b)) / 16 <= (lenN body - 1 * 16) / 16) by (apply N.div_le_mono; [discriminate|clear - Hpb; lia]).
        assert (E' : (lenN body - 1 * 16) / 16 = lenN body / 16 - 1) by (clear; lia).
        clear - E E' Hfu Hlt Hpb. lia.
      + clear - Ha. lia.
      + rewrite N.add_0_l. destruct (pow_divide (N.min a b) b ltac:(clear; lia)) as [z Hz]. rewrite Hz. apply N.mod_mul, N.pow_nonzero. discriminate.
      + clear - Hroom. lia. }
  destruct Hup as (s' & v' & q & h & j & U1 & U2 & U3 & U4 & U5 & U6 & U7 & U8 & U9 & U10).
  rewrite U1. destruct (N.eqb_spec (lenN body) 0) as [Hz|Hz]; [exfalso; clear - Hz Hlb; lia|].
  destruct (list_eq_dec N.eq_dec rbody []) as [Er|Er].
  - destruct (U9 Er) as [Q1 Q2]. rewrite Q1. change (lenN (@nil N) =? 0) with true. cbv iota. subst rbody.
    exists s', v', q, h. cbn [List.app length skipn]. auto.
  - destruct (U10 Er) as (more2 & k2 & K1 & (e & Es2 & K2 & K3) & F1 & F2).
    assert (Hlr : 0 < lenN rbody) by (destruct rbody; [destruct (Er eq_refl)|rewrite lenN_cons; clear; lia]).
    assert (Hk7 : k2 < 7) by (clear - K1 Hb2; lia).
    pose proof (pow_szx k2 Hk7) as Hpk2.
    assert (Hpq : (lenN (m_payload q) =? 0) = false).
    { apply N.eqb_neq. destruct more2.
      - destruct F2 as (C1 & _ & -> & _). rewrite lenN_firstn. clear - C1 Hpk2. lia.
      - destruct F2 as (_ & _ & ->). clear - Hlr. lia. }
    rewrite Hpq. unfold blockwise2. rewrite <- E4, Hz2, E4, szx_calc by exact Hb2.
    assert (Hids' : forall k, (k < 2 * S fuel)%nat -> id_no Ec (c_nrand s) k <> id_no Ec (c_nrand s) (S k)) by exact Hids.
    assert (Hbl' : lenN body < large) by (eapply N.le_lt_trans; [exact Hcap|exact HL]).
    assert (Hnk : lenN rbody / 2 ^ (4 + k2) < 1048576).
    { apply N.div_lt_upper_bound; [apply N.pow_nonzero; discriminate|]. rewrite N.mul_comm. specialize (Hn2 Er). rewrite Es2, E4 in Hn2.
      eapply N.lt_le_trans; [exact Hn2|]. apply N.mul_le_mono_l. destruct K3 as [-> | ->]; [apply N.le_min_l|apply N.le_min_r]. }
    set (dl := if more2 then t_detail (tr v' i) else m_detail q).
    assert (Hdd : dl = d) by (unfold dl; destruct more2; apply F2).
    assert (Hdl : dl = 1 \/ dl = 4) by (rewrite Hdd; exact HD).
    set (u0 := t_with_block trans_zero (if m_detail req =? 3 then TPut2 else TPost2) None 0 0 0 0 0 [] dl None).
    assert (Hu0 : last_detail u0 = dl) by (unfold last_detail; cbn; destruct (m_detail req =? 3); reflexivity).
    assert (Hd : downloads rbody body dl v' (v_app v')
      match block2_resp req q (firstn (N.to_nat 0) rbody ++ skipn (N.to_nat 0) body) (2 ^ (4 + b2)) 0 with
      | B2Stop buf r => ((s', v'), buf, r)
      | B2Next buf size szx start => blockwise2_loop (net_exch P Ec Cc Es Cs c) (S fuel) (s', v') req buf size szx start
      end).
    { destruct more2.
      - destruct F2 as (C1 & C2 & C3 & C4 & C5 & sbuf & C6).
        assert (Htu : t_type (tr v' i) = t_type u0).
        { pose proof (sg_method _ _ _ _ _ _ C6) as M. cbn. destruct C4 as [E|E]; rewrite E in M; cbn in M; rewrite M; exact E. }
        eapply (got_block P Ec Cc Es Cs c req rbody body (c_nrand s) (2 * S fuel) dl Hrlen Hbl' Hids' s' v' i sbuf 0 b2 k2 true q u0);
          rewrite ?N.div_0_l, ?N.add_0_l by (apply N.pow_nonzero; discriminate); auto.
        + apply N.le_0_l.
        + rewrite Hu0. destruct (N.eqb_spec (m_detail req) 1) as [E|E]; [destruct HP; congruence|exact Hdl].
        + auto 8.
        + intros _.
          eapply (download_loop P Ec Cc Es Cs c HF req rbody body (c_nrand s) (2 * S fuel) dl HG Hrb Hrlen Hbl' Hids' (S fuel) j s' v' i sbuf); auto.
          * apply N.le_lt_trans with (lenN body / 16); [apply N.div_le_mono; [discriminate|clear - Hrlen; lia]|exact Hfu].
          * clear - U5. lia.
          * apply N.mod_same, N.pow_nonzero. discriminate.
          * unfold last_detail. destruct C4 as [-> | ->]; reflexivity.
      - destruct F2 as (C1 & C2 & C3).
        eapply (got_block P Ec Cc Es Cs c req rbody body (c_nrand s) (2 * S fuel) dl Hrlen Hbl' Hids' s' v' i [] 0 b2 k2 false q u0);
          rewrite ?N.div_0_l, ?N.add_0_l by (apply N.pow_nonzero; discriminate); auto.
        + apply N.le_0_l.
        + rewrite Hu0. destruct (N.eqb_spec (m_detail req) 1) as [E|E]; [destruct HP; congruence|exact Hdl].
        + discriminate. }
    destruct Hd as (s3 & v3 & resp & h3 & D1 & D2 & D3 & D4 & D5 & _).
    change (firstn (N.to_nat 0) rbody ++ skipn (N.to_nat 0) body) with body in D1.
    exists s3, v3, resp, (h ++ h3). rewrite D1. unfold lenN at 1. rewrite Nat2N.id. split; [reflexivity|]. split; [exact D2|].
    split; [rewrite D3; exact Hdd|]. split; [rewrite D4, U2, app_assoc; reflexivity|]. rewrite calls_app, U3, D5. reflexivity.
Qed.
End Net.
