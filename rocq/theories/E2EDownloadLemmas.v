(** Whole transfers between the two libraries: bodies that the server sends. *)
From Coq Require Import Permutation.
From Verif Require Import BaseLemmas MsgModel MsgSpec MsgLemmas MsgFormatLemmas MsgBlockLemmas ClientModel ClientSpec
  ClientLemmas ClientPropLemmas ClientBlockLemmas ServerModel ServerSpec ServerLemmas ServerPropLemmas ServerBlockSpec
  ServerBlockLemmas ServerUploadLemmas ServerTransferLemmas ServerDownloadLemmas E2EModel E2ESpec E2ELemmas.

(** ** Options of a message *)

Lemma parse_block_num num l : num = OP_BLOCK1 \/ num = OP_BLOCK2 ->
  parse_block_op l num = match with_num num l with
                         | [] => Ok None
                         | o :: _ => let* b := parse_block_val (o_val o) (o_len o) in Ok (Some b)
                         end.
Proof.
  intro H. induction l as [|o l IH]; cbn [parse_block_op with_num filter]; [reflexivity|].
  assert (Et : ((o_num o =? OP_BLOCK1) && (num =? OP_BLOCK1)) || ((o_num o =? OP_BLOCK2) && (num =? OP_BLOCK2))
               = (o_num o =? num)).
  { destruct H as [->| ->]; unfold OP_BLOCK1, OP_BLOCK2; destruct (N.eqb_spec (o_num o) 27), (N.eqb_spec (o_num o) 23); try reflexivity; lia. }
  rewrite Et. destruct (o_num o =? num); [reflexivity|exact IH].
Qed.

Lemma parse_block_one num l v b : num = OP_BLOCK1 \/ num = OP_BLOCK2 ->
  with_num num l = [mkop num v] -> lenN v = 3 -> bytes_ok v -> block_value (be_val v) b ->
  parse_block_op l num = Ok (Some b).
Proof.
  intros Hn Hw Hl Hb Hv. rewrite parse_block_num by exact Hn. rewrite Hw. unfold o_len. cbn [o_val].
  pose proof (proj2 (parse_block_val_spec v [] b Hb ltac:(lia)) Hv) as H. rewrite app_nil_r in H. rewrite H. reflexivity.
Qed.

Lemma with_num_none n l : ~ In n (map o_num l) -> with_num n l = [].
Proof.
  induction l as [|o l IH]; cbn [map In with_num filter]; intro H; [reflexivity|].
  destruct (N.eqb_spec (o_num o) n); [destruct H; auto|]. apply IH. tauto.
Qed.

Lemma plain_none l : plain l -> with_num OP_BLOCK1 l = [] /\ with_num OP_BLOCK2 l = [].
Proof.
  intros [H _]. rewrite Forall_forall in H.
  split; apply with_num_none; intro Hin; apply in_map_iff in Hin as (o & E & Hin); apply H in Hin; tauto.
Qed.
Lemma plain_low l : plain l -> low l.
Proof. intros [H _]. eapply Forall_impl; [|exact H]. cbn. tauto. Qed.

Lemma low_add l o : ops_sorted l -> low l -> o_num o <= 140 -> low (op_list_add l o).
Proof.
  intros Hs Hl Ho. eapply Permutation_Forall; [apply Permutation_sym, op_list_add_perm; exact Hs|]. constructor; assumption.
Qed.
Lemma room_add l o : ops_sorted l -> room (op_list_add l o) = 3 + o_len o + room l.
Proof. intro Hs. rewrite (room_perm _ _ (op_list_add_perm l o Hs)). reflexivity. Qed.

Lemma acceptable_ops proxy m m' : m_ops m = m_ops m' -> acceptable proxy m -> acceptable proxy m'.
Proof. unfold acceptable. intros ->. auto. Qed.
Lemma acceptable_add proxy m m' o : ops_sorted (m_ops m) -> m_ops m' = op_list_add (m_ops m) o ->
  o_num o = OP_BLOCK1 \/ o_num o = OP_BLOCK2 -> acceptable proxy m -> acceptable proxy m'.
Proof.
  intros Hs He Ho H x Hx Hb. rewrite He in Hx.
  apply (Permutation_in _ (op_list_add_perm _ _ Hs)) in Hx. destruct Hx as [<-|Hx]; [|apply H; assumption].
  destruct Ho as [E|E]; rewrite E; unfold OP_BLOCK1, OP_BLOCK2; cbn; tauto.
Qed.

Lemma asks_path req m : asks req m -> req_path m = req_path req.
Proof.
  intros (_ & _ & _ & H). unfold req_path, path_bytes. rewrite (H 11); [reflexivity| |]; unfold OP_BLOCK1, OP_BLOCK2; discriminate.
Qed.
Lemma asks_seen req m : asks req m -> seen_path m = seen_path req.
Proof. intro H. unfold seen_path. rewrite (asks_path _ _ H). reflexivity. Qed.

Lemma path_short l : lenN (path_bytes l) <= room l.
Proof.
  unfold path_bytes. induction l as [|o l IH]; cbn [with_num filter map concat room fold_right]; [apply N.le_refl|].
  fold (room l). fold (with_num 11 l). destruct (o_num o =? 11); [|lia].
  cbn [map concat]. rewrite lenN_app, lenN_cons. unfold o_len. lia.
Qed.

Lemma direct_sepb C req m : direct C req -> room (m_ops req) <= 112 -> asks req m -> sepb C m = false.
Proof.
  intros [_ Hp] Hr Ha.
  assert (Hl : lenN (req_path m) <= 255).
  { rewrite (asks_path _ _ Ha). unfold req_path. pose proof (path_short (m_ops req)).
    destruct (path_bytes (m_ops req)); [vm_compute; discriminate|]. lia. }
  rewrite <- (asks_path _ _ Ha) in Hp. clear Ha Hr.
  unfold sepb, get_resp_type, path_buf.
  rewrite uri_path_spec by (unfold URI_PATH_MAX_LEN; lia). cbn [bind fst]. unfold URI_PATH_MAX_LEN.
  fold (req_path m). change (256 - 1) with 255.
  rewrite firstn_all2 by (unfold lenN in Hl; lia).
  revert Hp. induction (sc_sep C) as [|p l IH]; intro Hp; cbn [path_list_match]; [reflexivity|].
  unfold cstr_eqb at 1. rewrite cstr_zeros, (until_nul_cstr p), (until_nul_cstr (req_path m)).
  destruct (bytes_eqb (until_nul p) (until_nul (req_path m))) eqn:Ep.
  - apply bytes_eqb_eq in Ep. destruct (Hp p); [left; reflexivity|exact Ep].
  - apply IH. intros q Hq. apply Hp. right. exact Hq.
Qed.

(** ** Sizes *)

Lemma block_size_pow s : block_size s -> exists a, a < 7 /\ s = 2 ^ (4 + a).
Proof.
  unfold block_size. cbn [In]. intros [<-|[<-|[<-|[<-|[<-|[<-|[<-|[]]]]]]]];
    [exists 0|exists 1|exists 2|exists 3|exists 4|exists 5|exists 6]; split; reflexivity.
Qed.

(** ** One block *)

(** The client's request for the block at [start]. *)
Lemma block2_request req start b : light 106 req -> with_num OP_BLOCK2 (m_ops req) = [] -> b < 7 ->
  start mod 2 ^ (4 + b) = 0 -> start / 2 ^ (4 + b) < 1048576 ->
  exists m, block2_msg req start (2 ^ (4 + b)) b = Ok m /\ light 112 m /\ m_type m = m_type req /\ asks req m /\
    with_num OP_BLOCK1 (m_ops m) = with_num OP_BLOCK1 (m_ops req) /\
    parse_block_op (m_ops m) OP_BLOCK2 = Ok (Some (mkblk (start / 2 ^ (4 + b)) false (2 ^ (4 + b)))) /\
    (forall proxy, acceptable proxy req -> acceptable proxy m).
Proof.
  intros [W Hl Hr Hp] Hn Hb Hmod Hnum. unfold block2_msg. rewrite (copy_req _ W). cbn [bind].
  rewrite N.shiftr_div_pow2, (N.add_comm b 4). rewrite (N.mod_small (start / 2 ^ (4 + b)) two32) by (unfold two32; lia).
  destruct (format_block_3 (start / 2 ^ (4 + b)) false b Hnum Hb) as (v & -> & Hv & Hvb & Hbv). cbn [bind add_op].
  pose proof (wf_sorted _ W) as Hs.
  eexists. split; [reflexivity|]. cbn [m_type m_class m_detail m_ops m_payload].
  assert (Wm : wf_msg (run_setter req (AddOp OP_BLOCK2 v))).
  { apply wf_run_setter; [exact W|]. cbn. split; [reflexivity|]. split; [exact Hvb|]. unfold o_len. cbn [o_val]. rewrite Hv. reflexivity. }
  split.
  { split; cbn [m_ops m_payload]; [exact Wm|apply low_add; auto; cbn; unfold OP_BLOCK2; lia| |exact Hp].
    rewrite room_add by exact Hs. unfold o_len. cbn [o_val]. lia. }
  split; [reflexivity|].
  split.
  { split; [reflexivity|]. split; [reflexivity|]. split; [exact (wf_ver _ W)|]. intros n H1 H2. cbn [m_ops]. rewrite with_num_add by exact Hs. cbn [o_num].
    destruct (N.eqb_spec OP_BLOCK2 n); [congruence|]. apply app_nil_r. }
  split.
  { rewrite with_num_add by exact Hs. apply app_nil_r. }
  split.
  { apply (parse_block_one OP_BLOCK2 _ v); auto. rewrite with_num_add, Hn by exact Hs. reflexivity. }
  intros proxy Ha. eapply acceptable_add; [exact Hs| | |exact Ha]; [reflexivity|right; reflexivity].
Qed.

Definition min_size (x y : N) : N := if x <? y then x else y.

Lemma pow_divide a b : a <= b -> (2 ^ (4 + a) | 2 ^ (4 + b)).
Proof. intro H. exists (2 ^ (b - a)). rewrite <- N.pow_add_r. f_equal. lia. Qed.

(** The server's part. *)
Record serving (t : trans) (sbuf body : list N) (req : msg) (start a : N) : Prop := {
  sg_has : has_body t sbuf;
  sg_type : t_type t = TGet \/ t_type t = TPut2 \/ t_type t = TPost2;
  sg_method : method_of (t_type t) (m_detail req);
  sg_path : cstr (t_uri t) = seen_path req;
  sg_end : t_end t = lenN body;
  sg_body : firstn (N.to_nat (lenN body)) sbuf = body;
  sg_next : t_next2 t = start;
  sg_size : t_size2 t = 2 ^ (4 + a)
}.

Definition last_detail (t : trans) : N := if is_type (t_type t) TGet then 5 else t_detail t.

Lemma firstn_skipn_firstn {T} (l : list T) n k m : (k + n <= m)%nat ->
  firstn n (skipn k (firstn m l)) = firstn n (skipn k l).
Proof. intro H. rewrite skipn_firstn_comm, firstn_firstn. f_equal. lia. Qed.

Lemma serve_block t sbuf body req start a b m resp0 :
  serving t sbuf body req start a -> a < 7 -> b < 7 -> (start = 0 \/ a = b) ->
  start mod 2 ^ (4 + b) = 0 -> start <= lenN body -> start / 2 ^ (4 + b) < 1048576 ->
  wf_msg m -> asks req m -> with_num OP_BLOCK1 (m_ops m) = [] \/ (exists o1, parse_block_op (m_ops m) OP_BLOCK1 = Ok o1) ->
  parse_block_op (m_ops m) OP_BLOCK2 = Ok (Some (mkblk (start / 2 ^ (4 + b)) false (2 ^ (4 + b)))) ->
  exists k v t', k <= a /\ k <= b /\ (k = a \/ k = b) /\ lenN v = 3 /\ bytes_ok v /\
    ((start + 2 ^ (4 + k) <= lenN body /\ serving t' sbuf body req (start + 2 ^ (4 + k)) k /\
      t_type t' = t_type t /\ t_detail t' = t_detail t /\
      block_value (be_val v) (mkblk (start / 2 ^ (4 + k)) true (2 ^ (4 + k))) /\
      next_block2 t m resp0 = (t', with_block2 resp0 v (firstn (N.to_nat (2 ^ (4 + k))) (skipn (N.to_nat start) body)) 31, Ok tt)) \/
     (lenN body < start + 2 ^ (4 + k) /\ t_type t' = TRegular /\
      block_value (be_val v) (mkblk (start / 2 ^ (4 + k)) false (2 ^ (4 + k))) /\
      next_block2 t m resp0 = (t', with_block2 resp0 v (skipn (N.to_nat start) body) (last_detail t), Ok tt))).
Proof.
  intros [HB Hty Hme Hpa Hend Hbo Hnx Hsz] Ha Hb Hab Hmod Hle Hnum W Hask Hb1 Hb2.
  assert (Hv : vals_ok (m_ops m)).
  { eapply Forall_impl; [|apply (wf_ops _ W)]. intros o (_ & H & _). exact H. }
  assert (Hp1 : exists o1, parse_block_op (m_ops m) OP_BLOCK1 = Ok o1).
  { destruct Hb1 as [H|H]; [|exact H]. exists None. rewrite parse_block_num by (left; reflexivity). rewrite H. reflexivity. }
  destruct Hp1 as [o1 Hp1].
  set (k := if b <? a then b else a).
  assert (Hk : k <= a /\ k <= b /\ (k = a \/ k = b)).
  { unfold k. destruct (N.ltb_spec b a); lia. }
  assert (Hre : resize (Some (mkblk (start / 2 ^ (4 + b)) false (2 ^ (4 + b)))) (t_size2 t) = 2 ^ (4 + k)).
  { cbn [resize b_size]. rewrite Hsz. unfold k. destruct (N.ltb_spec b a) as [H|H].
    - assert (2 ^ (4 + b) < 2 ^ (4 + a)) by (apply N.pow_lt_mono_r; lia).
      destruct (N.ltb_spec (2 ^ (4 + b)) (2 ^ (4 + a))); [reflexivity|lia].
    - assert (2 ^ (4 + a) <= 2 ^ (4 + b)) by (apply N.pow_le_mono_r; lia).
      destruct (N.ltb_spec (2 ^ (4 + b)) (2 ^ (4 + a))); [lia|reflexivity]. }
  assert (Hsk : start / 2 ^ (4 + b) = start / 2 ^ (4 + k)).
  { destruct Hab as [->|Hab]; [rewrite !N.div_0_l by (apply N.pow_nonzero; lia); reflexivity|].
    replace k with b by (unfold k; rewrite Hab, N.ltb_irrefl; reflexivity). reflexivity. }
  assert (Hmk : start mod 2 ^ (4 + k) = 0).
  { destruct Hab as [->|Hab]; [apply N.mod_0_l, N.pow_nonzero; lia|].
    replace k with b by (unfold k; rewrite Hab, N.ltb_irrefl; reflexivity). exact Hmod. }
  clearbody k.
  assert (Hnz : 2 ^ (4 + k) <> 0) by (apply N.pow_nonzero; discriminate).
  assert (Hex : start / 2 ^ (4 + k) * 2 ^ (4 + k) = start).
  { clear - Hmk Hnz. pose proof (N.div_mod start (2 ^ (4 + k)) Hnz) as H. rewrite Hmk, N.add_0_r, N.mul_comm in H. congruence. }
  pose proof (pow_szx k ltac:(lia)) as Hpk.
  pose proof (next_block2_spec t sbuf m resp0 HB Hv Hty) as Hn.
  assert (Hdue : due2 t m (Some (mkblk (start / 2 ^ (4 + b)) false (2 ^ (4 + b))))).
  { split; [|split].
    - destruct Hask as (_ & -> & _). exact Hme.
    - rewrite Hpa. apply asks_seen. exact Hask.
    - rewrite Hre. cbn [blk_or_zero b_num]. rewrite Hsk, Hnx. exact Hex. }
  assert (Hlen : lenN body <= lenN sbuf) by (rewrite <- Hend; apply HB).
  destruct Hn as [t' Ht Hno|t' u Ht Hno|t' o2 Ht Hp2 Hno|o1' o2 v Hp1' Hp2 Hd size Hs Hfit Hvl Hvb Hbv|t' o1' o2 v Hp1' Hp2 Hd size Hs Ht Hfit Hvl Hvb Hbv].
  - destruct (Hno _ _ Hp1 Hb2). exact Hdue.
  - exfalso. unfold block_ub in Hno. destruct Hno as [[x Hx]|[x Hx]]; congruence.
  - exfalso. rewrite Hb2 in Hp2. injection Hp2 as <-. rewrite Hre in Hno. rewrite szx_calc in Hno by lia. discriminate.
  - rewrite Hb2 in Hp2. injection Hp2 as <-. subst size. rewrite Hre in *. rewrite Hnx, Hend in *.
    cbn [blk_or_zero b_num] in Hbv. rewrite Hsk in Hbv.
    exists k, v. eexists. split; [lia|]. split; [lia|]. split; [tauto|]. split; [exact Hvl|]. split; [exact Hvb|]. left.
    split; [exact Hfit|]. split; [|split; [|split; [|split; [exact Hbv|]]]].
    4: { f_equal. f_equal. f_equal. rewrite <- (firstn_skipn_firstn sbuf _ _ (N.to_nat (lenN body))) by lia. rewrite Hbo. reflexivity. }
    2-3: reflexivity.
    split; cbn [t_with_block t_type t_uri t_end t_next2 t_size2]; auto.
    destruct HB. split; cbn [t_with_block t_body t_next2 t_end t_detail t_size2]; auto; lia.
  - rewrite Hb2 in Hp2. injection Hp2 as <-. subst size. rewrite Hre in *. rewrite Hnx, Hend in *.
    cbn [blk_or_zero b_num] in Hbv. rewrite Hsk in Hbv.
    exists k, v, t'. split; [lia|]. split; [lia|]. split; [tauto|]. split; [exact Hvl|]. split; [exact Hvb|]. right.
    split; [exact Hfit|]. split; [exact Ht|]. split; [exact Hbv|]. f_equal. f_equal. f_equal.
    rewrite <- (firstn_skipn_firstn sbuf _ _ (N.to_nat (lenN body))) by lia. rewrite Hbo.
    apply firstn_all2. rewrite skipn_length. unfold lenN. lia.
Qed.

Lemma serving_xfer t u sbuf body req start a : xfer u = xfer t -> serving t sbuf body req start a -> serving u sbuf body req start a.
Proof.
  intros Hx [H1 H2 H3 H4 H5 H6 H7 H8]. pose proof (has_body_xfer _ _ _ Hx H1) as HB.
  unfold xfer in Hx. injection Hx as E1 E2 E3 E4 E5 E6 E7 E8 E9 E10.
  split; rewrite ?E1, ?E3, ?E5, ?E7, ?E8; assumption.
Qed.

Lemma reply_light resp0 v pl d : wf_msg resp0 -> low (m_ops resp0) -> room (m_ops resp0) <= 106 ->
  lenN v = 3 -> bytes_ok v -> bytes_ok pl -> lenN pl <= 1024 -> d <= 31 -> light 112 (with_block2 resp0 v pl d).
Proof.
  intros W Hl Hr Hv Hvb Hp Hpl Hd. pose proof (wf_sorted _ W) as Hs.
  assert (Wm : wf_msg (run_setter resp0 (AddOp OP_BLOCK2 v))).
  { apply wf_run_setter; [exact W|]. cbn. split; [reflexivity|]. split; [exact Hvb|]. unfold o_len. cbn [o_val]. rewrite Hv. reflexivity. }
  split; cbn [with_block2 m_ops m_payload]; [|apply low_add; auto; cbn; unfold OP_BLOCK2; lia| |exact Hpl].
  - destruct Wm as [W1 W2 W3 W4 W5 W6 W7 W8 W9 W10].
    split; cbn [with_block2 m_ver m_type m_class m_detail m_id m_token m_ops m_payload]; auto. discriminate.
  - rewrite room_add by exact Hs. unfold o_len. cbn [o_val]. lia.
Qed.

Lemma reply_block2 resp0 v pl d b : ops_sorted (m_ops resp0) -> with_num OP_BLOCK2 (m_ops resp0) = [] ->
  lenN v = 3 -> bytes_ok v -> block_value (be_val v) b ->
  parse_block_op (m_ops (with_block2 resp0 v pl d)) OP_BLOCK2 = Ok (Some b).
Proof.
  intros Hs Hn Hv Hvb Hb. apply (parse_block_one OP_BLOCK2 _ v); auto. cbn [with_block2 m_ops].
  rewrite with_num_add, Hn by exact Hs. reflexivity.
Qed.

(** The client's part. *)
Lemma take_block req q buf b k start more :
  m_class q = 2 ->
  (if m_detail req =? 1 then m_detail q = 31 \/ m_detail q = 5 else m_detail q = 31 \/ m_detail q = 1 \/ m_detail q = 4) ->
  parse_block_op (m_ops q) OP_BLOCK2 = Ok (Some (mkblk (start / 2 ^ (4 + k)) more (2 ^ (4 + k)))) ->
  k <= b -> b < 7 -> start mod 2 ^ (4 + k) = 0 -> start / 2 ^ (4 + k) < 1048576 ->
  lenN (m_payload q) <= 2 ^ (4 + k) -> (more = true -> lenN (m_payload q) = 2 ^ (4 + k)) ->
  start + lenN (m_payload q) <= lenN buf ->
  lenN buf < large ->
  let n := lenN (m_payload q) in
  let buf' := firstn (N.to_nat start) buf ++ m_payload q ++ skipn (N.to_nat (start + n)) buf in
  block2_resp req q buf (2 ^ (4 + b)) start =
    if more then B2Next buf' (2 ^ (4 + k)) k (start + n) else B2Stop buf' (Ok (start + n, q)).
Proof.
  intros Hc Hd Hp Hkb Hb Hm Hn Hl1 Hl2 Hfit Hlarge n buf'. unfold block2_resp. rewrite Hc. change (negb (2 =? CL_SUCCESS)) with false. cbv iota.
  replace (if m_detail req =? M_GET
      then negb (m_detail q =? CONTINUE) && negb (m_detail q =? CONTENT)
      else negb (m_detail q =? CONTINUE) && negb (m_detail q =? CREATED)
           && negb (m_detail q =? CHANGED)) with false.
  2: { unfold M_GET. destruct (m_detail req =? 1); [destruct Hd as [->| ->]|destruct Hd as [->|[->| ->]]]; reflexivity. }
  rewrite Hp. cbn [b_size b_num b_more].
  pose proof (pow_szx k ltac:(lia)) as Hpk.
  assert (Hmin : (if 2 ^ (4 + k) <? 2 ^ (4 + b) then 2 ^ (4 + k) else 2 ^ (4 + b)) = 2 ^ (4 + k)).
  { destruct (N.ltb_spec (2 ^ (4 + k)) (2 ^ (4 + b))); [reflexivity|].
    assert (2 ^ (4 + k) <= 2 ^ (4 + b)) by (apply N.pow_le_mono_r; lia). lia. }
  rewrite Hmin.
  assert (Hnz : 2 ^ (4 + k) <> 0) by (apply N.pow_nonzero; discriminate).
  assert (Hex : start / 2 ^ (4 + k) * 2 ^ (4 + k) = start).
  { clear - Hm Hnz. pose proof (N.div_mod start (2 ^ (4 + k)) Hnz) as H. rewrite Hm, N.add_0_r, N.mul_comm in H. congruence. }
  assert (Hmul : mul32 (start / 2 ^ (4 + k)) (2 ^ (4 + k)) = start).
  { unfold mul32. rewrite Hex. apply N.mod_small. unfold two32.
    assert (start / 2 ^ (4 + k) * 2 ^ (4 + k) <= 1048575 * 1024) by (apply N.mul_le_mono; lia). lia. }
  rewrite Hmul, N.eqb_refl. cbn [negb]. rewrite szx_calc by lia. cbv zeta. fold n.
  assert (Hmodn : n mod two32 = n) by (apply N.mod_small; unfold n, two32; lia).
  rewrite Hmodn.
  destruct (N.ltb_spec (2 ^ (4 + k)) n); [unfold n in *; lia|].
  replace (more && negb (n =? 2 ^ (4 + k))) with false.
  2: { destruct more; [|reflexivity]. unfold n. rewrite Hl2 by reflexivity. rewrite N.eqb_refl. reflexivity. }
  assert (Hadd : add64 start n = start + n).
  { unfold add64. apply N.mod_small. fold n in Hfit. unfold large in Hlarge. unfold two64. lia. }
  rewrite Hadd. fold n in Hfit. destruct (N.ltb_spec (lenN buf) (start + n)); [lia|].
  unfold put. rewrite (firstn_all2 (m_payload q)) by (unfold n, lenN; lia). fold n.
  destruct (N.leb_spec (start + n) (lenN buf)); [|lia]. fold buf'. destruct more; reflexivity.
Qed.

Lemma splice_buf (body buf0 : list N) start n : start + n <= lenN body -> lenN body <= lenN buf0 ->
  let buf := firstn (N.to_nat start) body ++ skipn (N.to_nat start) buf0 in
  firstn (N.to_nat start) buf ++ firstn (N.to_nat n) (skipn (N.to_nat start) body) ++ skipn (N.to_nat (start + n)) buf
  = firstn (N.to_nat (start + n)) body ++ skipn (N.to_nat (start + n)) buf0.
Proof.
  intros H1 H2 buf. unfold buf.
  assert (L : length (firstn (N.to_nat start) body) = N.to_nat start) by (rewrite firstn_length; unfold lenN in *; lia).
  rewrite firstn_app, L, Nat.sub_diag. cbn [firstn]. rewrite app_nil_r, firstn_firstn, Nat.min_id.
  rewrite skipn_app, L. rewrite (skipn_all2 (firstn (N.to_nat start) body)) by lia. cbn [List.app].
  rewrite skipn_plus. replace (N.to_nat start + (N.to_nat (start + n) - N.to_nat start))%nat with (N.to_nat (start + n)) by lia.
  rewrite app_assoc. f_equal. replace (N.to_nat (start + n)) with (N.to_nat start + N.to_nat n)%nat by lia.
  rewrite <- (firstn_skipn (N.to_nat start) body) at 3. rewrite firstn_app, L.
  replace (N.to_nat start + N.to_nat n - N.to_nat start)%nat with (N.to_nat n) by lia.
  rewrite firstn_firstn. replace (Nat.min (N.to_nat start + N.to_nat n) (N.to_nat start)) with (N.to_nat start) by lia. reflexivity.
Qed.

Lemma lenN_block (body : list N) start size : start + size <= lenN body ->
  lenN (firstn (N.to_nat size) (skipn (N.to_nat start) body)) = size.
Proof. intro H. rewrite lenN_firstn, lenN_skipn. lia. Qed.

Section Net.
Context {A : Type} (P : app A) (Ec : env) (Cc : cfg) (Es : senv) (Cs : scfg) (c : N).
Context (HF : no_failures Ec Es).

(** What is asked of a request. *)
Record good_req (req : msg) : Prop := {
  gr_light : light 100 req;
  gr_b1 : with_num OP_BLOCK1 (m_ops req) = [];
  gr_b2 : with_num OP_BLOCK2 (m_ops req) = [];
  gr_type : m_type req = 0;
  gr_class : m_class req = 0;
  gr_detail : m_detail req = 1 \/ m_detail req = 2 \/ m_detail req = 3;
  gr_direct : direct Cs req
}.

Lemma light_le n n' m : n <= n' -> light n m -> light n' m.
Proof. intros H []. split; auto. lia. Qed.

Lemma asks_stamped req n m : asks req m -> asks req (stamped_req Ec n m).
Proof. exact (fun H => H). Qed.

(** One block of a body that is being served, through the network. *)
Lemma net_block2 req s v v1 i u0 m sbuf body start a b l0 resp0 a1 :
  good_req req -> ready Es c v v1 i -> match_req (tr v1 i) (stamped_req Ec (c_nrand s) m) = false ->
  block2_msg req start (2 ^ (4 + b)) b = Ok m ->
  a < 7 -> b < 7 -> (start = 0 \/ a = b) -> start mod 2 ^ (4 + b) = 0 -> start <= lenN body -> start / 2 ^ (4 + b) < 1048576 ->
  bytes_ok body -> t_type u0 = TGet \/ t_detail u0 = 1 \/ t_detail u0 = 4 ->
  wf_msg resp0 -> low (m_ops resp0) -> room (m_ops resp0) <= 106 -> with_num OP_BLOCK2 (m_ops resp0) = [] -> acceptable (cf_proxy Cc) resp0 ->
  calls l0 = [] ->
  (forall u, stripped (tr v1 i) u -> exists t1, serving t1 sbuf body req start a /\ t_type t1 = t_type u0 /\ t_detail t1 = t_detail u0 /\
     reply_of P Cs c (v_app v1) u (stamped_req Ec (c_nrand s) m) = (a1, l0, next_block2 t1 (stamped_req Ec (c_nrand s) m) resp0)) ->
  exists s' v' k more q h,
    net_exch P Ec Cc Es Cs c (s, v) m = ((s', v'), Ok q) /\
    k <= a /\ k <= b /\ (k = a \/ k = b) /\
    c_nrand s' = (7 + c_nrand s)%nat /\ ready Es c v' v' i /\ v_app v' = a1 /\
    m_id (t_req (tr v' i)) = req_id Ec (c_nrand s) /\ v_trace v' = v_trace v ++ h /\ calls h = [] /\
    m_class q = 2 /\ parse_block_op (m_ops q) OP_BLOCK2 = Ok (Some (mkblk (start / 2 ^ (4 + k)) more (2 ^ (4 + k)))) /\
    (if more then
       start + 2 ^ (4 + k) <= lenN body /\ m_detail q = 31 /\
       m_payload q = firstn (N.to_nat (2 ^ (4 + k))) (skipn (N.to_nat start) body) /\
       serving (tr v' i) sbuf body req (start + 2 ^ (4 + k)) k /\ t_type (tr v' i) = t_type u0 /\ t_detail (tr v' i) = t_detail u0
     else
       lenN body < start + 2 ^ (4 + k) /\ m_detail q = last_detail u0 /\ m_payload q = skipn (N.to_nat start) body).
Proof.
  intros [GL G1 G2 GT GC GD GR] Hre Hmr Hmsg Ha Hb Hab Hmod Hle Hnum Hbb Hu0 W0 Hl0 Hr0 Hn0 Hac Hcl Hrep.
  destruct (block2_request req start b (light_le 100 106 req ltac:(lia) GL) G2 Hb Hmod Hnum) as (m' & Hm' & Lm & Tm & Am & B1 & B2 & Acc).
  rewrite Hmsg in Hm'. injection Hm' as <-.
  set (ms := stamped_req Ec (c_nrand s) m) in *.
  destruct (net_round P Ec Cc Es Cs c HF
    (fun a' l t2 resp => a' = a1 /\ l = l0 /\ exists k v more, k <= a /\ k <= b /\ (k = a \/ k = b) /\ lenN v = 3 /\ bytes_ok v /\
       block_value (be_val v) (mkblk (start / 2 ^ (4 + k)) more (2 ^ (4 + k))) /\
       if more then start + 2 ^ (4 + k) <= lenN body /\ serving t2 sbuf body req (start + 2 ^ (4 + k)) k /\
            t_type t2 = t_type u0 /\ t_detail t2 = t_detail u0 /\
            resp = with_block2 resp0 v (firstn (N.to_nat (2 ^ (4 + k))) (skipn (N.to_nat start) body)) 31
       else lenN body < start + 2 ^ (4 + k) /\ resp = with_block2 resp0 v (skipn (N.to_nat start) body) (last_detail u0))
    s v v1 i m) as (s' & v' & a' & l & t2 & resp & t3 & h & He & HQ & Hns & Hre' & Happ & Ht3 & Hx & Hid & Htr & Hch).
  { exact Hre. } { exact Lm. } { congruence. } { destruct Am as (-> & _). exact GC. }
  { destruct Am as (_ & -> & _). destruct GD as [->|[->| ->]]; discriminate. }
  { exact Hmr. }
  { apply (direct_sepb Cs req); [exact GR| |exact Am]. pose proof (li_room _ _ GL). lia. }
  { apply (acceptable_ops _ m); [reflexivity|]. apply Acc. apply GR. }
  { fold ms. intros u Hu. destruct (Hrep u Hu) as (t1 & Hsv & Hty & Hdt & ->).
    assert (Hld : last_detail t1 = last_detail u0) by (unfold last_detail; rewrite Hty, Hdt; reflexivity).
    assert (Hldb : last_detail u0 <= 31).
    { rewrite <- Hld. unfold last_detail. destruct (is_type _ _); [discriminate|]. apply (hb_detail _ _ (sg_has _ _ _ _ _ _ Hsv)). }
    destruct (serve_block t1 sbuf body req start a b ms resp0 Hsv Ha Hb Hab Hmod Hle Hnum) as (k & v0 & t' & K1 & K2 & K3 & V1 & V2 & Hcase).
    { apply wf_stamped_req. apply Lm. } { exact Am. } { left. change (m_ops ms) with (m_ops m). congruence. } { exact B2. }
    pose proof (pow_szx k ltac:(lia)) as Hpk.
    assert (Hskb : bytes_ok (skipn (N.to_nat start) body)) by (apply skipn_bytes; exact Hbb).
    destruct Hcase as [(C1 & C2 & C3 & C4 & C5 & ->)|(C1 & C2 & C3 & ->)].
    - do 4 eexists. split; [reflexivity|]. split.
      { split; [reflexivity|]. split; [reflexivity|]. exists k, v0, true.
        do 6 (split; [assumption|]). split; [exact C1|]. split; [exact C2|]. split; [congruence|]. split; [congruence|reflexivity]. }
      split; [apply reply_light; auto; [apply firstn_bytes; exact Hskb|rewrite lenN_block by exact C1; lia|discriminate]|].
      split; [left; reflexivity|]. eapply (acceptable_add _ resp0); [apply W0|reflexivity|right; reflexivity|exact Hac].
    - do 4 eexists. split; [reflexivity|]. split.
      { split; [reflexivity|]. split; [reflexivity|]. exists k, v0, false. rewrite Hld.
        do 6 (split; [assumption|]). split; [exact C1|reflexivity]. }
      rewrite Hld.
      split; [apply reply_light; auto; rewrite lenN_skipn; lia|].
      split; [left; reflexivity|]. eapply (acceptable_add _ resp0); [apply W0|reflexivity|right; reflexivity|exact Hac]. }
  fold ms in He, Hid. destruct HQ as (-> & -> & k & v0 & more & K1 & K2 & K3 & V1 & V2 & V3 & Hm).
  exists s', v', k, more, (reply_to ms resp), h.
  split; [exact He|]. do 3 (split; [assumption|]). split; [exact Hns|]. split; [exact Hre'|]. split; [exact Happ|].
  split; [rewrite Ht3; exact Hid|]. split; [exact Htr|]. split; [congruence|].
  destruct more.
  - destruct Hm as (C1 & C2 & C3 & C4 & ->). split; [reflexivity|].
    split; [apply (reply_block2 resp0); auto; apply W0|]. split; [exact C1|]. split; [reflexivity|]. split; [reflexivity|].
    rewrite Ht3. pose proof Hx as Hx'. unfold xfer in Hx'. injection Hx' as E1 E2 E3 E4 E5 E6 E7 E8 E9 E10.
    split; [eapply serving_xfer; [exact Hx|exact C2]|]. split; congruence.
  - destruct Hm as (C1 & ->). split; [reflexivity|]. split; [apply (reply_block2 resp0); auto; apply W0|]. auto.
Qed.

Lemma reply_next2 a u m : t_type u = TGet \/ t_type u = TPut2 \/ t_type u = TPost2 ->
  reply_of P Cs c a u m = (a, [], next_block2 u m msg_create).
Proof. unfold reply_of, next_block. intros [->|[->| ->]]; reflexivity. Qed.

(** The client's round once the exchange is known. *)
Lemma last_ok req u : method_of (t_type u) (m_detail req) -> t_type u = TGet \/ t_type u = TPut2 \/ t_type u = TPost2 ->
  t_type u = TGet \/ t_detail u = 1 \/ t_detail u = 4 ->
  if m_detail req =? 1 then last_detail u = 5 else last_detail u = 1 \/ last_detail u = 4.
Proof.
  intros Hm Ht Hd. unfold last_detail. destruct (N.eqb_spec (m_detail req) 1) as [E|E].
  - destruct Ht as [Ht|[Ht|Ht]]; rewrite Ht in *; cbn in Hm |- *; [reflexivity|congruence|congruence].
  - destruct Ht as [Ht|[Ht|Ht]]; rewrite Ht in *; cbn in Hm |- *; [congruence| |]; destruct Hd as [Hd|Hd]; auto; discriminate.
Qed.

Lemma match_other t m : m_id (t_req t) <> m_id m -> match_req t m = false.
Proof. intro H. unfold match_req. destruct (N.eqb_spec (m_id (t_req t)) (m_id m)); [contradiction|]. apply andb_false_r. Qed.

Section Loop.
Context (req : msg) (body buf0 : list N) (n total : nat) (dlast : N).
Context (HG : good_req req) (Hbb : bytes_ok body).
Context (Hfit : lenN body <= lenN buf0) (Hlarge : lenN buf0 < large).
Context (Hids : forall k, (k < total)%nat -> id_no Ec n k <> id_no Ec n (S k)).

(** What a download leaves behind. *)
Definition downloads (v : @srv A) (a : A) (r : (cst * @srv A) * list N * res (N * msg)) : Prop :=
  exists s' v' resp h,
    r = ((s', v'), body ++ skipn (N.to_nat (lenN body)) buf0, Ok (lenN body, resp)) /\
    m_class resp = 2 /\ m_detail resp = dlast /\
    v_trace v' = v_trace v ++ h /\ calls h = [] /\ v_app v' = a.

Lemma downloads_after v v1 a r h : v_trace v1 = v_trace v ++ h -> calls h = [] -> downloads v1 a r -> downloads v a r.
Proof.
  intros Ht Hc (s' & v' & resp & h' & H1 & H2 & H3 & H4 & H5 & H6). exists s', v', resp, (h ++ h').
  split; [exact H1|]. split; [exact H2|]. split; [exact H3|]. split; [rewrite H4, Ht, app_assoc; reflexivity|].
  split; [rewrite calls_app, Hc, H5; reflexivity|exact H6].
Qed.

(** From the response on. *)
Lemma got_block s' v' i sbuf start b k more q u0 fuel :
  k <= b -> b < 7 -> start mod 2 ^ (4 + k) = 0 -> start <= lenN body -> start / 2 ^ (4 + k) < 1048576 ->
  (if m_detail req =? 1 then last_detail u0 = 5 else last_detail u0 = 1 \/ last_detail u0 = 4) ->
  dlast = last_detail u0 ->
  m_class q = 2 -> parse_block_op (m_ops q) OP_BLOCK2 = Ok (Some (mkblk (start / 2 ^ (4 + k)) more (2 ^ (4 + k)))) ->
  (if more then
       start + 2 ^ (4 + k) <= lenN body /\ m_detail q = 31 /\
       m_payload q = firstn (N.to_nat (2 ^ (4 + k))) (skipn (N.to_nat start) body) /\
       serving (tr v' i) sbuf body req (start + 2 ^ (4 + k)) k /\ t_type (tr v' i) = t_type u0 /\ t_detail (tr v' i) = t_detail u0
   else
       lenN body < start + 2 ^ (4 + k) /\ m_detail q = last_detail u0 /\ m_payload q = skipn (N.to_nat start) body) ->
  (more = true -> 
   downloads v' (v_app v') (blockwise2_loop (net_exch P Ec Cc Es Cs c) fuel (s', v') req 
      (firstn (N.to_nat (start + 2 ^ (4 + k))) body ++ skipn (N.to_nat (start + 2 ^ (4 + k))) buf0) (2 ^ (4 + k)) k (start + 2 ^ (4 + k)))) ->
  downloads v' (v_app v')
    match block2_resp req q (firstn (N.to_nat start) body ++ skipn (N.to_nat start) buf0) (2 ^ (4 + b)) start with
    | B2Stop buf r => ((s', v'), buf, r)
    | B2Next buf size szx start => blockwise2_loop (net_exch P Ec Cc Es Cs c) fuel (s', v') req buf size szx start
    end.
Proof.
  intros Hk Hb Hmod Hle Hnum Hlast Hdl Hc Hp Hm Hnext.
  set (buf := firstn (N.to_nat start) body ++ skipn (N.to_nat start) buf0).
  assert (Hbuf : lenN buf = lenN buf0).
  { unfold buf. rewrite lenN_app, lenN_firstn, lenN_skipn. lia. }
  pose proof (pow_szx k ltac:(lia)) as Hpk.
  assert (Hpl : exists n, n <= 2 ^ (4 + k) /\ (more = true -> n = 2 ^ (4 + k)) /\ start + n <= lenN body /\ lenN (m_payload q) = n /\
     m_payload q = firstn (N.to_nat n) (skipn (N.to_nat start) body) /\ (more = false -> start + n = lenN body)).
  { destruct more.
    - destruct Hm as (C1 & C2 & C3 & _). exists (2 ^ (4 + k)). rewrite C3. rewrite lenN_block by exact C1. repeat split; auto; try discriminate; try lia.
    - destruct Hm as (C1 & C2 & C3). exists (lenN body - start). rewrite C3, lenN_skipn. repeat split; auto; try discriminate; try lia.
      rewrite firstn_all2; [reflexivity|]. rewrite skipn_length. unfold lenN. lia. }
  destruct Hpl as (nn & N1 & N2 & N3 & N4 & N5 & N6).
  rewrite (take_block req q buf b k start more); auto.
  - rewrite N4, N5. unfold buf. rewrite splice_buf by lia. destruct more.
    + rewrite N2 by reflexivity. apply Hnext. reflexivity.
    + destruct Hm as (C1 & C2 & C3). rewrite N6 by reflexivity. exists s', v', q, [].
      split; [f_equal; f_equal; rewrite firstn_all2 by (unfold lenN; lia); reflexivity|].
      split; [exact Hc|]. split; [congruence|]. split; [rewrite app_nil_r; reflexivity|]. auto.
  - destruct more; [destruct Hm as (_ & -> & _); destruct (m_detail req =? 1); auto|].
    destruct Hm as (_ & -> & _). destruct (m_detail req =? 1); auto.
  - lia.
  - intro E. rewrite N4. auto.
  - lia.
  - lia.
Qed.

Lemma download_loop fuel : forall j s v i sbuf start b,
  (lenN body - start) / 16 < N.of_nat fuel -> (fuel + j <= total)%nat -> c_nrand s = (n + 7 * S j)%nat ->
  ready Es c v v i -> serving (tr v i) sbuf body req start b -> b < 7 -> start mod 2 ^ (4 + b) = 0 -> start <= lenN body ->
  lenN body / 2 ^ (4 + b) < 1048576 -> m_id (t_req (tr v i)) = id_no Ec n j ->
  t_type (tr v i) = TGet \/ t_detail (tr v i) = 1 \/ t_detail (tr v i) = 4 -> dlast = last_detail (tr v i) ->
  downloads v (v_app v) (blockwise2_loop (net_exch P Ec Cc Es Cs c) fuel (s, v) req
    (firstn (N.to_nat start) body ++ skipn (N.to_nat start) buf0) (2 ^ (4 + b)) b start).
Proof.
  induction fuel as [|fuel IH]; intros j s v i sbuf start b Hf Hj Hn Hre Hsv Hb Hmod Hle Hnum Hid Hty Hdl; [lia|].
  pose proof HG as [GL G1 G2 GT GC GD GR].
  pose proof (pow_szx b Hb) as Hpb.
  assert (Hsn : start / 2 ^ (4 + b) < 1048576).
  { eapply N.le_lt_trans; [apply N.div_le_mono; [lia|exact Hle]|exact Hnum]. }
  destruct (block2_request req start b (light_le 100 106 req ltac:(lia) GL) G2 Hb Hmod Hsn) as (m & Hm & _).
  cbn [blockwise2_loop]. rewrite Hm.
  destruct (net_block2 req s v v i (tr v i) m sbuf body start b b [] msg_create (v_app v))
    as (s' & v' & k & more & q & h & He & K1 & K2 & K3 & Hns & Hre' & Happ & Hid' & Htr & Hch & Hqc & Hqp & Hq); auto.
  { apply match_other. rewrite Hid. change (m_id (stamped_req Ec (c_nrand s) m)) with (req_id Ec (c_nrand s)). rewrite Hn.
    apply (Hids j). lia. }
  { apply wf_create. } { constructor. } { discriminate. } { intros o []. }
  { intros u Hu. exists u. destruct Hu as (Hx & _ & _).
    split; [eapply serving_xfer; [exact Hx|exact Hsv]|]. pose proof Hx as Hx'. unfold xfer in Hx'. injection Hx' as E1 E2 E3 E4 E5 E6 E7 E8 E9 E10.
    split; [exact E1|]. split; [exact E9|]. apply reply_next2. rewrite E1. apply Hsv. }
  assert (k = b) as -> by lia. rewrite He.
  eapply downloads_after; [exact Htr|exact Hch|]. rewrite <- Happ.
  eapply (got_block s' v' i sbuf start b b more q (tr v i)); auto.
  { apply last_ok; [apply (sg_method _ _ _ _ _ _ Hsv)|apply (sg_type _ _ _ _ _ _ Hsv)|exact Hty]. }
  intros ->. destruct Hq as (C1 & C2 & C3 & C4 & C5 & C6).
  apply (IH (S j) s' v' i sbuf); auto.
  - lia.
  - lia.
  - lia.
  - rewrite N.add_mod, Hmod, N.mod_same by (apply N.pow_nonzero; discriminate). rewrite N.mod_0_l; [reflexivity|]. apply N.pow_nonzero; discriminate.
  - rewrite Hid', Hn. reflexivity.
  - rewrite C5, C6. exact Hty.
  - unfold last_detail. rewrite C5, C6. exact Hdl.
Qed.
End Loop.
End Net.

(** ** The start of a download *)

Lemma good_bad s : s = 0 \/ block_size s ->
  (0 <? s) && match calc_block_szx s with Ok _ => false | _ => true end = false.
Proof.
  intros [->|H]; [reflexivity|]. apply block_size_pow in H as (a & Ha & ->). rewrite szx_calc by exact Ha. apply andb_false_r.
Qed.

Lemma handle_get {A} (P : app A) C a t m req resp s1 s2 body rx e :
  sc_large C < large -> m_detail m = 1 -> asks req m -> s1 = 0 \/ block_size s1 -> e < 7 -> s2 = 2 ^ (4 + e) -> lenN body <= sc_large C ->
  exists t1, handle_blockwise P C true a t m resp s1 s2 body (lenN body) rx = (a, [SBody (t_client t) body], next_block2 t1 m resp) /\
    serving t1 (body ++ skipn (N.to_nat (lenN body)) (repeat 0 (N.to_nat (sc_large C)))) body req 0 e /\ t_type t1 = TGet /\ t_detail t1 = 0.
Proof.
  intros HL Hd Ha H1 He H2 Hl. unfold handle_blockwise. cbv zeta. rewrite (good_bad s1 H1).
  assert (Hs2 : calc_block_szx s2 = Ok e) by (rewrite H2; apply szx_calc; exact He). rewrite Hs2, andb_false_r.
  destruct (N.ltb_spec (sc_large C) (lenN body)); [lia|]. cbn [negb].
  rewrite path_buf_eq. pose proof (cstr_path m (N.to_nat (257 - lenN (firstn 256 (req_path m))))) as Hcp.
  set (uri := firstn 256 _ ++ _) in *. unfold M_GET. rewrite Hd. change (1 =? 1) with true. cbv iota.
  unfold rdn. rewrite N.leb_refl. cbn [bind]. unfold put.
  assert (Hall : firstn (N.to_nat (lenN body)) body = body) by (apply firstn_all2; unfold lenN; lia). rewrite Hall.
  rewrite lenN_zeros. replace (0 + lenN body) with (lenN body) by lia. destruct (N.leb_spec (lenN body) (sc_large C)); [|lia].
  cbn [N.to_nat firstn List.app]. unfold next_block. cbn [t_type t_with_block t_client clear_blockwise].
  eexists. split; [reflexivity|]. split; [|split; reflexivity].
  split; cbn [t_type t_with_block t_uri t_end t_next2 t_size2].
  - split; cbn [t_body t_with_block t_next2 t_end t_detail t_size2]; try lia; try reflexivity.
    + rewrite lenN_app, lenN_skipn, lenN_zeros. lia.
    + rewrite lenN_app, lenN_skipn, lenN_zeros. lia.
    + rewrite H2. apply pow_szx. exact He.
  - left. reflexivity.
  - cbn. destruct Ha as (_ & <- & _). exact Hd.
  - rewrite Hcp. apply asks_seen. exact Ha.
  - reflexivity.
  - rewrite firstn_app, Hall. replace (N.to_nat (lenN body) - length body)%nat with 0%nat by (unfold lenN; lia). cbn. apply app_nil_r.
  - reflexivity.
  - exact H2.
Qed.

Lemma plain_light lr : let m := msg_build lr in Forall setter_ok lr -> plain (m_ops m) -> lenN (m_payload m) <= 1024 -> light 100 m.
Proof. intros m Hs Hp Hl. split; [apply wf_build; exact Hs|apply plain_low; exact Hp|apply Hp|exact Hl]. Qed.

Section Whole.
Context {A : Type} (P : app A) (Ec : env) (Cc : cfg) (Es : senv) (Cs : scfg) (c : N).
Context (HF : no_failures Ec Es).

Lemma download_all s (v : @srv A) req l s1 s2 body rx size2 buf fuel :
  reachable P Es Cs v -> idle v c -> sc_large Cs < large -> lenN buf < large ->
  good_req Cs req -> m_detail req = 1 ->
  (forall m, asks req m -> exists a1, ap_handle P (v_app v) c m = (a1, HBlock l s1 s2 body (lenN body) rx)) ->
  Forall setter_ok l -> plain (m_ops (msg_build l)) -> acceptable (cf_proxy Cc) (msg_build l) ->
  s1 = 0 \/ block_size s1 -> block_size s2 -> block_size size2 ->
  bytes_ok body -> lenN body <= sc_large Cs -> lenN body <= lenN buf -> lenN body < 1048576 * N.min s2 size2 ->
  lenN body / 16 < N.of_nat fuel ->
  fresh_id c (id_no Ec (c_nrand s) 0) (v_trace v) ->
  (forall k, (k < fuel)%nat -> id_no Ec (c_nrand s) k <> id_no Ec (c_nrand s) (S k)) ->
  exists s' v' resp,
    blockwise2 (net_exch P Ec Cc Es Cs c) fuel (s, v) req None buf size2 =
      ((s', v'), body ++ skipn (length body) buf, Ok (lenN body, resp)) /\ m_class resp = 2 /\ m_detail resp = 5.
Proof.
  intros Hreach Hidle HL Hbl HG Hd1 Hh Hl Hpl Hac H1 H2 H3 Hbb Hfs Hfc Hfn Hfu Hfr Hids.
  apply block_size_pow in H2 as (a & Ha & E2). apply block_size_pow in H3 as (b & Hb & E3).
  pose proof (pow_szx a Ha) as Hpa. pose proof (pow_szx b Hb) as Hpb.
  unfold blockwise2. destruct (N.eqb_spec size2 0); [lia|]. rewrite E3, szx_calc by exact Hb.
  destruct fuel as [|fuel]; [lia|].
  assert (Hid0 : id_no Ec (c_nrand s) 0 = req_id Ec (c_nrand s)) by (unfold id_no; f_equal; lia).
  rewrite Hid0 in Hfr.
  destruct (ready_first P Ec Es Cs c HF v _ Hreach Hidle Hfr) as (v1 & i & Hre & Hty & Hnm).
  pose proof HG as [GL G1 G2 GT GC GD GR].
  assert (Hm0 : 0 mod 2 ^ (4 + b) = 0) by (apply N.mod_0_l, N.pow_nonzero; discriminate).
  assert (Hd0 : 0 / 2 ^ (4 + b) < 1048576) by (rewrite N.div_0_l by (apply N.pow_nonzero; discriminate); reflexivity).
  destruct (block2_request req 0 b (light_le 100 106 req ltac:(lia) GL) G2 Hb Hm0 Hd0) as (m & Hm & Lm & Tm & Am & _).
  cbn [blockwise2_loop]. rewrite Hm.
  set (ms := stamped_req Ec (c_nrand s) m).
  assert (Ams : asks req ms) by exact Am.
  destruct (Hh ms Ams) as (a1 & Hap).
  pose proof (plain_none _ Hpl) as [_ Hn2].
  set (sbuf := body ++ skipn (N.to_nat (lenN body)) (repeat 0 (N.to_nat (sc_large Cs)))).
  set (u0 := t_with_block trans_zero TGet None 0 0 0 0 0 [] 0 None).
  assert (Hgo : exists s' v' k more q h,
    net_exch P Ec Cc Es Cs c (s, v) m = ((s', v'), Ok q) /\
    k <= a /\ k <= b /\ (k = a \/ k = b) /\
    c_nrand s' = (7 + c_nrand s)%nat /\ ready Es c v' v' i /\ v_app v' = a1 /\
    m_id (t_req (tr v' i)) = req_id Ec (c_nrand s) /\ v_trace v' = v_trace v ++ h /\ calls h = [] /\
    m_class q = 2 /\ parse_block_op (m_ops q) OP_BLOCK2 = Ok (Some (mkblk (0 / 2 ^ (4 + k)) more (2 ^ (4 + k)))) /\
    (if more then
       0 + 2 ^ (4 + k) <= lenN body /\ m_detail q = 31 /\
       m_payload q = firstn (N.to_nat (2 ^ (4 + k))) (skipn (N.to_nat 0) body) /\
       serving (tr v' i) sbuf body req (0 + 2 ^ (4 + k)) k /\ t_type (tr v' i) = t_type u0 /\ t_detail (tr v' i) = t_detail u0
     else
       lenN body < 0 + 2 ^ (4 + k) /\ m_detail q = last_detail u0 /\ m_payload q = skipn (N.to_nat 0) body)).
  { eapply (net_block2 P Ec Cc Es Cs c HF req s v v1 i u0 m sbuf body 0 a b [SHandle c ms; SBody c body] (msg_build l) a1); auto.
    - lia.
    - apply wf_build. exact Hl.
    - apply plain_low. exact Hpl.
    - destruct Hpl as [_ H]. lia.
    - intros u (Hx & Hcl & Hact).
      assert (Hut : t_type u = TRegular).
      { unfold xfer in Hx. injection Hx as E1 _ _ _ _ _ _ _ _ _. congruence. }
      destruct (handle_get P Cs a1 u ms req (msg_build l) s1 s2 body rx a) as (t1 & Hhb & Hsv & Htt & Htd); auto.
      { destruct Ams as (_ & -> & _). exact Hd1. }
      exists t1. split; [exact Hsv|]. split; [exact Htt|]. split; [exact Htd|].
      unfold reply_of. rewrite Hut. cbn [is_type]. rewrite (re_app _ _ _ _ _ Hre).
      fold ms. rewrite Hap, Hhb. rewrite Hcl, (re_client _ _ _ _ _ Hre). reflexivity. }
  destruct Hgo as (s' & v' & k & more & q & h & He & K1 & K2 & K3 & Hns & Hre' & Happ & Hid' & Htr & Hch & Hqc & Hqp & Hq).
  rewrite He. pose proof (pow_szx k ltac:(lia)) as Hpk.
  assert (Hnk : lenN body / 2 ^ (4 + k) < 1048576).
  { apply N.div_lt_upper_bound; [lia|]. destruct K3 as [-> | ->].
    - rewrite N.mul_comm. rewrite <- E2. eapply N.lt_le_trans; [exact Hfn|]. lia.
    - rewrite N.mul_comm. rewrite <- E3. eapply N.lt_le_trans; [exact Hfn|]. lia. }
  assert (Hdl : downloads body buf 5 v' (v_app v')
    match block2_resp req q (firstn (N.to_nat 0) body ++ skipn (N.to_nat 0) buf) (2 ^ (4 + b)) 0 with
    | B2Stop buf r => ((s', v'), buf, r)
    | B2Next buf size szx start => blockwise2_loop (net_exch P Ec Cc Es Cs c) fuel (s', v') req buf size szx start
    end).
  { eapply (got_block P Ec Cc Es Cs c req body buf (c_nrand s) (S fuel) 5 Hfc Hbl Hids s' v' i sbuf 0 b k more q u0); try assumption; try reflexivity.
    - lia.
    - rewrite Hd1. reflexivity.
    - intros ->. destruct Hq as (C1 & C2 & C3 & C4 & C5 & C6).
      eapply (download_loop P Ec Cc Es Cs c HF req body buf (c_nrand s) (S fuel) 5 HG Hbb Hfc Hbl Hids fuel 0 s' v' i sbuf); try assumption; try lia.
      + rewrite N.add_0_l. apply N.mod_same. lia.
      + left. rewrite C5. reflexivity.
      + unfold last_detail. rewrite C5. reflexivity. }
  destruct Hdl as (s2' & v2 & resp & h2 & D1 & D2 & D3 & _). change (firstn (N.to_nat 0) body ++ skipn (N.to_nat 0) buf) with buf in D1.
  exists s2', v2, resp. rewrite D1. unfold lenN at 1. rewrite Nat2N.id. auto.
Qed.
End Whole.
