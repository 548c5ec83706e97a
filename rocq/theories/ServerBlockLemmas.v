(** The functions for blockwise transfers of the server. *)
From Verif Require Import BaseLemmas MsgModel MsgSpec MsgLemmas MsgFormatLemmas MsgBlockLemmas
  ClientModel ClientSpec ClientLemmas ClientReplyLemmas ServerModel ServerSpec ServerLemmas
  ServerTraceLemmas ServerPropLemmas ServerBlockSpec.

(** ** What a parsed message consists of *)

Definition vals_ok (l : list op) : Prop := Forall (fun o => bytes_ok (o_val o)) l.

Lemma skipn_bytes n (l : list N) : bytes_ok l -> bytes_ok (skipn n l).
Proof. intro H. rewrite <- (firstn_skipn n l) in H. apply bytes_ok_app in H. tauto. Qed.
Lemma firstn_bytes n (l : list N) : bytes_ok l -> bytes_ok (firstn n l).
Proof. intro H. rewrite <- (firstn_skipn n l) in H. apply bytes_ok_app in H. tauto. Qed.

Lemma pext_bytes sg nib b v b' : pext sg nib b = Some (v, b') -> bytes_ok b -> bytes_ok b'.
Proof.
  unfold pext. destruct (nib =? 13).
  - destruct b; [discriminate|]. intros [= _ <-] H. apply bytes_ok_cons in H. tauto.
  - destruct (nib =? 14).
    + destruct b as [|x [|y b]]; try discriminate. intros [= _ <-] H. apply bytes_ok_cons in H as [_ H]. apply bytes_ok_cons in H. tauto.
    + intros [= _ <-]. auto.
Qed.
Lemma pop1_bytes sg b d v b' : pop1 sg b = Some (d, v, b') -> bytes_ok b -> bytes_ok v /\ bytes_ok b'.
Proof.
  unfold pop1, pophdr. destruct b as [|b0 b1]; [discriminate|]. destruct (_ || _); [discriminate|].
  destruct (pext sg _ b1) as [[d' b2]|] eqn:E1; [|discriminate].
  destruct (pext sg _ b2) as [[l' b3]|] eqn:E2; [|discriminate].
  destruct (lenN b3 <? l'); [discriminate|]. intros [= _ <- <-] H. apply bytes_ok_cons in H as [_ H].
  apply (pext_bytes _ _ _ _ _ E1) in H. apply (pext_bytes _ _ _ _ _ E2) in H.
  split; [apply firstn_bytes|apply skipn_bytes]; exact H.
Qed.

Lemma pops_bytes sg fuel acc b ops pl : pops sg fuel acc b = Some (ops, pl) -> bytes_ok b -> vals_ok acc ->
  vals_ok ops /\ bytes_ok pl /\ (length pl <= length b)%nat.
Proof.
  revert acc b. induction fuel as [|fuel IH]; intros acc b; cbn [pops]; [discriminate|].
  destruct b as [|b0 b1]; [intros [= <- <-] _ H; split; [exact H|split; [constructor|cbn; lia]]|].
  destruct (_ =? _); [intros [= <- <-] Hb Ha; auto|].
  destruct (pop1 sg (b0 :: b1)) as [[[d v] b']|] eqn:E1; [|discriminate].
  intros H Hb Ha. destruct (pop1_bytes _ _ _ _ _ E1 Hb) as [Hv Hb']. apply pop1_len in E1.
  apply IH in H; auto; [|apply Forall_app; split; [exact Ha|constructor; [exact Hv|constructor]]].
  destruct H as (H1 & H2 & H3). repeat split; auto. lia.
Qed.

Lemma parse_parts sg d past m : bytes_ok d -> msg_parse sg (d ++ past) (lenN d) = Ok m ->
  vals_ok (m_ops m) /\ bytes_ok (m_payload m) /\ lenN (m_payload m) <= lenN d.
Proof.
  intros Hd Hp. unfold msg_parse in Hp. rewrite msg_parse_raw_red in Hp.
  destruct (pmsg sg d) as [[m0 e]|e|u|] eqn:Ep; try discriminate.
  destruct (_ && _); [discriminate|]. cbn [bind] in Hp. apply bind_ok in Hp as ([] & _ & Hp). injection Hp as ->.
  unfold pmsg in Ep. destruct d as [|b0 [|b1 [|b2 [|b3 rest]]]]; try discriminate.
  destruct (negb _) in Ep; [discriminate|]. destruct (_ <? _) in Ep; [discriminate|].
  destruct (negb _ && _ && _ && _) in Ep; [discriminate|]. destruct (_ <? _) in Ep; [discriminate|].
  set (k := N.to_nat (N.land b0 15)) in Ep.
  destruct (pops sg _ [] (skipn k rest)) as [[ops pl]|] eqn:Eo; [|discriminate].
  assert (Hr : bytes_ok rest) by (do 4 (apply bytes_ok_cons in Hd as [_ Hd]); exact Hd).
  apply pops_bytes in Eo; [|apply skipn_bytes; exact Hr|constructor]. destruct Eo as (H1 & H2 & H3). rewrite skipn_length in H3.
  destruct pl as [|x [|y pl]]; try discriminate.
  - injection Ep as <- _. cbn [m_ops m_payload]. split; [exact H1|]. split; [constructor|]. rewrite (@lenN_nil N). lia.
  - destruct (_ =? _); [|discriminate]. injection Ep as <- _. cbn [m_ops m_payload]. split; [exact H1|].
    apply bytes_ok_cons in H2 as [_ H2]. split; [exact H2|]. cbn [length] in H3. rewrite !lenN_cons. unfold lenN. lia.
Qed.

Lemma reads_parts C d m : bytes_ok d -> reads C d m -> vals_ok (m_ops m) /\ bytes_ok (m_payload m) /\ lenN (m_payload m) <= 1152.
Proof. intros Hd [Hl Hp]. apply parse_parts in Hp as (H1 & H2 & H3); auto. repeat split; auto. lia. Qed.

(** ** Block options *)

Lemma be_val_bound v : bytes_ok v -> forall a, fold_left (fun a b => 256 * a + b) v a < (a + 1) * 256 ^ lenN v.
Proof.
  induction v as [|x v IH]; intros Hb a.
  - cbn [fold_left]. rewrite (@lenN_nil N). change (256 ^ 0) with 1. lia.
  - apply bytes_ok_cons in Hb as [Hx Hb]. cbn [fold_left]. rewrite lenN_cons. replace (lenN v + 1) with (N.succ (lenN v)) by lia.
    rewrite N.pow_succ_r'. specialize (IH Hb (256 * a + x)). set (k := 256 ^ lenN v) in *.
    assert ((256 * a + x + 1) * k <= (a + 1) * (256 * k)) by nia. lia.
Qed.

Definition blk_ok (b : blk) : Prop := b_num b < 1048576 /\ exists szx, szx < 7 /\ b_size b = 2 ^ (4 + szx).

Lemma block_value_ok V b : V < 16777216 -> block_value V b -> blk_ok b.
Proof.
  intros HV H. apply block_value_iff in H as [H7 ->]. split; cbn [b_num b_size]; [lia|].
  exists (V mod 8). split; [lia|reflexivity].
Qed.

Lemma parse_block_val_ok v b : bytes_ok v -> parse_block_val v (lenN v) = Ok b -> blk_ok b.
Proof.
  intros Hv H.
  assert (Hsmall : forall w past, bytes_ok w -> 1 <= lenN w <= 3 -> parse_block_val (w ++ past) (lenN w) = Ok b -> blk_ok b).
  { intros w past Hw Hl Hp. apply parse_block_val_spec in Hp; auto. eapply block_value_ok; [|exact Hp].
    unfold be_val. pose proof (be_val_bound w Hw 0) as Hb. cbn [N.add] in Hb. rewrite N.mul_1_l in Hb.
    assert (256 ^ lenN w <= 256 ^ 3) by (apply N.pow_le_mono_r; lia). change (256 ^ 3) with 16777216 in *. lia. }
  destruct v as [|v0 [|v1 [|v2 v]]].
  - discriminate.
  - apply (Hsmall [v0] []); auto. unfold lenN. cbn. lia.
  - apply (Hsmall [v0; v1] []); auto. unfold lenN. cbn. lia.
  - apply (Hsmall [v0; v1; v2] v).
    + apply bytes_ok_cons in Hv as [H0 Hv]. apply bytes_ok_cons in Hv as [H1 Hv]. apply bytes_ok_cons in Hv as [H2 Hv].
      repeat (apply bytes_ok_cons; split; auto). constructor.
    + unfold lenN. cbn. lia.
    + rewrite <- H. unfold parse_block_val. change (lenN [v0; v1; v2] =? 1) with false. change (lenN [v0; v1; v2] =? 2) with false.
      rewrite !lenN_cons. destruct (N.eqb_spec (lenN v + 1 + 1 + 1) 1); [lia|]. destruct (N.eqb_spec (lenN v + 1 + 1 + 1) 2); [lia|].
      reflexivity.
Qed.

Lemma parse_block_op_ok l ty b : vals_ok l -> parse_block_op l ty = Ok (Some b) -> blk_ok b.
Proof.
  induction 1 as [|o l Ho Hl IH]; cbn [parse_block_op]; [discriminate|].
  destruct (_ || _); [|exact IH]. intro H. apply bind_ok in H as (b' & H & [= <-]). eapply parse_block_val_ok; eassumption.
Qed.

Lemma parse_block_op_cases l ty :
  (exists o, parse_block_op l ty = Ok o) \/ parse_block_op l ty = Err EINVAL \/ (exists u, parse_block_op l ty = UB u).
Proof.
  induction l as [|o l IH]; cbn [parse_block_op]; [left; eauto|]. destruct (_ || _); [|exact IH].
  assert (H : (exists b, parse_block_val (o_val o) (o_len o) = Ok b) \/ parse_block_val (o_val o) (o_len o) = Err EINVAL \/
              exists u, parse_block_val (o_val o) (o_len o) = UB u).
  { unfold parse_block_val.
    assert (Hr : forall p i, (exists x, rd p i = Ok x) \/ rd p i = UB OobRead) by (intros p i; unfold rd; destruct (_ <? _); eauto).
    assert (Hf : forall num last, (exists b, (let size := N.shiftl 1 (N.land last 7 + 4) in
       if MAX_BLOCK_SIZE <? size then Err EINVAL else Ok (mkblk num (negb (N.land last 8 =? 0)) size)) = Ok b) \/
       (let size := N.shiftl 1 (N.land last 7 + 4) in
       if MAX_BLOCK_SIZE <? size then Err EINVAL else Ok (mkblk num (negb (N.land last 8 =? 0)) size)) = Err EINVAL).
    { intros num last. cbv zeta. destruct (_ <? _); eauto. }
    destruct (_ =? 1); [|destruct (_ =? 2)];
      repeat match goal with |- context [rd ?p ?i] => destruct (Hr p i) as [[? ->]| ->]; cbn [bind]; [|eauto] end;
      match goal with |- context [mkblk ?n (negb (N.land ?l 8 =? 0))] => destruct (Hf n l) as [H|H]; [left|right; left]; exact H end. }
  destruct H as [[b ->]|[->|[u ->]]]; cbn [bind]; eauto.
Qed.

Definition with_code (m : msg) (c d : N) : msg :=
  mkmsg (m_ver m) (m_type m) c d (m_id m) (m_token m) (m_ops m) (m_payload m).

Lemma set_code_ok m c d : c <= 7 -> d <= 31 -> set_code m c d = Ok (with_code m c d).
Proof.
  intros Hc Hd. unfold set_code, MAX_CODE_CLASS, MAX_CODE_DETAIL.
  destruct (N.ltb_spec 7 c); [lia|]. destruct (N.ltb_spec 31 d); [lia|]. reflexivity.
Qed.
Lemma end_code_ok t m c d : c <= 7 -> d <= 31 -> end_code t m c d = (t, with_code m c d, Ok tt).
Proof. intros Hc Hd. unfold end_code. rewrite set_code_ok by assumption. reflexivity. Qed.

Lemma resize_ok o size : (forall b, o = Some b -> blk_ok b) ->
  resize o size = match o with Some b => N.min (b_size b) size | None => size end.
Proof. intros _. unfold resize. destruct o as [b|]; [|reflexivity]. destruct (N.ltb_spec (b_size b) size); lia. Qed.

Definition with_sizes (t : trans) (s1 s2 : N) : trans :=
  t_with_block t (t_type t) (t_body t) (t_end t) s1 s2 (t_next1 t) (t_next2 t) (t_uri t) (t_detail t) (t_rx t).

(** The first part, for a request whose options are made of bytes. *)
Inductive start_out (t : trans) (req resp : msg) : (trans * msg * res unit) + (trans * blk * blk * list N) -> Prop :=
| st_refused t' : t_type t' = TRegular -> parse_block_op (m_ops req) OP_BLOCK1 = Err EINVAL \/ parse_block_op (m_ops req) OP_BLOCK2 = Err EINVAL ->
    start_out t req resp (inl (t', with_code resp 4 0, Ok tt))
| st_ub t' u : t_type t' = TRegular -> block_ub req -> start_out t req resp (inl (t', resp, UB u))
| st_go o1 o2 : parse_block_op (m_ops req) OP_BLOCK1 = Ok o1 -> parse_block_op (m_ops req) OP_BLOCK2 = Ok o2 ->
    start_out t req resp (inr (with_sizes t (resize o1 (t_size1 t)) (resize o2 (t_size2 t)), blk_or_zero o1, blk_or_zero o2,
                               firstn 256 (req_path req) ++ repeat 0 (N.to_nat (257 - lenN (firstn 256 (req_path req)))))).

Lemma path_buf_eq m : path_buf m (URI_PATH_MAX_LEN + 1) =
  Ok (firstn 256 (req_path m) ++ repeat 0 (N.to_nat (257 - lenN (firstn 256 (req_path m))))).
Proof. unfold path_buf. change (URI_PATH_MAX_LEN + 1) with 257. rewrite uri_path_spec by lia. reflexivity. Qed.

Lemma nb_start_spec t req resp : start_out t req resp (nb_start t req resp).
Proof.
  unfold nb_start. cbv zeta.
  destruct (parse_block_op_cases (m_ops req) OP_BLOCK1) as [[o1 E1]|[E1|[u E1]]]; rewrite E1.
  2: { rewrite end_code_ok by (vm_compute; discriminate). apply st_refused; [reflexivity|auto]. }
  2: { apply st_ub; [reflexivity|]. left. eauto. }
  destruct (parse_block_op_cases (m_ops req) OP_BLOCK2) as [[o2 E2]|[E2|[u E2]]]; rewrite E2.
  2: { rewrite end_code_ok by (vm_compute; discriminate). apply st_refused; [reflexivity|auto]. }
  2: { apply st_ub; [reflexivity|]. right. eauto. }
  rewrite path_buf_eq. apply (st_go t req resp o1 o2 E1 E2).
Qed.

Lemma until_nul_cstr l : cstr l = until_nul l.
Proof. induction l as [|x l IH]; cbn; [reflexivity|]. rewrite IH. reflexivity. Qed.
Lemma cstr_zeros l n : cstr (l ++ repeat 0 n) = cstr l.
Proof.
  induction l as [|x l IH]; cbn [List.app cstr]; [destruct n; reflexivity|]. rewrite IH. reflexivity.
Qed.
Lemma cstr_path m n : cstr (firstn 256 (req_path m) ++ repeat 0 n) = seen_path m.
Proof. rewrite cstr_zeros, until_nul_cstr. reflexivity. Qed.

Lemma cstr_eqb_path m uri : cstr_eqb (firstn 256 (req_path m) ++ repeat 0 (N.to_nat (257 - lenN (firstn 256 (req_path m))))) uri
  = bytes_eqb (seen_path m) (cstr uri).
Proof. unfold cstr_eqb. rewrite cstr_path. reflexivity. Qed.

(** ** A block of the response *)

Definition with_block2 (m : msg) (v pl : list N) (d : N) : msg :=
  mkmsg (m_ver m) (m_type m) 2 d (m_id m) (m_token m) (op_list_add (m_ops m) (mkop OP_BLOCK2 v)) pl.

(** The method that goes with a type of transaction. *)
Definition method_of (ty : ttype) (d : N) : Prop :=
  match ty with TRegular => True | TGet => d = 1 | TPut1 | TPut2 => d = 3 | TPost1 | TPost2 => d = 2 end.

Definition large := 9223372036854775808.

(** A transaction with a body to serve. *)
Record has_body (t : trans) (buf : list N) : Prop := {
  hb_body : t_body t = Some buf;
  hb_next : t_next2 t <= t_end t;
  hb_end : t_end t <= lenN buf;
  hb_len : lenN buf < large;
  hb_detail : t_detail t <= 31;
  hb_size : t_size2 t <= 1024
}.

(** The request asks for the block that is due. *)
Definition due2 (t : trans) (req : msg) (o2 : option blk) : Prop :=
  method_of (t_type t) (m_detail req) /\ seen_path req = cstr (t_uri t) /\
  b_num (blk_or_zero o2) * resize o2 (t_size2 t) = t_next2 t.

Inductive nb2_out (t : trans) (buf : list N) (req resp : msg) : trans * msg * res unit -> Prop :=
| n2_refused t' : t_type t' = TRegular ->
    (forall o1 o2, parse_block_op (m_ops req) OP_BLOCK1 = Ok o1 -> parse_block_op (m_ops req) OP_BLOCK2 = Ok o2 -> ~ due2 t req o2) ->
    nb2_out t buf req resp (t', with_code resp 4 0, Ok tt)
| n2_ub t' u : t_type t' = TRegular -> block_ub req -> nb2_out t buf req resp (t', resp, UB u)
| n2_size t' o2 : t_type t' = TRegular -> parse_block_op (m_ops req) OP_BLOCK2 = Ok o2 ->
    calc_block_szx (resize o2 (t_size2 t)) = Err EINVAL -> nb2_out t buf req resp (t', resp, Err EINVAL)
| n2_more o1 o2 v : parse_block_op (m_ops req) OP_BLOCK1 = Ok o1 -> parse_block_op (m_ops req) OP_BLOCK2 = Ok o2 -> due2 t req o2 ->
    let size := resize o2 (t_size2 t) in
    (exists szx, szx < 7 /\ size = 2 ^ (4 + szx)) ->
    t_next2 t + size <= t_end t -> lenN v = 3 -> bytes_ok v ->
    block_value (be_val v) (mkblk (b_num (blk_or_zero o2)) true size) ->
    nb2_out t buf req resp
      (t_with_block t (t_type t) (t_body t) (t_end t) (resize o1 (t_size1 t)) size (t_next1 t) (t_next2 t + size)
                    (t_uri t) (t_detail t) (t_rx t),
       with_block2 resp v (firstn (N.to_nat size) (skipn (N.to_nat (t_next2 t)) buf)) 31, Ok tt)
| n2_last t' o1 o2 v : parse_block_op (m_ops req) OP_BLOCK1 = Ok o1 -> parse_block_op (m_ops req) OP_BLOCK2 = Ok o2 -> due2 t req o2 ->
    let size := resize o2 (t_size2 t) in
    (exists szx, szx < 7 /\ size = 2 ^ (4 + szx)) ->
    t_type t' = TRegular ->
    t_end t < t_next2 t + size -> lenN v = 3 -> bytes_ok v ->
    block_value (be_val v) (mkblk (b_num (blk_or_zero o2)) false size) ->
    nb2_out t buf req resp
      (t', with_block2 resp v (firstn (N.to_nat (t_end t - t_next2 t)) (skipn (N.to_nat (t_next2 t)) buf))
                       (if is_type (t_type t) TGet then 5 else t_detail t), Ok tt).

Lemma pow_szx szx : szx < 7 -> 16 <= 2 ^ (4 + szx) <= 1024.
Proof. intro H. destruct (lt8_cases szx ltac:(lia)) as [->|[->|[->|[->|[->|[->|[->| ->]]]]]]]; try lia; cbv; split; congruence. Qed.

Lemma block_number num szx next : szx < 7 -> num < 1048576 -> num * 2 ^ (4 + szx) = next ->
  (N.shiftr next (szx + 4)) mod two32 = num.
Proof.
  intros Hs Hn <-. rewrite N.shiftr_div_pow2. rewrite (N.add_comm szx 4).
  rewrite N.div_mul by (apply N.pow_nonzero; lia). apply N.mod_small. unfold two32. lia.
Qed.

Lemma format_block_3 num more szx : num < 1048576 -> szx < 7 ->
  exists v, format_block_val 3 num more (2 ^ (4 + szx)) = Ok v /\ lenN v = 3 /\ bytes_ok v /\
            block_value (be_val v) (mkblk num more (2 ^ (4 + szx))).
Proof.
  intros Hn Hs. destruct (format_block_val_ok 3 num more szx) as [v Hv]; [lia|exact Hn|exact Hs|].
  exists v. split; [exact Hv|]. apply format_block_val_spec in Hv as (H1 & H2 & _ & H3); [|exact Hn]. auto.
Qed.

Lemma szx_cases size : (exists szx, calc_block_szx size = Ok szx) \/ calc_block_szx size = Err EINVAL.
Proof.
  unfold calc_block_szx. repeat match goal with |- context [?a =? ?b] => destruct (a =? b); [left; eauto|] end. auto.
Qed.

Lemma mul32_small num size : num < 1048576 -> size <= 1024 -> mul32 num size = num * size.
Proof. intros H1 H2. unfold mul32. apply N.mod_small. unfold two32. nia. Qed.

Lemma method_wrong t req : t_type t = TGet \/ t_type t = TPut2 \/ t_type t = TPost2 ->
  (is_type (t_type t) TGet && negb (m_detail req =? M_GET))
     || (is_type (t_type t) TPut2 && negb (m_detail req =? M_PUT))
     || (is_type (t_type t) TPost2 && negb (m_detail req =? M_POST)) = false <-> method_of (t_type t) (m_detail req).
Proof.
  unfold M_GET, M_PUT, M_POST. intros [->|[->| ->]]; cbn [is_type andb orb method_of]; rewrite ?orb_false_r;
    rewrite negb_false_iff, N.eqb_eq; tauto.
Qed.

Lemma next_block2_spec t buf req resp :
  has_body t buf -> vals_ok (m_ops req) -> t_type t = TGet \/ t_type t = TPut2 \/ t_type t = TPost2 ->
  nb2_out t buf req resp (next_block2 t req resp).
Proof.
  intros [Hb Hn He Hl Hd Hs] Hv Hty. unfold next_block2.
  destruct (nb_start_spec t req resp) as [t' H1 H2|t' u H1 H2|o1 o2 E1 E2].
  - apply n2_refused; [exact H1|]. intros p1 p2 Q1 Q2. destruct H2; congruence.
  - apply n2_ub; assumption.
  - unfold nb_block2. cbv zeta. set (s2 := resize o2 (t_size2 t)). set (t1 := with_sizes _ _ _).
    change (t_type t1) with (t_type t). change (t_next2 t1) with (t_next2 t). change (t_size2 t1) with s2.
    change (t_uri t1) with (t_uri t). change (t_end t1) with (t_end t). change (t_body t1) with (t_body t).
    rewrite cstr_eqb_path.
    assert (Hnum : b_num (blk_or_zero o2) < 1048576).
    { destruct o2 as [b|]; [|cbn; lia]. apply (parse_block_op_ok _ _ _ Hv E2). }
    set (num := b_num (blk_or_zero o2)) in *.
    assert (Hs2 : s2 <= 1024) by (unfold s2, resize; destruct o2 as [b|]; [destruct (N.ltb_spec (b_size b) (t_size2 t))|]; lia).
    assert (Hmul : mul32 num s2 = num * s2) by (apply mul32_small; assumption).
    set (wrong := _ && _ || _ && _ || _ && _).
    pose proof (method_wrong t req Hty) as Hm. change (_ || _ || _) with wrong in Hm.
    destruct (wrong || negb (bytes_eqb (seen_path req) (cstr (t_uri t))) || negb (mul32 num s2 =? t_next2 t)) eqn:Ew.
    { rewrite end_code_ok by (vm_compute; discriminate). apply n2_refused; [reflexivity|].
      intros p1 p2 Q1 Q2. rewrite E2 in Q2. injection Q2 as <-. intros (D1 & D2 & D3). fold num s2 in D3.
      apply orb_true_iff in Ew as [Ew|Ew]; [apply orb_true_iff in Ew as [Ew|Ew]|].
      - apply Hm in D1. congruence.
      - apply negb_true_iff in Ew. rewrite D2 in Ew. assert (bytes_eqb (cstr (t_uri t)) (cstr (t_uri t)) = true) by (apply bytes_eqb_eq; reflexivity). congruence.
      - apply negb_true_iff, N.eqb_neq in Ew. apply Ew. rewrite Hmul. exact D3. }
    apply orb_false_iff in Ew as [Ew Ew3]. apply orb_false_iff in Ew as [Ew1 Ew2].
    apply Hm in Ew1. apply negb_false_iff, bytes_eqb_eq in Ew2. apply negb_false_iff, N.eqb_eq in Ew3. rewrite Hmul in Ew3.
    assert (Hdue : due2 t req o2) by (split; [exact Ew1|split; [exact Ew2|exact Ew3]]).
    destruct (szx_cases s2) as [[szx Hz]|Hz]; rewrite Hz.
    2: { apply (n2_size _ _ _ _ _ o2); [reflexivity|exact E2|exact Hz]. }
    apply szx_ok in Hz as [Hz1 Hz2]. rewrite (block_number num szx) by (auto; rewrite <- Hz2; exact Ew3).
    pose proof (pow_szx _ Hz1) as Hsz. rewrite <- Hz2 in Hsz.
    unfold add64. rewrite !(N.mod_small (t_next2 t + s2)) by (unfold two64, large in *; lia).
    destruct (N.ltb_spec (t_end t) (t_next2 t + s2)) as [Hlast|Hlast]; cbn [negb].
    + rewrite Hz2. destruct (format_block_3 num false szx Hnum Hz1) as (v & Hv1 & Hv2 & Hv3 & Hv4). rewrite Hv1.
      cbn [add_op]. rewrite Hb. cbn [bind]. unfold adv. destruct (N.leb_spec (t_next2 t) (lenN buf)); [|lia]. cbn [bind].
      assert (Hsub : sub64 (t_end t) (t_next2 t) mod two32 = t_end t - t_next2 t).
      { unfold sub64. unfold two64, two32, large in *. lia. }
      rewrite Hsub. unfold rdn. rewrite lenN_skipn. destruct (N.leb_spec (t_end t - t_next2 t) (lenN buf - t_next2 t)); [|lia].
      cbn [bind set_payload add_op]. rewrite end_code_ok; [|vm_compute; discriminate|].
      2: { cbn [t_type t_with_block t1 with_sizes t_detail]. destruct (is_type _ _); [vm_compute; discriminate|exact Hd]. }
      rewrite <- Hz2 in *.
      match goal with |- nb2_out _ _ _ _ (?t', _, _) => pose proof (n2_last t buf req resp t' o1 o2 v E1 E2 Hdue) as Q end.
      cbv zeta in Q. apply Q; auto. exists szx. auto.
    + rewrite Hz2. destruct (format_block_3 num true szx Hnum Hz1) as (v & Hv1 & Hv2 & Hv3 & Hv4). rewrite Hv1.
      cbn [add_op]. rewrite Hb. cbn [bind]. unfold adv. destruct (N.leb_spec (t_next2 t) (lenN buf)); [|lia]. cbn [bind].
      unfold rdn. rewrite lenN_skipn. rewrite <- Hz2 in *. destruct (N.leb_spec s2 (lenN buf - t_next2 t)); [|lia].
      cbn [bind set_payload add_op]. rewrite end_code_ok; [|vm_compute; discriminate|vm_compute; discriminate].
      rewrite N.mod_small by (unfold two64, large in *; lia).
      pose proof (n2_more t buf req resp o1 o2 v E1 E2 Hdue) as Q. cbv zeta in Q. rewrite Hb in Q. apply Q; auto.
      exists szx. auto.
Qed.

(** ** A block of the request *)

Definition with_block1 (m : msg) (v : list N) : msg :=
  mkmsg (m_ver m) (m_type m) (m_class m) (m_detail m) (m_id m) (m_token m) (op_list_add (m_ops m) (mkop OP_BLOCK1 v)) (m_payload m).

(** A transaction that takes a body. *)
Record takes_body (t : trans) (buf : list N) : Prop := {
  tb_type : t_type t = TPut1 \/ t_type t = TPost1;
  tb_body : t_body t = Some buf;
  tb_end : t_end t = t_next1 t;
  tb_next : t_next1 t <= lenN buf;
  tb_len : lenN buf < large;
  tb_size1 : t_size1 t <= 1024;
  tb_size2 : t_size2 t <= 1024;
  tb_next2 : t_next2 t = 0;
  tb_rx : t_rx t <> None;
  tb_bytes : bytes_ok buf
}.

(** The request carries the block that is due. *)
Definition due1 (t : trans) (buf : list N) (req : msg) (o1 : option blk) : Prop :=
  method_of (t_type t) (m_detail req) /\ seen_path req = cstr (t_uri t) /\
  b_num (blk_or_zero o1) * resize o1 (t_size1 t) = t_next1 t /\
  m_payload req <> [] /\ t_next1 t + lenN (m_payload req) <= lenN buf.

(** The code with which a block is refused that is not due. *)
Definition refusal (t : trans) (buf : list N) (req : msg) (o1 : option blk) (d : N) : Prop :=
  (method_of (t_type t) (m_detail req) /\ seen_path req = cstr (t_uri t)) /\
    (b_num (blk_or_zero o1) * resize o1 (t_size1 t) <> t_next1 t /\ d = 8 \/
     b_num (blk_or_zero o1) * resize o1 (t_size1 t) = t_next1 t /\
       (m_payload req = [] /\ d = 0 \/ m_payload req <> [] /\ lenN buf < t_next1 t + lenN (m_payload req) /\ d = 13)) \/
  ~ (method_of (t_type t) (m_detail req) /\ seen_path req = cstr (t_uri t)) /\ d = 0.

(** The body with the payload of the request. *)
Lemma zeros_bytes n : bytes_ok (repeat 0 n).
Proof. induction n; constructor; [vm_compute; reflexivity|assumption]. Qed.

Definition taken (t : trans) (buf : list N) (req : msg) : list N :=
  firstn (N.to_nat (t_next1 t)) buf ++ m_payload req ++ skipn (N.to_nat (t_next1 t + lenN (m_payload req))) buf.

Lemma taken_bytes t buf req : bytes_ok buf -> bytes_ok (m_payload req) -> bytes_ok (taken t buf req).
Proof. intros H1 H2. unfold taken. apply Forall_app. split; [apply firstn_bytes; exact H1|]. apply Forall_app. split; [exact H2|apply skipn_bytes; exact H1]. Qed.

Section App.
Context {A : Type} (P : app A) (E : senv) (C : scfg).

(** After the receive callback. *)
Inductive rx_out (t : trans) (req resp : msg) : N -> rxres -> list sobs -> trans * msg * res unit -> Prop :=
| ro_fail s2 e t' : t_type t' = TRegular -> rx_out t req resp s2 (RxFail e) [] (t', resp, Err e)
| ro_class s2 ls b e t' : t_type t' = TRegular -> m_class (fold_left run_setter ls resp) <> 2 ->
    rx_out t req resp s2 (RxDone ls b e) [] (t', fold_left run_setter ls resp, Ok tt)
| ro_done s2 ls b t' : t_type t' = TRegular -> m_class (fold_left run_setter ls resp) = 2 ->
    rx_out t req resp s2 (RxDone ls b 0) [] (t', fold_left run_setter ls resp, Ok tt)
| ro_body s2 ls b e t' : 0 < e -> m_class (fold_left run_setter ls resp) = 2 ->
    core t' = core t -> t_type t' = (if is_type (t_type t) TPut1 then TPut2 else TPost2) ->
    t_body t' = Some b -> t_end t' = e -> t_next2 t' = 0 -> t_detail t' = m_detail (fold_left run_setter ls resp) ->
    t_uri t' = t_uri t -> t_size2 t' = s2 ->
    rx_out t req resp s2 (RxDone ls b e) [SBody (t_client t) (firstn (N.to_nat e) b)]
           (next_block2 t' req (fold_left run_setter ls resp)).

Inductive nb1_out (a : A) (t : trans) (buf : list N) (req resp : msg) : @nbres A -> Prop :=
| n1_unread t' : t_type t' = TRegular ->
    parse_block_op (m_ops req) OP_BLOCK1 = Err EINVAL \/ parse_block_op (m_ops req) OP_BLOCK2 = Err EINVAL ->
    nb1_out a t buf req resp (a, [], (t', with_code resp 4 0, Ok tt))
| n1_refused t' o1 d : t_type t' = TRegular -> parse_block_op (m_ops req) OP_BLOCK1 = Ok o1 -> refusal t buf req o1 d ->
    nb1_out a t buf req resp (a, [], (t', with_code resp 4 d, Ok tt))
| n1_ub t' u : t_type t' = TRegular -> block_ub req -> nb1_out a t buf req resp (a, [], (t', resp, UB u))
| n1_size t' o1 : t_type t' = TRegular -> parse_block_op (m_ops req) OP_BLOCK1 = Ok o1 ->
    calc_block_szx (resize o1 (t_size1 t)) = Err EINVAL -> nb1_out a t buf req resp (a, [], (t', resp, Err EINVAL))
| n1_more o1 o2 v : parse_block_op (m_ops req) OP_BLOCK1 = Ok o1 -> parse_block_op (m_ops req) OP_BLOCK2 = Ok o2 -> due1 t buf req o1 ->
    b_more (blk_or_zero o1) = true ->
    let size := resize o1 (t_size1 t) in
    (exists szx, szx < 7 /\ size = 2 ^ (4 + szx)) ->
    lenN v = 3 -> bytes_ok v -> block_value (be_val v) (mkblk (b_num (blk_or_zero o1)) true size) ->
    nb1_out a t buf req resp
      (a, [], (t_with_block t (t_type t) (Some (taken t buf req)) (t_next1 t + lenN (m_payload req)) size (resize o2 (t_size2 t))
                 (t_next1 t + lenN (m_payload req)) 0 (t_uri t) (t_detail t) (t_rx t),
               with_code (with_block1 resp v) 2 31, Ok tt))
| n1_call o1 o2 v rx a' rr l x : parse_block_op (m_ops req) OP_BLOCK1 = Ok o1 -> parse_block_op (m_ops req) OP_BLOCK2 = Ok o2 ->
    due1 t buf req o1 ->
    b_more (blk_or_zero o1) = false ->
    let size := resize o1 (t_size1 t) in
    (exists szx, szx < 7 /\ size = 2 ^ (4 + szx)) ->
    lenN v = 3 -> bytes_ok v -> block_value (be_val v) (mkblk (b_num (blk_or_zero o1)) false size) ->
    t_rx t = Some rx ->
    ap_rx P rx a (taken t buf req) (t_next1 t + lenN (m_payload req)) req = (a', rr) ->
    rx_out t req (with_block1 resp v) (resize o2 (t_size2 t)) rr l x ->
    nb1_out a t buf req resp
      (a', SCall (t_client t) (firstn (N.to_nat (t_next1 t + lenN (m_payload req))) (taken t buf req)) :: l, x).


Lemma method_wrong1 t req : t_type t = TPut1 \/ t_type t = TPost1 ->
  (is_type (t_type t) TPut1 && negb (m_detail req =? M_PUT))
     || (is_type (t_type t) TPost1 && negb (m_detail req =? M_POST)) = false <-> method_of (t_type t) (m_detail req).
Proof.
  unfold M_PUT, M_POST. intros [->| ->]; cbn [is_type andb orb method_of]; rewrite ?orb_false_r;
    rewrite negb_false_iff, N.eqb_eq; tauto.
Qed.

Lemma bytes_eqb_refl x : bytes_eqb x x = true.
Proof. apply bytes_eqb_eq. reflexivity. Qed.

Lemma next_block1_spec a t buf req resp :
  takes_body t buf -> vals_ok (m_ops req) -> lenN (m_payload req) <= 1152 -> rwf resp ->
  nb1_out a t buf req resp (next_block P a t req resp).
Proof.
  intros [Hty Hb He Hn Hl Hs1 Hs2 Hn2 Hrx] Hv Hp W. unfold next_block.
  assert (Hgo : nb1_out a t buf req resp
    (match nb_start t req resp with inl x => (a, [], x) | inr (t, b1, _, uri) => nb_block1 P a t b1 uri req resp end)).
  2: { destruct Hty as [-> | ->]; exact Hgo. }
  destruct (nb_start_spec t req resp) as [t' H1 H2|t' u H1 H2|o1 o2 E1 E2].
  { apply n1_unread; assumption. }
  { apply n1_ub; assumption. }
  unfold nb_block1. cbv zeta. set (s1 := resize o1 (t_size1 t)). set (t1 := with_sizes _ _ _).
  change (t_type t1) with (t_type t). change (t_next1 t1) with (t_next1 t). change (t_size1 t1) with s1.
  change (t_uri t1) with (t_uri t). change (t_end t1) with (t_end t). change (t_body t1) with (t_body t).
  change (t_rx t1) with (t_rx t). change (t_client t1) with (t_client t). change (t_detail t1) with (t_detail t).
  change (t_next2 t1) with (t_next2 t). change (t_size2 t1) with (resize o2 (t_size2 t)).
  rewrite cstr_eqb_path.
  assert (Hnum : b_num (blk_or_zero o1) < 1048576).
  { destruct o1 as [b|]; [|cbn; lia]. apply (parse_block_op_ok _ _ _ Hv E1). }
  set (num := b_num (blk_or_zero o1)) in *.
  assert (Hs1' : s1 <= 1024) by (unfold s1, resize; destruct o1 as [b|]; [destruct (N.ltb_spec (b_size b) (t_size1 t))|]; lia).
  assert (Hmul : mul32 num s1 = num * s1) by (apply mul32_small; assumption). rewrite Hmul.
  pose proof (method_wrong1 t req Hty) as Hm.
  set (wrong := is_type (t_type t) TPut1 && _ || _) in *.
  destruct (wrong || negb (bytes_eqb (seen_path req) (cstr (t_uri t)))) eqn:Ew.
  { rewrite end_code_ok by (vm_compute; discriminate). apply (n1_refused _ _ _ _ _ _ o1); [reflexivity|exact E1|].
    right. split; [|reflexivity]. intros [D1 D2]. apply orb_true_iff in Ew as [Ew|Ew].
    - apply Hm in D1. congruence.
    - rewrite D2, bytes_eqb_refl in Ew. discriminate. }
  apply orb_false_iff in Ew as [Ew1 Ew2]. apply Hm in Ew1. apply negb_false_iff, bytes_eqb_eq in Ew2.
  destruct (N.eqb_spec (num * s1) (t_next1 t)) as [Epos|Epos]; cbn [negb].
  2: { rewrite end_code_ok by (vm_compute; discriminate). apply (n1_refused _ _ _ _ _ _ o1); [reflexivity|exact E1|].
       left. split; [auto|]. left. split; [exact Epos|reflexivity]. }
  destruct (N.eqb_spec (lenN (m_payload req)) 0) as [Ep|Ep].
  { rewrite end_code_ok by (vm_compute; discriminate). apply (n1_refused _ _ _ _ _ _ o1); [reflexivity|exact E1|].
    left. split; [auto|]. right. split; [exact Epos|]. left. split; [|reflexivity].
    destruct (m_payload req); [reflexivity|]. rewrite lenN_cons in Ep. lia. }
  assert (Hpl : m_payload req <> []) by (intro H; rewrite H in Ep; apply Ep; reflexivity).
  destruct (szx_cases s1) as [[szx Hz]|Hz]; rewrite Hz.
  2: { apply (n1_size _ _ _ _ _ _ o1); [reflexivity|exact E1|exact Hz]. }
  apply szx_ok in Hz as [Hz1 Hz2]. rewrite (block_number num szx) by (auto; rewrite <- Hz2; exact Epos).
  rewrite Hb. rewrite (N.mod_small (lenN (m_payload req)) two32) by (unfold two32; lia).
  set (pl := m_payload req) in *. rewrite He. unfold add64. rewrite !(N.mod_small (t_next1 t + lenN pl)) by (unfold two64, large in *; lia).
  destruct (N.ltb_spec (lenN buf) (t_next1 t + lenN pl)) as [Htoo|Htoo].
  { rewrite end_code_ok by (vm_compute; discriminate). apply (n1_refused _ _ _ _ _ _ o1); [reflexivity|exact E1|].
    left. split; [auto|]. right. split; [exact Epos|]. right. auto. }
  assert (Hdue : due1 t buf req o1) by (split; [exact Ew1|split; [exact Ew2|split; [exact Epos|split; [exact Hpl|exact Htoo]]]]).
  rewrite Hz2. destruct (format_block_3 num (b_more (blk_or_zero o1)) szx Hnum Hz1) as (v & Hv1 & Hv2 & Hv3 & Hv4).
  rewrite Hv1. cbn [add_op]. rewrite <- Hz2 in *.
  assert (Hfp : firstn (N.to_nat (lenN pl)) pl = pl) by (apply firstn_all2; unfold lenN; lia). rewrite Hfp.
  unfold put. destruct (N.leb_spec (t_next1 t + lenN pl) (lenN buf)); [|lia].
  change (firstn (N.to_nat (t_next1 t)) buf ++ pl ++ skipn (N.to_nat (t_next1 t + lenN pl)) buf) with (taken t buf req).
  change (mkmsg (m_ver resp) (m_type resp) (m_class resp) (m_detail resp) (m_id resp) (m_token resp) (op_list_add (m_ops resp) (mkop OP_BLOCK1 v)) (m_payload resp))
    with (with_block1 resp v).
  assert (Hz : exists szx, szx < 7 /\ s1 = 2 ^ (4 + szx)) by eauto.
  destruct (b_more (blk_or_zero o1)) eqn:Em.
  - rewrite end_code_ok by (vm_compute; discriminate). rewrite Hn2.
    apply (n1_more a t buf req resp o1 o2 v E1 E2 Hdue Em); assumption.
  - cbn [t_rx t_with_block t_client t_end]. destruct (t_rx t) as [rx|] eqn:Er; [|congruence].
    destruct (ap_rx P rx a (taken t buf req) (t_next1 t + lenN pl) req) as [a' rr] eqn:Ea.
    assert (W1 : rwf (with_block1 resp v)) by (apply (rwf_add_op resp OP_BLOCK1 v); [exact W|reflexivity]).
    pose proof (n1_call a t buf req resp o1 o2 v rx a' rr) as Hc. fold pl s1 num in Hc.
    destruct rr as [e|ls b e].
    + apply Hc; auto. apply ro_fail. reflexivity.
    + pose proof (rwf_setters ls _ W1) as W2. set (resp2 := fold_left run_setter ls (with_block1 resp v)) in *.
      unfold CL_SUCCESS. destruct (N.eqb_spec (m_class resp2) 2) as [Ec|Ec]; cbn [negb].
      2: { apply Hc; auto. apply ro_class; [reflexivity|exact Ec]. }
      destruct (N.ltb_spec 0 e) as [H0|H0].
      * apply Hc; auto. apply (ro_body t req _ _ ls b e); auto; try reflexivity.
      * assert (e = 0) as -> by lia. apply Hc; auto.
        rewrite end_code_ok by (auto; apply W2 || (vm_compute; discriminate)).
        replace (with_code resp2 2 (m_detail resp2)) with resp2 by (rewrite <- Ec at 1; destruct resp2; reflexivity).
        apply ro_done; [reflexivity|exact Ec].
Qed.

(** ** The start of a transfer *)

Inductive hbw_out (a : A) (t : trans) (req resp : msg) (body : list N) (bl s1 s2 : N) : @nbres A -> Prop :=
| hw_err t' e : t_type t' = TRegular -> hbw_out a t req resp body bl s1 s2 (a, [], (t', resp, Err e))
| hw_notimpl t' : t_type t' = TRegular -> ~ (m_detail req = 1 \/ m_detail req = 2 \/ m_detail req = 3) -> hbw_out a t req resp body bl s1 s2 (a, [], (t', with_code resp 5 1, Ok tt))
| hw_short t' u : t_type t' = TRegular -> m_detail req = 1 -> lenN body < bl ->
    hbw_out a t req resp body bl s1 s2 (a, [], (t', resp, UB u))
| hw_get t1 buf : m_detail req = 1 -> bl <= lenN body -> has_body t1 buf -> t_type t1 = TGet -> t_next2 t1 = 0 ->
    t_end t1 = bl -> firstn (N.to_nat bl) buf = firstn (N.to_nat bl) body -> core t1 = core t -> cstr (t_uri t1) = seen_path req -> t_size2 t1 = s2 ->
    hbw_out a t req resp body bl s1 s2 (a, [SBody (t_client t) (firstn (N.to_nat bl) body)], next_block2 t1 req resp)
| hw_put t1 buf : takes_body t1 buf -> t_next1 t1 = 0 -> lenN buf = sc_large C -> core t1 = core t ->
    method_of (t_type t1) (m_detail req) -> cstr (t_uri t1) = seen_path req -> t_size1 t1 = s1 ->
    hbw_out a t req resp body bl s1 s2 (next_block P a t1 req resp).

Lemma valid_size size : (0 <? size) && match calc_block_szx size with Ok _ => false | _ => true end = false -> size <= 1024.
Proof.
  intro H. destruct (N.ltb_spec 0 size) as [H0|H0]; [|lia]. cbn [andb] in H.
  destruct (szx_cases size) as [[szx Hz]|Hz]; rewrite Hz in H; [|discriminate].
  apply szx_ok in Hz as [Hz1 ->]. apply pow_szx. exact Hz1.
Qed.

Lemma lenN_zeros n : lenN (repeat 0 (N.to_nat n)) = n.
Proof. unfold lenN. rewrite repeat_length. lia. Qed.

Lemma handle_blockwise_spec lg a t req resp s1 s2 body bl rx : sc_large C < large ->
  hbw_out a t req resp body bl s1 s2 (handle_blockwise P C lg a t req resp s1 s2 body bl rx).
Proof.
  intro HL. unfold handle_blockwise. cbv zeta.
  destruct (_ && _) eqn:B1 at 1; [apply hw_err; reflexivity|]. apply valid_size in B1.
  destruct (_ && _) eqn:B2 at 1; [apply hw_err; reflexivity|]. apply valid_size in B2.
  destruct (N.ltb_spec (sc_large C) bl) as [Hbl|Hbl]; [apply hw_err; reflexivity|].
  destruct lg; cbn [negb]; [|apply hw_err; reflexivity].
  rewrite path_buf_eq. unfold M_GET, M_PUT, M_POST.
  destruct (N.eqb_spec (m_detail req) 1) as [E1|E1].
  - unfold rdn. destruct (N.leb_spec bl (lenN body)) as [Hr|Hr]; cbn [bind].
    2: { apply hw_short; auto. }
    unfold put. rewrite lenN_zeros, lenN_firstn. replace (N.min bl (lenN body)) with bl by lia. cbn [N.add].
    replace (0 + bl) with bl by lia. destruct (N.leb_spec bl (sc_large C)); [|lia].
    unfold next_block. cbn [t_type t_with_block t_client clear_blockwise].
    apply (hw_get a t req resp body bl s1 s2 _ (firstn (N.to_nat bl) body ++ skipn (N.to_nat bl) (repeat 0 (N.to_nat (sc_large C)))));
      try reflexivity; try assumption.
    + split; cbn [t_body t_with_block t_next2 t_end t_detail t_size2]; try lia; try reflexivity.
      * rewrite lenN_app, lenN_firstn, lenN_skipn, lenN_zeros. lia.
      * rewrite lenN_app, lenN_firstn, lenN_skipn, lenN_zeros. lia.
    + rewrite firstn_app. rewrite firstn_firstn, Nat.min_id. rewrite firstn_length.
      replace (N.to_nat bl - Nat.min (N.to_nat bl) (length body))%nat with 0%nat by (unfold lenN in Hr; lia).
      cbn [firstn]. apply app_nil_r.
    + cbn [t_uri t_with_block]. apply cstr_path.
  - destruct (N.eqb_spec (m_detail req) 3) as [E3|E3]; cbn [orb]; [|destruct (N.eqb_spec (m_detail req) 2) as [E2|E2]].
    3: { rewrite end_code_ok by (vm_compute; discriminate). apply hw_notimpl; [reflexivity|tauto]. }
    all: destruct rx as [rx|]; [|apply hw_err; reflexivity].
    all: apply (hw_put a t req resp body bl s1 s2 _ (repeat 0 (N.to_nat (sc_large C))));
      try reflexivity; try assumption; try apply lenN_zeros; try apply cstr_path.
    all: split; cbn [t_type t_body t_with_block t_next1 t_next2 t_end t_detail t_size1 t_size2 t_rx]; rewrite ?lenN_zeros;
      auto; try lia; try discriminate; apply zeros_bytes.
Qed.

End App.
