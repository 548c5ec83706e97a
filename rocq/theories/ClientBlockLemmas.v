(** Proofs about the blockwise transfers of the client. *)
From Verif Require Import BaseLemmas MsgModel MsgSpec MsgLemmas MsgFormatLemmas MsgBlockLemmas ClientModel ClientSpec ClientLemmas.

Lemma skipn_plus {A} (l : list A) a b : skipn a (skipn b l) = skipn (b + a) l.
Proof. revert l. induction b as [|b IH]; intro l; [reflexivity|]. destruct l; [destruct a; reflexivity|]. apply IH. Qed.

(** ** Block options *)

Definition vals_ok (l : list op) : Prop := Forall (fun o => bytes_ok (o_val o)) l.

Lemma be_val_bound l : bytes_ok l -> be_val l < 256 ^ lenN l.
Proof.
  unfold be_val. assert (G : forall a, bytes_ok l -> forall k, a < 256 ^ k -> fold_left (fun a b => 256 * a + b) l a < 256 ^ (k + lenN l)).
  { induction l as [|x l IH]; intros a Hl k Ha; cbn [fold_left].
    - rewrite (@lenN_nil N), N.add_0_r. exact Ha.
    - apply bytes_ok_cons in Hl as [Hx Hl]. rewrite lenN_cons.
      replace (k + (lenN l + 1)) with (N.succ k + lenN l) by lia. apply IH; [exact Hl|].
      rewrite N.pow_succ_r by lia. nia. }
  intro Hl. apply (G 0 Hl 0). reflexivity.
Qed.

Lemma block_value_num V b : block_value V b -> V < 256 ^ 3 ->
  b_num b < 1048576 /\ exists szx, szx < 7 /\ b_size b = 2 ^ (4 + szx).
Proof.
  intros H HV. change (256 ^ 3) with 16777216 in HV. destruct H as [num more szx Hs]. cbn [b_num b_size].
  split; [destruct more; lia|]. eauto.
Qed.

Lemma pbo_spec num ops b : num = OP_BLOCK1 \/ num = OP_BLOCK2 -> vals_ok ops ->
  parse_block_op ops num = Ok (Some b) ->
  exists l1 v l2, ops = l1 ++ mkop num v :: l2 /\ with_num num l1 = [] /\
    block_value (be_val (firstn 3 v)) b /\
    b_num b < 1048576 /\ exists szx, szx < 7 /\ b_size b = 2 ^ (4 + szx).
Proof.
  intros Hnum. induction ops as [|o ops IH]; intros Hv; cbn [parse_block_op]; [discriminate|].
  inversion Hv as [|? ? Ho Hv']; subst.
  assert (Et : ((o_num o =? OP_BLOCK1) && (num =? OP_BLOCK1)) || ((o_num o =? OP_BLOCK2) && (num =? OP_BLOCK2))
               = (o_num o =? num)).
  { destruct Hnum as [->| ->]; unfold OP_BLOCK1, OP_BLOCK2; destruct (N.eqb_spec (o_num o) 27), (N.eqb_spec (o_num o) 23); try reflexivity; lia. }
  rewrite Et. destruct (N.eqb_spec (o_num o) num) as [En|En].
  - intro H. apply bind_ok in H as (b' & Hb & H). injection H as ->.
    exists [], (o_val o), ops. split; [destruct o; cbn in *; subst; reflexivity|]. split; [reflexivity|].
    assert (G : block_value (be_val (firstn 3 (o_val o))) b).
    { unfold o_len in Hb. destruct (N.le_gt_cases (lenN (o_val o)) 3) as [Hl|Hl].
      - rewrite firstn_all2 by (unfold lenN in Hl; lia).
        destruct (N.eq_dec (lenN (o_val o)) 0) as [H0|H0].
        + apply lenN_0 in H0. rewrite H0 in Hb. vm_compute in Hb. discriminate.
        + rewrite <- (app_nil_r (o_val o)) in Hb at 1. apply parse_block_val_spec in Hb; auto. lia.
      - assert (Hb' : parse_block_val (o_val o) 3 = Ok b).
        { revert Hb. unfold parse_block_val. destruct (N.eqb_spec (lenN (o_val o)) 1); [lia|].
          destruct (N.eqb_spec (lenN (o_val o)) 2); [lia|]. auto. }
        assert (H3 : lenN (firstn 3 (o_val o)) = 3) by (rewrite (lenN_firstn _ 3); lia).
        assert (Hb2 : parse_block_val (firstn 3 (o_val o) ++ skipn 3 (o_val o)) (lenN (firstn 3 (o_val o))) = Ok b)
          by (rewrite H3, firstn_skipn; exact Hb').
        apply parse_block_val_spec in Hb2; auto.
        + apply (bytes_ok_app (firstn 3 (o_val o)) (skipn 3 (o_val o))). rewrite firstn_skipn. exact Ho.
        + lia. }
    split; [exact G|]. apply block_value_num with (1 := G).
    eapply N.lt_le_trans; [apply be_val_bound|].
    + apply (bytes_ok_app (firstn 3 (o_val o)) (skipn 3 (o_val o))). rewrite firstn_skipn. exact Ho.
    + apply N.pow_le_mono_r; [lia|]. rewrite (lenN_firstn _ 3). lia.
  - intro H. destruct (IH Hv' H) as (l1 & v & l2 & -> & H1 & H2). exists (o :: l1), v, l2.
    split; [reflexivity|]. split; [|exact H2]. unfold with_num in *. cbn [filter].
    destruct (N.eqb_spec (o_num o) num); [contradiction|exact H1].
Qed.

Lemma pbo_no_fuel ops num : parse_block_op ops num <> OutOfFuel /\ parse_block_op ops num <> UB OobWrite.
Proof.
  induction ops as [|o ops [IH1 IH2]]; cbn [parse_block_op]; [split; discriminate|].
  destruct (_ || _); [|split; assumption].
  assert (Hrd : forall v i, (exists x, rd v i = Ok x) \/ rd v i = UB OobRead).
  { intros v i. unfold rd. destruct (_ <? _); eauto. }
  unfold parse_block_val.
  destruct (Hrd (o_val o) 0) as [[x0 ->]| ->], (Hrd (o_val o) 1) as [[x1 ->]| ->], (Hrd (o_val o) 2) as [[x2 ->]| ->];
    cbn [bind]; repeat (destruct (_ =? _)); cbn [bind]; repeat (destruct (_ <? _)); cbn [bind]; split; discriminate.
Qed.

Lemma szx_calc szx : szx < 7 -> calc_block_szx (2 ^ (4 + szx)) = Ok szx.
Proof.
  intro H. destruct (lt8_cases szx) as [->|[->|[->|[->|[->|[->|[->| ->]]]]]]]; try lia; reflexivity.
Qed.

Lemma pow_min a b : a < 7 -> b < 7 ->
  exists c, c < 7 /\ c <= a /\ (if 2 ^ (4 + b) <? 2 ^ (4 + a) then 2 ^ (4 + b) else 2 ^ (4 + a)) = 2 ^ (4 + c).
Proof.
  intros Ha Hb. destruct (N.ltb_spec (2 ^ (4 + b)) (2 ^ (4 + a))) as [H|H].
  - apply N.pow_lt_mono_r_iff in H; [|lia]. exists b. split; [exact Hb|]. split; [lia|reflexivity].
  - exists a. split; [exact Ha|]. split; [lia|reflexivity].
Qed.

Lemma pow4_bounds c : c < 7 -> 16 <= 2 ^ (4 + c) <= 1024.
Proof.
  intro H. destruct (lt8_cases c) as [->|[->|[->|[->|[->|[->|[->| ->]]]]]]]; try lia;
  (split; vm_compute; discriminate).
Qed.

Lemma pow4_div a c x : c <= a -> x mod 2 ^ (4 + a) = 0 -> x mod 2 ^ (4 + c) = 0.
Proof.
  intros H Hx. apply N.mod_divide in Hx; [|apply N.pow_nonzero; lia]. destruct Hx as [y ->].
  replace (4 + a) with ((a - c) + (4 + c)) by lia. rewrite N.pow_add_r, N.mul_assoc. apply N.mod_mul. apply N.pow_nonzero. lia.
Qed.

(** ** Requests *)

Lemma with_num_add l o n : ops_sorted l -> with_num n (op_list_add l o) = with_num n l ++ (if o_num o =? n then [o] else []).
Proof. intro H. rewrite op_list_add_with_num, with_num_app by exact H. cbn [with_num filter]. reflexivity. Qed.

Lemma copy_req req : wf_msg req -> msg_copy msg_create req = Ok req.
Proof. intros []. apply copy_wf; assumption. Qed.
(** What is needed of a request. *)
Definition copied (req : msg) : Prop := msg_copy msg_create req = Ok req /\ ops_sorted (m_ops req).
Lemma wf_copied req : wf_msg req -> copied req.
Proof. intro W. split; [apply copy_req; exact W|apply W]. Qed.

Lemma format_block_val_res len num more size :
  (exists v, format_block_val len num more size = Ok v) \/ format_block_val len num more size = Err EINVAL.
Proof.
  unfold format_block_val. destruct (calc_block_szx size) as [szx|e|u|] eqn:E.
  - cbn [bind]. repeat (destruct (_ =? _)); repeat (destruct (_ <? _)); eauto.
  - right. cbn [bind]. f_equal. revert E. unfold calc_block_szx. repeat (destruct (_ =? _)); intro H; try discriminate H. injection H as <-. reflexivity.
  - revert E. unfold calc_block_szx. repeat (destruct (_ =? _)); discriminate.
  - revert E. unfold calc_block_szx. repeat (destruct (_ =? _)); discriminate.
Qed.

Lemma block1_msg_spec req body start size size2 szx more plen :
  copied req -> start + plen <= lenN body ->
  (exists m, block1_msg req body start size size2 szx more plen = Ok m /\
     same_request req m /\
     m_payload m = firstn (N.to_nat plen) (skipn (N.to_nat start) body) /\
     (with_num OP_BLOCK1 (m_ops req) = [] -> szx < 7 -> size = 2 ^ (4 + szx) -> start mod size = 0 -> start / size < 1048576 ->
      has_block OP_BLOCK1 m start more)) \/
  block1_msg req body start size size2 szx more plen = Err EINVAL.
Proof.
  intros W Hlen. unfold block1_msg. destruct W as [Wc Hsort]. rewrite Wc. cbn [bind].
 
  set (num := N.shiftr start (szx + 4) mod two32).
  destruct (format_block_val_res 3 num more size) as [[v Hv]| ->]; [|right; reflexivity].
  rewrite Hv. cbn [bind add_op].
  assert (Hsort1 : ops_sorted (op_list_add (m_ops req) (mkop OP_BLOCK1 v))) by (apply op_list_add_spec; exact Hsort).
  assert (Hadv : adv body start = Ok (skipn (N.to_nat start) body)).
  { unfold adv. destruct (N.leb_spec start (lenN body)); [reflexivity|lia]. }
  assert (Hrdn : rdn (skipn (N.to_nat start) body) plen = Ok (firstn (N.to_nat plen) (skipn (N.to_nat start) body))).
  { unfold rdn. rewrite lenN_skipn. destruct (N.leb_spec plen (lenN body - start)); [reflexivity|lia]. }
  assert (Hblk : forall m, with_num OP_BLOCK1 (m_ops m) = with_num OP_BLOCK1 (m_ops req) ++ [mkop OP_BLOCK1 v] ->
    with_num OP_BLOCK1 (m_ops req) = [] -> szx < 7 -> size = 2 ^ (4 + szx) -> start mod size = 0 -> start / size < 1048576 ->
    has_block OP_BLOCK1 m start more).
  { intros m Hm H0 Hs Hsz Hmod Hdiv. rewrite H0 in Hm. exists v, num, size. split; [exact Hm|].
    assert (En : num = start / size).
    { unfold num. rewrite N.shiftr_div_pow2, N.add_comm, <- Hsz. unfold two32. rewrite N.mod_small; [reflexivity|lia]. }
    split.
    - apply (format_block_val_spec 3 num more size v Hv). rewrite En. exact Hdiv.
    - rewrite En. pose proof (N.div_mod start size ltac:(subst size; apply N.pow_nonzero; lia)) as Hd. rewrite Hmod in Hd. lia. }
  destruct more; cbn [bind].
  - rewrite Hadv. cbn [bind]. rewrite Hrdn. cbn [bind set_payload]. left. eexists. split; [reflexivity|].
    split; [|split; [reflexivity|]].
    + repeat split; try reflexivity. intros n H1 H2. cbn [m_ops]. rewrite with_num_add by exact Hsort. cbn [o_num].
      destruct (N.eqb_spec OP_BLOCK1 n); [congruence|]. apply app_nil_r.
    + apply Hblk. cbn [m_ops]. rewrite with_num_add by exact Hsort. reflexivity.
  - destruct (format_block_val_res 3 0 false size2) as [[v2 Hv2]| ->]; [|right; reflexivity].
    rewrite Hv2. cbn [bind add_op]. rewrite Hadv. cbn [bind]. rewrite Hrdn. cbn [bind set_payload]. left. eexists. split; [reflexivity|].
    split; [|split; [reflexivity|]].
    + repeat split; try reflexivity. intros n H1 H2. cbn [m_ops]. rewrite !with_num_add by assumption. cbn [o_num].
      destruct (N.eqb_spec OP_BLOCK1 n); [congruence|]. destruct (N.eqb_spec OP_BLOCK2 n); [congruence|]. rewrite !app_nil_r. reflexivity.
    + apply Hblk. cbn [m_ops]. rewrite !with_num_add by assumption. cbn [o_num]. apply app_nil_r.
Qed.

(** Where undefined behaviour comes from: the last exchange, or a block option in a response. *)
Definition bad_block (x : msg) (u : ubkind) : Prop := exists num, (num = OP_BLOCK1 \/ num = OP_BLOCK2) /\ parse_block_op (m_ops x) num = UB u.
Definition blame (have : option msg) (h : exchanges) (u : ubkind) : Prop :=
  ended h (A:=msg) (UB u) \/ exists x, (have = Some x \/ In x (responses h)) /\ bad_block x u.
Lemma blame_cons have p h u : blame have h u -> blame have (p :: h) u.
Proof.
  intros [(h0 & m & ->)|(x & H & E)]; [left; exists (p :: h0), m; reflexivity|right]. exists x. split; [|exact E].
  destruct H as [H|H]; [auto|right]. destruct p as [m []]; cbn [responses]; try exact H. right. exact H.
Qed.
Lemma responses_app h h' : responses (h ++ h') = responses h ++ responses h'.
Proof. induction h as [|[m []] h IH]; cbn [List.app responses]; [reflexivity|rewrite IH; reflexivity|exact IH..]. Qed.
Lemma blame_app have h h' u : blame have h' u -> blame have (h ++ h') u.
Proof. intro H. induction h as [|p h IH]; [exact H|]. apply blame_cons. exact IH. Qed.
Lemma blame_some x have h u : blame None h u -> blame (Some x) h u /\ blame have h u.
Proof. intros [H|(y & [H|H] & E)]; [split; left; exact H|discriminate|split; right; exists y; auto]. Qed.
Lemma blame_write have h : blame have h OobWrite -> ended h (A:=msg) (UB OobWrite).
Proof. intros [H|(x & _ & num & _ & E)]; [exact H|]. destruct (proj2 (pbo_no_fuel _ _) E). Qed.

(** ** Upload *)

Definition uploaded (req : msg) (body : list N) (start : N) (h : exchanges) (n : N) (resp : msg) : Prop :=
  n = lenN body /\
  concat (map m_payload (map fst h)) = skipn (N.to_nat start) body /\
  upload_from start (map fst h) /\
  Forall (same_request req) (map fst h) /\
  (exists h0 m, h = h0 ++ [(m, Ok resp)]) /\ resp_ok resp.

Lemma upload_inv (f : server) req body size2 : server_ok f -> copied req -> lenN body < 9223372036854775808 ->
  with_num OP_BLOCK1 (m_ops req) = [] ->
  forall fuel h size szx start,
  szx < 7 -> size = 2 ^ (4 + szx) -> start mod size = 0 -> start <= lenN body ->
  exists h' r, blockwise1_loop (server_exch f) fuel h req body size size2 szx start = (h ++ h', r) /\
    lenN h' <= (lenN body - start) / 16 + 1 /\
    (forall n resp, r = Ok (n, resp) -> n <> 0 -> uploaded req body start h' n resp) /\
    ((lenN body - start) / 16 < N.of_nat fuel -> r = OutOfFuel -> ended h' (A:=msg) OutOfFuel) /\
    (forall u, r = UB u -> blame None h' u).
Proof.
  intros Hf W Hbody Hno. induction fuel as [|fuel IH]; intros h size szx start Hszx Hsize Hmod Hstart.
  { exists [], OutOfFuel. split; [cbn; rewrite app_nil_r; reflexivity|]. split; [rewrite lenN_nil; lia|].
    split; [discriminate|]. split; [lia|discriminate]. }
  cbn [blockwise1_loop]. pose proof (pow4_bounds szx Hszx) as Hpw. rewrite <- Hsize in Hpw.
  assert (Hadd : add64 start size = start + size) by (unfold add64, two64; apply N.mod_small; lia).
  rewrite Hadd.
  set (last := lenN body <=? start + size).
  assert (Hplen : exists plen, (if last then sub64 (lenN body) start mod two32 else size) = plen /\
    start + plen <= lenN body /\ (last = true -> start + plen = lenN body) /\ (last = false -> plen = size /\ start + plen < lenN body)).
  { unfold last. destruct (N.leb_spec (lenN body) (start + size)) as [H|H].
    - exists (lenN body - start). split; [unfold sub64, two64, two32; lia|]. split; [lia|]. split; [lia|discriminate].
    - exists size. split; [reflexivity|]. split; [lia|]. split; [discriminate|lia]. }
  destruct Hplen as (plen & Ep & Hp1 & Hp2 & Hp3). cbv zeta. rewrite Ep.
  destruct (block1_msg_spec req body start size size2 szx (negb last) plen W Hp1) as [(m & Hm & Hsame & Hpl & Hblk)|He].
  2: { rewrite He. exists [], (Err EINVAL). split; [rewrite app_nil_r; reflexivity|]. split; [rewrite lenN_nil; lia|].
       split; [discriminate|]. split; discriminate. }
  rewrite Hm. unfold server_exch at 1.
  assert (Hone : forall r : res (N * msg),
    (forall n resp, r = Ok (n, resp) -> n <> 0 -> uploaded req body start [(m, f h m)] n resp) ->
    (r = OutOfFuel -> f h m = OutOfFuel) -> (forall u, r = UB u -> f h m = UB u \/ exists resp, f h m = Ok resp /\ bad_block resp u) ->
    exists h' r', (h ++ [(m, f h m)], r) = (h ++ h', r') /\
    lenN h' <= (lenN body - start) / 16 + 1 /\
    (forall n resp, r' = Ok (n, resp) -> n <> 0 -> uploaded req body start h' n resp) /\
    ((lenN body - start) / 16 < N.of_nat (S fuel) -> r' = OutOfFuel -> ended h' (A:=msg) OutOfFuel) /\
    (forall u, r' = UB u -> blame None h' u)).
  { intros r H1 H2 H3. exists [(m, f h m)], r. split; [reflexivity|]. split; [unfold lenN; cbn [length]; lia|].
    split; [exact H1|]. split.
    - intros _ Hr. exists [], m. rewrite (H2 Hr). reflexivity.
    - intros u Hr. destruct (H3 u Hr) as [E|(resp & E1 & E2)]; [left; exists [], m; rewrite E; reflexivity|right].
      exists resp. split; [right; rewrite E1; left; reflexivity|exact E2]. }
  destruct (f h m) as [resp|e|u|] eqn:Ef;
    [|apply Hone; [discriminate|discriminate|discriminate]
     |apply Hone; [discriminate|discriminate|intros u0 Hu; injection Hu as ->; left; reflexivity]
     |apply Hone; [discriminate|reflexivity|discriminate]].
  destruct (negb (m_class resp =? CL_SUCCESS)).
  { apply Hone; [|discriminate|discriminate]. intros n r Hr Hn. injection Hr as <- <-. congruence. }
  destruct (negb (m_detail resp =? CONTINUE) && _ && _).
  { apply Hone; [|discriminate|discriminate]. intros n r Hr Hn. injection Hr as <- <-. congruence. }
  destruct (Hf _ _ _ Ef) as [Hops _].
  destruct (pbo_no_fuel (m_ops resp) OP_BLOCK1) as [Hnf1 Hnf2].
  destruct (parse_block_op (m_ops resp) OP_BLOCK1) as [[b|]|e|u|] eqn:Eb;
    [|apply Hone; discriminate|apply Hone; discriminate
     |apply Hone; [discriminate|discriminate|intros u0 Hu; right; exists resp; split; [reflexivity|]; exists OP_BLOCK1; split; [auto|congruence]]|apply Hone; discriminate].
  destruct (pbo_spec OP_BLOCK1 _ b (or_introl eq_refl) Hops Eb) as (_ & _ & _ & _ & _ & _ & Hbn & szb & Hszb & Hbs).
  rewrite Hbs. destruct (pow_min szx szb Hszx Hszb) as (c & Hc & Hca & Emin). rewrite Hsize, Emin.
  pose proof (pow4_bounds c Hc) as Hpwc.
  assert (Hmul : mul32 (b_num b) (2 ^ (4 + c)) = b_num b * 2 ^ (4 + c)) by (unfold mul32, two32; apply N.mod_small; nia).
  rewrite Hmul. destruct (N.eqb_spec (b_num b * 2 ^ (4 + c)) start) as [Es|Es]; cbn [negb];
    [|apply Hone; discriminate].
  rewrite szx_calc by exact Hc.
  assert (Hadd2 : add64 start plen = start + plen) by (unfold add64, two64; apply N.mod_small; lia).
  rewrite Hadd2.
  assert (Hdiv : start / size < 1048576).
  { apply N.le_lt_trans with (b_num b); [|exact Hbn].
    apply N.div_le_upper_bound; [lia|]. rewrite <- Es.
    assert (2 ^ (4 + c) <= size) by (rewrite Hsize; apply N.pow_le_mono_r; lia). nia. }
  specialize (Hblk Hno Hszx Hsize Hmod Hdiv).
  destruct (N.leb_spec (lenN body) (start + plen)) as [Hle|Hgt].
  - assert (last = true) as El.
    { destruct last; [reflexivity|]. destruct (Hp3 eq_refl). lia. }
    rewrite El in *. apply Hone; [|discriminate|discriminate].
    intros n r Hr Hn. injection Hr as <- <-. split; [apply Hp2; reflexivity|].
    cbn [map fst snd concat]. split; [|split; [|split]].
    + rewrite app_nil_r, Hpl. rewrite firstn_all2; [reflexivity|]. pose proof (lenN_skipn body start) as Hsk. unfold lenN in Hsk. unfold lenN in Hp1, Hp2. lia.
    + cbn [upload_from]. split; [exact Hblk|exact I].
    + constructor; [exact Hsame|constructor].
    + split; [exists [], m; reflexivity|exact (Hf _ _ _ Ef)].
  - assert (last = false) as El.
    { destruct last; [|reflexivity]. specialize (Hp2 eq_refl). lia. }
    rewrite El in *. destruct (Hp3 eq_refl) as [Hps Hlt].
    destruct (IH (h ++ [(m, Ok resp)]) (2 ^ (4 + c)) c (start + plen)) as (h' & r & E1 & E2 & E3 & E4 & E5); auto.
    { rewrite Hps. rewrite N.add_mod by lia.
      rewrite (pow4_div szx c start Hca) by (rewrite <- Hsize; exact Hmod).
      rewrite (pow4_div szx c size Hca) by (rewrite <- Hsize; apply N.mod_same; lia). rewrite N.add_0_l. apply N.mod_0_l. lia. }
    rewrite E1. exists ((m, Ok resp) :: h'), r. split; [rewrite <- app_assoc; reflexivity|].
    split; [rewrite lenN_cons; lia|]. split; [|split].
    + intros n r' Hr Hn. destruct (E3 _ _ Hr Hn) as (U1 & U2 & U3 & U4 & (h0 & m0 & U5) & U6). split; [exact U1|].
      cbn [map fst snd concat]. split; [|split; [|split]].
      * rewrite U2, Hpl. rewrite <- (firstn_skipn (N.to_nat plen) (skipn (N.to_nat start) body)) at 2. f_equal.
        rewrite skipn_plus. f_equal. lia.
      * cbn [upload_from]. assert (lenN (m_payload m) = plen) as ->.
        { rewrite Hpl, lenN_firstn, lenN_skipn. lia. }
        split; [|exact U3]. replace (match map fst h' with [] => false | _ :: _ => true end) with true; [exact Hblk|].
        rewrite U5. destruct h0; reflexivity.
      * constructor; assumption.
      * split; [exists ((m, Ok resp) :: h0), m0; rewrite U5; reflexivity|exact U6].
    + intros Hfu Hr. destruct E4 as (h0 & m0 & ->); [lia|exact Hr|]. exists ((m, Ok resp) :: h0), m0. reflexivity.
    + intros u Hr. apply blame_cons, E5. exact Hr.
Qed.

(** ** Download *)

Definition payloads (rs : list msg) : list N := concat (map m_payload rs).

Definition downloaded (buf buf' : list N) (start size : N) (rs : list msg) (n : N) : Prop :=
  n = start + lenN (payloads rs) /\ n <= lenN buf /\
  buf' = firstn (N.to_nat start) buf ++ payloads rs ++ skipn (N.to_nat n) buf /\
  download_from start size rs.

Lemma firstn_exact {A} (l1 l2 : list A) n : length l1 = n -> firstn n (l1 ++ l2) = l1.
Proof. intros <-. rewrite firstn_app, Nat.sub_diag, firstn_all. cbn. apply app_nil_r. Qed.
Lemma skipn_exact {A} (l1 l2 : list A) n k : length l1 = n -> skipn (n + k) (l1 ++ l2) = skipn k l2.
Proof.
  intros <-. rewrite skipn_app, skipn_all2 by lia. cbn [app]. f_equal. lia.
Qed.

Lemma splice (buf : list N) start n1 n2 pl rest : start + lenN pl = n1 -> n1 + lenN rest = n2 -> n2 <= lenN buf ->
  let buf1 := firstn (N.to_nat start) buf ++ pl ++ skipn (N.to_nat n1) buf in
  firstn (N.to_nat n1) buf1 ++ rest ++ skipn (N.to_nat n2) buf1
  = firstn (N.to_nat start) buf ++ (pl ++ rest) ++ skipn (N.to_nat n2) buf.
Proof.
  intros H1 H2 H3. cbv zeta. set (A := firstn (N.to_nat start) buf).
  assert (HA : length A = N.to_nat start) by (unfold A, lenN in *; rewrite firstn_length; lia).
  assert (Hl : length (A ++ pl) = N.to_nat n1) by (rewrite app_length, HA; unfold lenN in *; lia).
  rewrite (app_assoc A pl), firstn_exact by exact Hl.
  replace (N.to_nat n2) with (N.to_nat n1 + N.to_nat (lenN rest))%nat at 1 by lia.
  rewrite skipn_exact by exact Hl. rewrite skipn_plus.
  replace (N.to_nat n1 + N.to_nat (lenN rest))%nat with (N.to_nat n2) by lia.
  rewrite <- !app_assoc. reflexivity.
Qed.

Lemma block2_resp_spec req resp buf size szx start :
  resp_ok resp -> szx < 7 -> size = 2 ^ (4 + szx) -> start <= lenN buf -> lenN buf < 9223372036854775808 ->
  match block2_resp req resp buf size start with
  | B2Stop buf' r =>
    lenN buf' = lenN buf /\
    (forall n m, r = Ok (n, m) -> n <> 0 -> m = resp /\ downloaded buf buf' start size [resp] n) /\
    r <> OutOfFuel /\ (forall u, r = UB u -> bad_block resp u)
  | B2Next buf' size' szx' start' =>
    szx' < 7 /\ size' = 2 ^ (4 + szx') /\ start' = start + lenN (m_payload resp) /\
    lenN (m_payload resp) = size' /\ start' <= lenN buf /\
    buf' = firstn (N.to_nat start) buf ++ m_payload resp ++ skipn (N.to_nat start') buf /\
    first_block OP_BLOCK2 resp start size true size'
  end.
Proof.
  intros [Hops Hpl] Hszx Hsize Hstart Hbuf. unfold block2_resp.
  assert (Hzero : lenN buf = lenN buf /\
    (forall n m, Ok (0, resp) = Ok (n, m) -> n <> 0 -> m = resp /\ downloaded buf buf start size [resp] n) /\
    (Ok (0, resp) : res (N * msg)) <> OutOfFuel /\ (forall u, (Ok (0, resp) : res (N * msg)) = UB u -> bad_block resp u)).
  { split; [reflexivity|]. split; [intros n m H Hn; injection H as <- <-; congruence|]. split; discriminate. }
  assert (Herr : forall e, lenN buf = lenN buf /\
    (forall n m, Err e = Ok (n, m) -> n <> 0 -> m = resp /\ downloaded buf buf start size [resp] n) /\
    (Err e : res (N * msg)) <> OutOfFuel /\ (forall u, (Err e : res (N * msg)) = UB u -> bad_block resp u)).
  { intro e. split; [reflexivity|]. split; [discriminate|]. split; discriminate. }
  destruct (negb (m_class resp =? CL_SUCCESS)); [exact Hzero|].
  destruct (if m_detail req =? M_GET then _ else _); [exact Hzero|].
  destruct (pbo_no_fuel (m_ops resp) OP_BLOCK2) as [Hnf1 Hnf2].
  destruct (parse_block_op (m_ops resp) OP_BLOCK2) as [[b|]|e|u|] eqn:Eb; try apply Herr.
  2: { split; [reflexivity|]. split; [discriminate|]. split; [discriminate|]. intros u0 Hu. exists OP_BLOCK2. split; [auto|congruence]. }
  destruct (pbo_spec OP_BLOCK2 _ b (or_intror eq_refl) Hops Eb) as (l1 & v & l2 & Hl & Hl1 & Hbv & Hbn & szb & Hszb & Hbs).
  assert (Hmin : (if b_size b <? size then b_size b else size) = N.min size (b_size b)) by (destruct (N.ltb_spec (b_size b) size); lia).
  cbv zeta. rewrite Hmin. destruct (pow_min szx szb Hszx Hszb) as (c & Hc & Hca & Emin).
  rewrite <- Hbs, <- Hsize, Hmin in Emin. rewrite Emin.
  pose proof (pow4_bounds c Hc) as Hpwc.
  assert (Hmul : mul32 (b_num b) (2 ^ (4 + c)) = b_num b * 2 ^ (4 + c)) by (unfold mul32, two32; apply N.mod_small; nia).
  rewrite Hmul. destruct (N.eqb_spec (b_num b * 2 ^ (4 + c)) start) as [Es|Es]; cbn [negb]; [|apply Herr].
  rewrite szx_calc by exact Hc.
  rewrite (N.mod_small _ _ Hpl).
  destruct (N.ltb_spec (2 ^ (4 + c)) (lenN (m_payload resp))); [apply Herr|].
  destruct (b_more b && negb (lenN (m_payload resp) =? 2 ^ (4 + c))) eqn:Em; [apply Herr|].
  assert (Hadd : add64 start (lenN (m_payload resp)) = start + lenN (m_payload resp)) by (unfold add64, two64; apply N.mod_small; lia).
  rewrite Hadd. destruct (N.ltb_spec (lenN buf) (start + lenN (m_payload resp))); [apply Herr|].
  rewrite to_nat_lenN, firstn_all. unfold put.
  destruct (N.leb_spec (start + lenN (m_payload resp)) (lenN buf)); [|lia].
  assert (Hfb : first_block OP_BLOCK2 resp start size (b_more b) (2 ^ (4 + c))).
  { exists v, (b_num b), l1, l2. split; [exact Hl|]. split; [exact Hl1|]. exists (b_size b).
    split; [destruct b; exact Hbv|]. split; [congruence|exact Es]. }
  destruct (b_more b).
  - cbn [andb] in Em. apply negb_false_iff, N.eqb_eq in Em.
    repeat split; auto.
  - split; [rewrite !lenN_app, lenN_firstn, lenN_skipn; lia|]. split; [|split; discriminate].
    intros n m Hr Hn. injection Hr as <- <-. split; [reflexivity|]. unfold downloaded, payloads. cbn [map concat]. rewrite app_nil_r.
    split; [reflexivity|]. split; [assumption|]. split; [reflexivity|].
    cbn [download_from]. exists (2 ^ (4 + c)). split; [exact Hfb|]. split; [assumption|]. split; [congruence|exact I].
Qed.

Lemma downloaded_cons buf buf' start size resp size' rs n :
  lenN (m_payload resp) = size' -> start + size' <= lenN buf ->
  first_block OP_BLOCK2 resp start size true size' -> rs <> [] ->
  downloaded (firstn (N.to_nat start) buf ++ m_payload resp ++ skipn (N.to_nat (start + size')) buf) buf' (start + size') size' rs n ->
  downloaded buf buf' start size (resp :: rs) n.
Proof.
  intros Hpl Hle Hfb Hne (H1 & H2 & H3 & H4). unfold downloaded, payloads in *. cbn [map concat].
  assert (Hlen : lenN (firstn (N.to_nat start) buf ++ m_payload resp ++ skipn (N.to_nat (start + size')) buf) = lenN buf).
  { rewrite !lenN_app, lenN_firstn, lenN_skipn. lia. }
  rewrite Hlen in H2. split; [rewrite lenN_app; lia|]. split; [exact H2|]. split.
  - rewrite H3. rewrite splice by lia. reflexivity.
  - cbn [download_from]. exists size'. split; [destruct rs; [congruence|exact Hfb]|]. split; [lia|]. split; [auto|].
    rewrite Hpl. exact H4.
Qed.

Lemma block2_msg_spec req start size szx : copied req ->
  (exists m, block2_msg req start size szx = Ok m /\ same_request req m) \/ block2_msg req start size szx = Err EINVAL.
Proof.
  intros W. unfold block2_msg. destruct W as [Wc Hsort]. rewrite Wc. cbn [bind].
  destruct (format_block_val_res 3 (N.shiftr start (szx + 4) mod two32) false size) as [[v Hv]| ->]; [|right; reflexivity].
  rewrite Hv. cbn [bind add_op]. left. eexists. split; [reflexivity|].
  repeat split; try reflexivity. intros n H1 H2. cbn [m_ops]. rewrite with_num_add by exact Hsort. cbn [o_num].
  destruct (N.eqb_spec OP_BLOCK2 n); [congruence|]. apply app_nil_r.
Qed.

Definition download_result (req : msg) (buf : list N) (start size : N) (fuel : nat) (h : exchanges)
           (o : exchanges * list N * res (N * msg)) : Prop :=
  exists h' buf' r, o = (h ++ h', buf', r) /\
    lenN h' <= (lenN buf - start) / 16 + 1 /\ lenN buf' = lenN buf /\
    (forall n resp, r = Ok (n, resp) -> n <> 0 ->
       downloaded buf buf' start size (responses h') n /\ (exists rs, responses h' = rs ++ [resp]) /\
       Forall (same_request req) (map fst h')) /\
    ((lenN buf - start) / 16 < N.of_nat fuel -> r = OutOfFuel -> ended h' (A:=msg) OutOfFuel) /\
    (forall u, r = UB u -> blame None h' u).

Lemma download_inv (f : server) req : server_ok f -> copied req ->
  forall fuel h buf size szx start, lenN buf < 9223372036854775808 ->
  szx < 7 -> size = 2 ^ (4 + szx) -> start <= lenN buf ->
  download_result req buf start size fuel h (blockwise2_loop (server_exch f) fuel h req buf size szx start).
Proof.
  intros Hf W. induction fuel as [|fuel IH]; intros h buf size szx start Hbuf Hszx Hsize Hstart.
  { exists [], buf, OutOfFuel. split; [cbn; rewrite app_nil_r; reflexivity|]. split; [rewrite lenN_nil; lia|].
    split; [reflexivity|]. split; [discriminate|]. split; [lia|discriminate]. }
  cbn [blockwise2_loop]. pose proof (pow4_bounds szx Hszx) as Hpw. rewrite <- Hsize in Hpw.
  destruct (block2_msg_spec req start size szx W) as [(m & Hm & Hsame)|He].
  2: { rewrite He. exists [], buf, (Err EINVAL). split; [rewrite app_nil_r; reflexivity|]. split; [rewrite lenN_nil; lia|].
       split; [reflexivity|]. split; [discriminate|]. split; discriminate. }
  rewrite Hm. unfold server_exch at 1.
  assert (Hone : forall buf' (r : res (N * msg)), lenN buf' = lenN buf ->
    (forall n resp, r = Ok (n, resp) -> n <> 0 -> f h m = Ok resp /\ downloaded buf buf' start size [resp] n) ->
    (r = OutOfFuel -> f h m = OutOfFuel) -> (forall u, r = UB u -> f h m = UB u \/ exists resp, f h m = Ok resp /\ bad_block resp u) ->
    download_result req buf start size (S fuel) h (h ++ [(m, f h m)], buf', r)).
  { intros buf' r H0 H1 H2 H3. exists [(m, f h m)], buf', r. split; [reflexivity|]. split; [unfold lenN; cbn [length]; lia|].
    split; [exact H0|]. split.
    - intros n resp Hr Hn. destruct (H1 n resp Hr Hn) as [E Hd]. rewrite E. cbn [responses]. split; [exact Hd|].
      split; [exists []; reflexivity|]. constructor; [exact Hsame|constructor].
    - split; [intros _ Hr; exists [], m; rewrite (H2 Hr); reflexivity|]. intros u Hr. destruct (H3 u Hr) as [E|(resp & E1 & E2)]; [left; exists [], m; rewrite E; reflexivity|right].
      exists resp. split; [right; rewrite E1; left; reflexivity|exact E2]. }
  destruct (f h m) as [resp|e|u|] eqn:Ef;
    [|apply Hone; [reflexivity|discriminate|discriminate|discriminate]
     |apply Hone; [reflexivity|discriminate|discriminate|intros u0 Hu; injection Hu as ->; left; reflexivity]
     |apply Hone; [reflexivity|discriminate|reflexivity|discriminate]].
  pose proof (block2_resp_spec req resp buf size szx start (Hf _ _ _ Ef) Hszx Hsize Hstart Hbuf) as Hs.
  destruct (block2_resp req resp buf size start) as [buf1 r|buf1 size' szx' start'].
  - destruct Hs as (S1 & S2 & S3 & S4). apply Hone; [exact S1| |congruence|intros u Hr; right; exists resp; auto].
    intros n r' Hr Hn. destruct (S2 n r' Hr Hn) as [-> Hd]. auto.
  - destruct Hs as (S1 & S2 & S3 & S4 & S5 & S6 & S7).
    assert (Hlen1 : lenN buf1 = lenN buf).
    { rewrite S6, !lenN_app, lenN_firstn, lenN_skipn. lia. }
    pose proof (pow4_bounds szx' S1) as Hpw'.
    destruct (IH (h ++ [(m, Ok resp)]) buf1 size' szx' start') as (h' & buf' & r & E1 & E2 & E2' & E3 & E4 & E5);
      [lia|exact S1|exact S2|lia|].
    rewrite E1. exists ((m, Ok resp) :: h'), buf', r. split; [rewrite <- app_assoc; reflexivity|].
    rewrite Hlen1 in *. rewrite <- S2 in Hpw'.
    split; [rewrite lenN_cons; lia|]. split; [congruence|]. split; [|split].
    + intros n r' Hr Hn. destruct (E3 n r' Hr Hn) as (D1 & (rs & D2) & D3). cbn [responses map fst].
      split; [|split; [exists (resp :: rs); rewrite D2; reflexivity|constructor; assumption]].
      apply downloaded_cons with (size' := size'); auto.
      * lia.
      * rewrite D2. destruct rs; discriminate.
      * rewrite <- S4, <- S3, <- S6. rewrite <- S4 in D1. exact D1.
    + intros Hfu Hr. destruct E4 as (h0 & m0 & ->); [lia|exact Hr|]. exists ((m, Ok resp) :: h0), m0. reflexivity.
    + intros u Hr. apply blame_cons, E5. exact Hr.
Qed.

(** ** The transfers as a whole *)

Lemma blockwise1_spec (f : server) req body size1 size2 fuel h :
  server_ok f -> copied req -> lenN body < 9223372036854775808 -> with_num OP_BLOCK1 (m_ops req) = [] ->
  exists h' r, blockwise1 (server_exch f) fuel h req body size1 size2 = (h ++ h', r) /\
    lenN h' <= lenN body / 16 + 1 /\
    (forall n resp, r = Ok (n, resp) -> n <> 0 -> uploaded req body 0 h' n resp) /\
    (lenN body / 16 < N.of_nat fuel -> r = OutOfFuel -> ended h' (A:=msg) OutOfFuel) /\
    (forall u, r = UB u -> blame None h' u).
Proof.
  intros Hf W Hl Hno. unfold blockwise1.
  assert (Herr : forall r : res (N * msg), (forall x, r <> Ok x) -> r <> OutOfFuel -> (forall u, r <> UB u) ->
    exists h' r', (h, r) = (h ++ h', r') /\ lenN h' <= lenN body / 16 + 1 /\
    (forall n resp, r' = Ok (n, resp) -> n <> 0 -> uploaded req body 0 h' n resp) /\
    (lenN body / 16 < N.of_nat fuel -> r' = OutOfFuel -> ended h' (A:=msg) OutOfFuel) /\
    (forall u, r' = UB u -> blame None h' u)).
  { intros r H1 H2 H3. exists [], r. split; [rewrite app_nil_r; reflexivity|]. split; [rewrite lenN_nil; lia|].
    split; [intros n resp Hr; destruct (H1 _ Hr)|]. split; [intros _ Hr; contradiction|intros u Hr; destruct (H3 u Hr)]. }
  destruct (_ || _); [apply Herr; discriminate|].
  destruct (calc_block_szx size1) as [szx| | |] eqn:E1; try (apply Herr; discriminate).
  destruct (calc_block_szx size2) as [szx2| | |]; try (apply Herr; discriminate).
  apply szx_ok in E1 as [Hszx ->].
  destruct (upload_inv f req body size2 Hf W Hl Hno fuel h (2 ^ (4 + szx)) szx 0) as (h' & r & H1 & H2 & H3 & H4 & H5);
    [exact Hszx|reflexivity|apply N.mod_0_l; apply N.pow_nonzero; lia|lia|].
  rewrite N.sub_0_r in H2, H4. exists h', r. auto 10.
Qed.

Lemma blockwise2_spec (f : server) req have buf size2 fuel h :
  server_ok f -> (forall r, have = Some r -> resp_ok r) -> copied req -> lenN buf < 9223372036854775808 ->
  exists h' buf' r, blockwise2 (server_exch f) fuel h req have buf size2 = (h ++ h', buf', r) /\
    lenN h' <= lenN buf / 16 + 1 /\ lenN buf' = lenN buf /\
    (forall n resp, r = Ok (n, resp) -> n <> 0 ->
       downloaded buf buf' 0 size2 (download_responses have h') n /\
       (exists rs, download_responses have h' = rs ++ [resp]) /\
       Forall (same_request req) (map fst h')) /\
    (lenN buf / 16 < N.of_nat fuel -> r = OutOfFuel -> ended h' (A:=msg) OutOfFuel) /\
    (forall u, r = UB u -> blame have h' u).
Proof.
  intros Hf Hh W Hl. unfold blockwise2.
  assert (Herr : forall r : res (N * msg), (forall x, r <> Ok x) -> r <> OutOfFuel -> (forall u, r <> UB u) ->
    exists h' buf' r', (h, buf, r) = (h ++ h', buf', r') /\ lenN h' <= lenN buf / 16 + 1 /\ lenN buf' = lenN buf /\
    (forall n resp, r' = Ok (n, resp) -> n <> 0 ->
       downloaded buf buf' 0 size2 (download_responses have h') n /\
       (exists rs, download_responses have h' = rs ++ [resp]) /\
       Forall (same_request req) (map fst h')) /\
    (lenN buf / 16 < N.of_nat fuel -> r' = OutOfFuel -> ended h' (A:=msg) OutOfFuel) /\
    (forall u, r' = UB u -> blame have h' u)).
  { intros r H1 H2 H3. exists [], buf, r. split; [rewrite app_nil_r; reflexivity|]. split; [rewrite lenN_nil; lia|].
    split; [reflexivity|]. split; [intros n resp Hr; destruct (H1 _ Hr)|]. split; [intros _ Hr; contradiction|intros u Hr; destruct (H3 u Hr)]. }
  destruct (size2 =? 0); [apply Herr; discriminate|].
  destruct (calc_block_szx size2) as [szx| | |] eqn:E1; try (apply Herr; discriminate).
  apply szx_ok in E1 as [Hszx Hsz].
  destruct have as [resp|].
  - pose proof (block2_resp_spec req resp buf size2 szx 0 (Hh _ eq_refl) Hszx Hsz ltac:(lia) Hl) as Hs.
    destruct (block2_resp req resp buf size2 0) as [buf1 r|buf1 size' szx' start'].
    + destruct Hs as (S1 & S2 & S3 & S4). exists [], buf1, r. split; [rewrite app_nil_r; reflexivity|]. split; [rewrite lenN_nil; lia|].
      split; [exact S1|]. split; [|split; [intros _ Hr; contradiction|intros u Hr; right; exists resp; auto]].
      intros n r' Hr Hn. destruct (S2 n r' Hr Hn) as [-> Hd]. cbn [download_responses responses]. split; [exact Hd|].
      split; [exists []; reflexivity|constructor].
    + destruct Hs as (S1 & S2 & S3 & S4 & S5 & S6 & S7).
      assert (Hlen1 : lenN buf1 = lenN buf).
      { rewrite S6, !lenN_app, lenN_firstn, lenN_skipn. lia. }
      destruct (download_inv f req Hf W fuel h buf1 size' szx' start') as (h' & buf' & r & D1 & D2 & D3 & D4 & D5 & D6);
        [lia|exact S1|exact S2|lia|].
      rewrite Hlen1 in *. exists h', buf', r. split; [exact D1|]. split; [lia|]. split; [exact D3|].
      split; [|split; [intro; apply D5; lia|intros u Hr; apply (blame_some resp None), D6, Hr]].
      intros n r' Hr Hn. destruct (D4 n r' Hr Hn) as (G1 & (rs & G2) & G3). cbn [download_responses].
      split; [|split; [exists (resp :: rs); rewrite G2; reflexivity|exact G3]].
      apply downloaded_cons with (size' := size'); auto.
      * lia.
      * rewrite G2. destruct rs; discriminate.
      * rewrite <- S4, <- S3, <- S6. rewrite <- S4 in G1. exact G1.
  - destruct (download_inv f req Hf W fuel h buf size2 szx 0) as (h' & buf' & r & D1 & D2 & D3 & D4 & D5 & D6);
      [exact Hl|exact Hszx|exact Hsz|lia|].
    rewrite N.sub_0_r in *. exists h', buf', r. auto 10.
Qed.

(** What a whole transfer did, as far as the client can see. *)
Definition transfer_result (req : msg) (have : option msg) (size2 : N) (buf : list N) (fuel : nat)
           (h : exchanges) (buf' : list N) (r : res (N * msg)) : Prop :=
  lenN h <= 2 * (lenN buf / 16 + 1) /\ lenN buf' = lenN buf /\
  (lenN buf / 16 < N.of_nat fuel -> r = OutOfFuel -> ended h (A:=msg) OutOfFuel) /\
  (forall u, r = UB u -> blame have h u) /\
  forall n resp, r = Ok (n, resp) -> n <> 0 ->
    exists up down rs, h = up ++ down /\
    ((m_detail req = M_GET /\ up = [] /\ rs = download_responses have down) \/
     ((m_detail req = M_PUT \/ m_detail req = M_POST) /\
      exists r0, uploaded req buf 0 up (lenN buf) r0 /\ rs = download_responses (Some r0) down)) /\
    n <= lenN buf /\ firstn (N.to_nat n) buf' = concat (map m_payload rs) /\
    skipn (N.to_nat n) buf' = skipn (N.to_nat n) buf /\
    download_from 0 size2 rs /\ (exists rs0, rs = rs0 ++ [resp]).

Lemma downloaded_split buf buf' size rs n : downloaded buf buf' 0 size rs n ->
  n <= lenN buf /\ firstn (N.to_nat n) buf' = payloads rs /\ skipn (N.to_nat n) buf' = skipn (N.to_nat n) buf /\
  download_from 0 size rs.
Proof.
  intros (H1 & H2 & H3 & H4). rewrite N.add_0_l in H1. change (N.to_nat 0) with 0%nat in H3. cbn [firstn app] in H3.
  split; [exact H2|]. rewrite H3, H1. rewrite firstn_lenN_app, skipn_lenN_app. rewrite <- H1. auto.
Qed.

Lemma ended_app {A} h1 h2 (r : res A) : ended h2 r -> ended (h1 ++ h2) r.
Proof.
  intros (h0 & m & H). exists (h1 ++ h0), m. destruct r; [exact H| | |]; rewrite H, app_assoc; reflexivity.
Qed.

Lemma transfer_spec (f : server) req have size1 size2 buf fuel :
  server_ok f -> (forall r, have = Some r -> resp_ok r) -> copied req -> lenN buf < 9223372036854775808 ->
  with_num OP_BLOCK1 (m_ops req) = [] ->
  exists h buf' r, exchange_blockwise (server_exch f) fuel [] req have size1 size2 buf = (h, buf', r) /\
    transfer_result req have size2 buf fuel h buf' r.
Proof.
  intros Hf Hh W Hl Hno. unfold exchange_blockwise.
  destruct (N.eqb_spec (m_detail req) M_GET) as [Eg|Eg].
  - destruct (blockwise2_spec f req have buf size2 fuel [] Hf Hh W Hl) as (h & buf' & r & H1 & H2 & H3 & H4 & H5 & H6).
    cbn [app] in H1. exists h, buf', r. split; [exact H1|]. split; [lia|]. split; [exact H3|]. split; [exact H5|]. split; [exact H6|].
    intros n resp Hr Hn. destruct (H4 n resp Hr Hn) as (G1 & G2 & _). apply downloaded_split in G1 as (D1 & D2 & D3 & D4).
    exists [], h, (download_responses have h). split; [reflexivity|]. split; [left; auto|]. auto 10.
  - destruct ((m_detail req =? M_PUT) || (m_detail req =? M_POST)) eqn:Ep.
    2: { exists [], buf, (Err EINVAL). split; [reflexivity|]. split; [rewrite lenN_nil; lia|]. split; [reflexivity|].
         repeat split; discriminate. }
    apply orb_true_iff in Ep. rewrite !N.eqb_eq in Ep.
    destruct (blockwise1_spec f req buf size1 size2 fuel [] Hf W Hl Hno) as (up & r & H1 & H2 & H3 & H4 & H5).
    rewrite H1. cbn [app].
    assert (Hstop : forall r', (forall n x, r' = Ok (n, x) -> n = 0) ->
      (lenN buf / 16 < N.of_nat fuel -> r' = OutOfFuel -> ended up (A:=msg) OutOfFuel) ->
      (forall u, r' = UB u -> blame have up u) ->
      exists h buf' r0, (up, buf, r') = (h, buf', r0) /\ transfer_result req have size2 buf fuel h buf' r0).
    { intros r' G1 G2 G3. exists up, buf, r'. split; [reflexivity|]. split; [lia|]. split; [reflexivity|].
      split; [exact G2|]. split; [exact G3|]. intros n x Hr Hn. destruct Hn. eapply G1. exact Hr. }
    destruct r as [[n resp]|e|u|]; [|apply Hstop; [discriminate|discriminate|discriminate]
       |apply Hstop; [discriminate|discriminate|intros u0 Hu; apply (blame_some msg_create have), H5, Hu]|apply Hstop; [discriminate|exact H4|discriminate]].
    destruct (N.eqb_spec n 0) as [E0|E0].
    { apply Hstop; [intros n' x Hr; congruence|discriminate|discriminate]. }
    destruct (lenN (m_payload resp) =? 0).
    { apply Hstop; [intros n' x Hr; congruence|discriminate|discriminate]. }
    specialize (H3 n resp eq_refl E0). assert (Hn : n = lenN buf) by apply H3. rewrite Hn in H3.
    destruct (blockwise2_spec f req (Some resp) buf size2 fuel up Hf) as (down & buf' & r & G1 & G2 & G3 & G4 & G5 & G6);
      [intros r Hr; injection Hr as <-; apply H3|exact W|exact Hl|].
    rewrite G1. exists (up ++ down), buf', r. split; [reflexivity|]. split; [rewrite lenN_app; lia|]. split; [exact G3|].
    split; [intros A B; apply ended_app, G5; assumption|]. split.
    { intros u A. destruct (G6 u A) as [B|(x & [B|B] & E)]; [left; apply ended_app; exact B|right; exists x..].
      - injection B as <-. destruct H3 as (_ & _ & _ & _ & (h0 & m0 & ->) & _). split; [right|exact E]. rewrite !responses_app. cbn [responses]. rewrite !in_app_iff. left. right. left. reflexivity.
      - split; [right|exact E]. rewrite responses_app, in_app_iff. right. exact B. }
    intros n' resp' Hr Hn'. destruct (G4 n' resp' Hr Hn') as (D & D' & _). apply downloaded_split in D as (D1 & D2 & D3 & D4).
    exists up, down, (download_responses (Some resp) down). split; [reflexivity|]. split; [right; eauto|]. auto 10.
Qed.

(** ** Any exchange function is a server *)

Section Sim.
Context {St : Type} (exch : St -> msg -> St * res msg) (st0 : St) (P : St -> Prop).
Hypothesis HP0 : P st0.
Hypothesis HP : forall st m, P st -> P (fst (exch st m)) /\
  forall resp, snd (exch st m) = Ok resp -> resp_ok resp.

Definition as_server : server := fun h m => snd (exch (replay exch st0 h) m).

Lemma replay_snoc h m r : replay exch st0 (h ++ [(m, r)]) = fst (exch (replay exch st0 h) m).
Proof. unfold replay. rewrite fold_left_app. reflexivity. Qed.

Lemma replay_P h : P (replay exch st0 h).
Proof.
  induction h as [|[m r] h IH] using rev_ind; [exact HP0|]. rewrite replay_snoc. apply HP. exact IH.
Qed.

Lemma as_server_ok : server_ok as_server.
Proof. intros h m resp H. exact (proj2 (HP _ m (replay_P h)) resp H). Qed.

(** The logs that occur. *)
Definition logged (h : exchanges) : Prop := performed exch st0 h (replay exch st0 h).

Lemma performed_snoc st h st' m st'' r : performed exch st h st' -> exch st' m = (st'', r) -> performed exch st (h ++ [(m, r)]) st''.
Proof.
  induction 1; intro H'; cbn [app]; econstructor; eauto. constructor.
Qed.

Lemma logged_nil : logged [].
Proof. constructor. Qed.
Lemma logged_snoc h m : logged h -> logged (h ++ [(m, as_server h m)]).
Proof.
  intro H. unfold logged. rewrite replay_snoc. eapply performed_snoc; [exact H|]. unfold as_server.
  destruct (exch (replay exch st0 h) m); reflexivity.
Qed.

Definition sim {A} (o1 : St * A) (o2 : exchanges * A) : Prop :=
  snd o1 = snd o2 /\ fst o1 = replay exch st0 (fst o2) /\ logged (fst o2).
Definition sim3 {A B} (o1 : St * A * B) (o2 : exchanges * A * B) : Prop :=
  snd o1 = snd o2 /\ snd (fst o1) = snd (fst o2) /\ fst (fst o1) = replay exch st0 (fst (fst o2)) /\ logged (fst (fst o2)).

Lemma exch_sim h m : exch (replay exch st0 h) m = (replay exch st0 (h ++ [(m, as_server h m)]), as_server h m).
Proof. rewrite replay_snoc. unfold as_server. destruct (exch _ _); reflexivity. Qed.

Lemma blockwise1_loop_sim fuel : forall h req body size size2 szx start, logged h ->
  sim (blockwise1_loop exch fuel (replay exch st0 h) req body size size2 szx start)
      (blockwise1_loop (server_exch as_server) fuel h req body size size2 szx start).
Proof.
  induction fuel as [|fuel IH]; intros h req body size size2 szx start Hh; cbn [blockwise1_loop]; [repeat split; exact Hh|].
  cbv zeta. destruct (block1_msg _ _ _ _ _ _ _ _) as [m|e|u|]; try (repeat split; exact Hh).
  rewrite exch_sim. unfold server_exch at 1. pose proof (logged_snoc h m Hh) as Hh'.
  destruct (as_server h m) as [resp|e|u|]; try (repeat split; exact Hh').
  destruct (negb _); [repeat split; exact Hh'|]. destruct (_ && _ && _); [repeat split; exact Hh'|].
  destruct (parse_block_op _ _) as [[b|]|e|u|]; try (repeat split; exact Hh').
  destruct (negb _); [repeat split; exact Hh'|]. destruct (calc_block_szx _); try (repeat split; exact Hh').
  destruct (_ <=? _); [repeat split; exact Hh'|]. apply IH. exact Hh'.
Qed.

Lemma blockwise1_sim fuel h req body size1 size2 : logged h ->
  sim (blockwise1 exch fuel (replay exch st0 h) req body size1 size2)
      (blockwise1 (server_exch as_server) fuel h req body size1 size2).
Proof.
  intro Hh. unfold blockwise1. destruct (_ || _); [repeat split; exact Hh|].
  destruct (calc_block_szx size1); try (repeat split; exact Hh).
  destruct (calc_block_szx size2); try (repeat split; exact Hh). apply blockwise1_loop_sim. exact Hh.
Qed.

Lemma blockwise2_loop_sim fuel : forall h req buf size szx start, logged h ->
  sim3 (blockwise2_loop exch fuel (replay exch st0 h) req buf size szx start)
       (blockwise2_loop (server_exch as_server) fuel h req buf size szx start).
Proof.
  induction fuel as [|fuel IH]; intros h req buf size szx start Hh; cbn [blockwise2_loop]; [repeat split; exact Hh|].
  destruct (block2_msg _ _ _ _) as [m|e|u|]; try (repeat split; exact Hh).
  rewrite exch_sim. unfold server_exch at 1. pose proof (logged_snoc h m Hh) as Hh'.
  destruct (as_server h m) as [resp|e|u|]; try (repeat split; exact Hh').
  destruct (block2_resp _ _ _ _ _); [repeat split; exact Hh'|]. apply IH. exact Hh'.
Qed.

Lemma blockwise2_sim fuel h req have buf size2 : logged h ->
  sim3 (blockwise2 exch fuel (replay exch st0 h) req have buf size2)
       (blockwise2 (server_exch as_server) fuel h req have buf size2).
Proof.
  intro Hh. unfold blockwise2. destruct (_ =? _); [repeat split; exact Hh|].
  destruct (calc_block_szx size2); try (repeat split; exact Hh).
  destruct have as [resp|]; [|apply blockwise2_loop_sim; exact Hh].
  destruct (block2_resp _ _ _ _ _); [repeat split; exact Hh|]. apply blockwise2_loop_sim. exact Hh.
Qed.

Lemma exchange_blockwise_sim fuel h req have size1 size2 buf : logged h ->
  sim3 (exchange_blockwise exch fuel (replay exch st0 h) req have size1 size2 buf)
       (exchange_blockwise (server_exch as_server) fuel h req have size1 size2 buf).
Proof.
  intro Hh. unfold exchange_blockwise. destruct (_ =? M_GET); [apply blockwise2_sim; exact Hh|].
  destruct (_ || _); [|repeat split; exact Hh].
  pose proof (blockwise1_sim fuel h req buf size1 size2 Hh) as Hs.
  destruct (blockwise1 exch fuel (replay exch st0 h) req buf size1 size2) as [st r].
  destruct (blockwise1 (server_exch as_server) fuel h req buf size1 size2) as [h' r'].
  destruct Hs as (E1 & E2 & E3). cbn [fst snd] in *. subst r' st.
  destruct r as [[n resp]|e|u|]; try (repeat split; exact E3).
  destruct (n =? 0); [repeat split; exact E3|]. destruct (_ =? 0); [repeat split; exact E3|].
  apply blockwise2_sim. exact E3.
Qed.

Lemma upload_any fuel req body size1 size2 :
  copied req -> lenN body < 9223372036854775808 -> with_num OP_BLOCK1 (m_ops req) = [] ->
  exists h st r, blockwise1 exch fuel st0 req body size1 size2 = (st, r) /\ performed exch st0 h st /\
    lenN h <= lenN body / 16 + 1 /\
    (forall n resp, r = Ok (n, resp) -> n <> 0 -> uploaded req body 0 h n resp) /\
    (lenN body / 16 < N.of_nat fuel -> r = OutOfFuel -> ended h (A:=msg) OutOfFuel) /\
    (forall u, r = UB u -> blame None h u).
Proof.
  intros W Hl Hno. destruct (blockwise1_spec as_server req body size1 size2 fuel [] as_server_ok W Hl Hno) as (h & r & H1 & H2).
  pose proof (blockwise1_sim fuel [] req body size1 size2 logged_nil) as (E1 & E2 & E3). rewrite H1 in E1, E2, E3.
  cbn [replay fold_left app fst snd] in *. exists h. destruct (blockwise1 exch fuel st0 req body size1 size2) as [st r'].
  cbn [fst snd] in *. subst. exists (replay exch st0 h), r. auto.
Qed.

Lemma transfer_any fuel req have size1 size2 buf :
  (forall r, have = Some r -> resp_ok r) -> copied req -> lenN buf < 9223372036854775808 ->
  with_num OP_BLOCK1 (m_ops req) = [] ->
  exists h st buf' r, exchange_blockwise exch fuel st0 req have size1 size2 buf = (st, buf', r) /\
    performed exch st0 h st /\ transfer_result req have size2 buf fuel h buf' r.
Proof.
  intros Hh W Hl Hno. destruct (transfer_spec as_server req have size1 size2 buf fuel as_server_ok Hh W Hl Hno) as (h & buf' & r & H1 & H2).
  pose proof (exchange_blockwise_sim fuel [] req have size1 size2 buf logged_nil) as (E1 & E2 & E3 & E4). rewrite H1 in E1, E2, E3, E4.
  cbn [replay fold_left app fst snd] in *. exists h. destruct (exchange_blockwise exch fuel st0 req have size1 size2 buf) as [[st b] r'].
  cbn [fst snd] in *. subst. exists (replay exch st0 h), buf', r. auto.
Qed.
End Sim.

(** ** The client as exchange function *)

Lemma adv_suffix p n p' : adv p n = Ok p' -> exists q, p = q ++ p'.
Proof. unfold adv. destruct (_ <=? _); [|discriminate]. intro H. injection H as <-. exists (firstn (N.to_nat n) p). symmetry. apply firstn_skipn. Qed.
Lemma adv_bytes p n p' : adv p n = Ok p' -> bytes_ok p -> bytes_ok p'.
Proof. intros H Hp. apply adv_suffix in H as [q ->]. apply bytes_ok_app in Hp. tauto. Qed.
Lemma rdn_bytes p n v : rdn p n = Ok v -> bytes_ok p -> bytes_ok v /\ lenN v = n.
Proof.
  unfold rdn. destruct (N.leb_spec n (lenN p)); [|discriminate]. intros H' Hp. injection H' as <-.
  rewrite <- (firstn_skipn (N.to_nat n) p) in Hp. apply bytes_ok_app in Hp as [Hp _].
  split; [exact Hp|]. rewrite lenN_firstn. lia.
Qed.

Lemma parse_ext_bytes sg v p len v' p' len' : parse_ext sg v p len = Ok (v', p', len') -> bytes_ok p -> bytes_ok p' /\ len' <= len.
Proof.
  unfold parse_ext. intros H Hp. destruct (v =? 13).
  - destruct (len <? 1); [discriminate|]. apply bind_ok in H as (b & _ & H). apply bind_ok in H as (q & Hq & H). injection H as _ <- <-.
    split; [eapply adv_bytes; eauto|lia].
  - destruct (v =? 14).
    + destruct (len <? 2); [discriminate|]. apply bind_ok in H as (b & _ & H). apply bind_ok in H as (b1 & _ & H).
      apply bind_ok in H as (q & Hq & H). injection H as _ <- <-. split; [eapply adv_bytes; eauto|lia].
    + injection H as _ <- <-. split; [exact Hp|lia].
Qed.

Lemma parse_op_bytes sg ops p len ops' p' len' : parse_op sg ops p len = Ok (ops', p', len') -> bytes_ok p -> vals_ok ops ->
  bytes_ok p' /\ vals_ok ops' /\ len' <= len.
Proof.
  unfold parse_op, parse_op_hdr. intros H Hp Ho. apply bind_ok in H as ([[[d l] p1] len1] & Hh & H).
  destruct (len <? 1); [discriminate|]. apply bind_ok in Hh as (b0 & _ & Hh). cbv zeta in Hh. destruct (_ || _); [discriminate|].
  apply bind_ok in Hh as (q1 & Hq1 & Hh). apply bind_ok in Hh as ([[d2 q2] l2] & Hq2 & Hh).
  apply bind_ok in Hh as ([[d3 q3] l3] & Hq3 & Hh). destruct (_ <? _); [discriminate|]. injection Hh as <- <- <- <-.
  apply bind_ok in H as (v & Hv & H). apply bind_ok in H as (q4 & Hq4 & H). injection H as <- <- <-.
  apply adv_bytes in Hq1; [|exact Hp]. apply parse_ext_bytes in Hq2 as [Hq2 ?]; [|exact Hq1]. apply parse_ext_bytes in Hq3 as [Hq3 ?]; [|exact Hq2].
  apply rdn_bytes in Hv as [Hv _]; [|exact Hq3]. split; [eapply adv_bytes; eauto|]. split; [|lia].
  apply Forall_app. split; [exact Ho|]. constructor; [exact Hv|constructor].
Qed.

Lemma parse_ops_bytes sg fuel : forall ops p len ops' p' len', parse_ops sg fuel ops p len = Ok (ops', p', len') -> bytes_ok p -> vals_ok ops ->
  bytes_ok p' /\ vals_ok ops' /\ len' <= len.
Proof.
  induction fuel as [|fuel IH]; intros ops p len ops' p' len'; cbn [parse_ops]; [discriminate|].
  intros H Hp Ho. apply bind_ok in H as (b & _ & H). destruct (_ || _).
  - injection H as <- <- <-. split; [exact Hp|]. split; [exact Ho|lia].
  - apply bind_ok in H as ([[o1 p1] l1] & H1 & H). apply parse_op_bytes in H1 as (A & B & D); auto.
    apply IH in H as (A' & B' & D'); auto. split; [exact A'|]. split; [exact B'|lia].
Qed.

Lemma parse_resp_ok sg p len m : msg_parse sg p len = Ok m -> bytes_ok p -> len < two32 -> resp_ok m.
Proof.
  unfold msg_parse. intros H Hp Hl. apply bind_ok in H as (m0 & Hr & H). apply bind_ok in H as (u & Hck & H). injection H as ->.
  unfold msg_parse_raw in Hr. apply bind_ok in Hr as (hd & Hh & Hr). apply bind_ok in Hr as (p1 & H1 & Hr). apply bind_ok in Hr as (tok & _ & Hr).
  apply bind_ok in Hr as (p2 & H2 & Hr). apply bind_ok in Hr as ([[ops p3] l3] & H3 & Hr).
  apply bind_ok in Hr as (pl & H4 & Hr). injection Hr as <-.
  apply adv_bytes in H1; [|exact Hp]. apply adv_bytes in H2; [|exact H1].
  apply parse_ops_bytes in H3 as (A & B & D); [|exact H2|constructor].
  split; [exact B|]. cbn [m_payload]. unfold parse_payload in H4. destruct (l3 =? 0).
  - injection H4 as <-. reflexivity.
  - apply bind_ok in H4 as (b & _ & H4). destruct (negb _); [discriminate|]. apply bind_ok in H4 as (p4 & H5 & H4).
    destruct (_ =? 0); [discriminate|]. apply adv_bytes in H5; [|exact A]. apply rdn_bytes in H4 as [_ H4]; [|exact H5]. lia.
Qed.

Lemma recv_ok E C s x s' m : client_recv E C s x = (s', Ok m) -> (forall b, x = RxData b -> bytes_ok b) -> resp_ok m.
Proof.
  unfold client_recv. destruct x as [b|e]; [|discriminate]. intros H Hb. specialize (Hb b eq_refl). cbv zeta in H.
  destruct (msg_parse (cf_sg C) (rx_buf b) (lenN (rx_cut b))) as [m'|e|u|] eqn:Ep; [|destruct e|discriminate|discriminate]; try discriminate.
  - injection H as _ <-. apply parse_resp_ok in Ep; [exact Ep| |].
    + unfold rx_buf, rx_cut. apply bytes_ok_app. split.
      * rewrite <- (firstn_skipn (N.to_nat MAX_BUF_LEN) b) in Hb. apply bytes_ok_app in Hb. tauto.
      * apply Forall_forall. intros y Hy. apply repeat_spec in Hy. subst. reflexivity.
    + pose proof (rx_cut_len b). unfold MAX_BUF_LEN, two32 in *. lia.
  - destruct (handle_format_error _ _ _ _) as [s2 r2]. injection H as _ H. destruct r2; discriminate.
Qed.

Lemma reject_bad_not_ok E s m s' r : reject_bad E s m = (s', Ok r) -> False.
Proof. unfold reject_bad. destruct (client_reject E s m) as [s1 [| | |]]; discriminate. Qed.
Lemma pb_ok E C s m s' r : handle_piggybacked_response E C s m = (s', Ok r) -> r = m.
Proof.
  unfold handle_piggybacked_response. destruct (negb _); intro H; [destruct (reject_bad_not_ok _ _ _ _ _ H)|]. congruence.
Qed.
Lemma sep_ok E C s m s' r : handle_sep_response E C s m = (s', Ok r) -> r = m.
Proof.
  unfold handle_sep_response. destruct (_ =? T_CON).
  - destruct (negb _); intro H; [destruct (reject_bad_not_ok _ _ _ _ _ H)|].
    destruct (client_send_ack E s m) as [s1 [| | |]]; try discriminate. congruence.
  - destruct (_ =? T_NON); [|intro H; destruct (reject_bad_not_ok _ _ _ _ _ H)].
    destruct (negb _); intro H; [destruct (reject_bad_not_ok _ _ _ _ _ H)|]. congruence.
Qed.

Lemma events_ok_tail e evs : events_ok (e :: evs) -> events_ok evs.
Proof. intros H t b Hin. apply (H t b). right. exact Hin. Qed.

Definition good (o : oc) : Prop :=
  match o with
  | Done _ evs r => events_ok evs /\ forall m, r = Ok m -> resp_ok m
  | Waiting _ => True
  end.

Lemma good_done s evs (r : res msg) : events_ok evs -> (forall m, r = Ok m -> resp_ok m) -> good (Done s evs r).
Proof. split; assumption. Qed.

Ltac gd He := apply good_done; [exact (events_ok_tail _ _ He)|try discriminate].

Lemma fail_not_ok {A} (r : res A) m : fail r = Ok m -> False.
Proof. destruct r; discriminate. Qed.

Lemma sep_good E C req evs : forall s, events_ok evs -> good (exchange_sep E C req s evs).
Proof.
  induction evs as [|[t ev] evs IH]; intros s He; cbn [exchange_sep]; [exact I|].
  destruct ev as [e|x|]; [gd He| |gd He].
  destruct (client_recv E C (at_time s t) x) as [s1 r1] eqn:Er.
  destruct r1 as [m|e|u|]; [|destruct e; try (gd He); apply IH; exact (events_ok_tail _ _ He)|gd He|gd He].
  apply recv_ok in Er; [|intros b ->; apply (He t); left; reflexivity].
  destruct (_ =? m_id req).
  - destruct (_ =? T_ACK); [apply IH; exact (events_ok_tail _ _ He)|].
    destruct (_ =? T_RST); [gd He|]. destruct (reject_bad E s1 m) as [s2 r2] eqn:Ej. unfold done. cbn [fst snd]. gd He.
    intros m' ->. destruct (reject_bad_not_ok _ _ _ _ _ Ej).
  - destruct (match_token req m).
    + destruct (handle_sep_response E C s1 m) as [s2 r2] eqn:Eh. unfold done. cbn [fst snd]. gd He.
      intros m' ->. apply sep_ok in Eh. subst. exact Er.
    + destruct (client_reject E s1 m) as [s2 [| | |]]; try (gd He). apply IH; exact (events_ok_tail _ _ He).
Qed.

Lemma non_good E C req evs : forall s, events_ok evs -> good (exchange_non E C req s evs).
Proof.
  induction evs as [|[t ev] evs IH]; intros s He; cbn [exchange_non]; [exact I|].
  destruct ev as [e|x|]; [gd He| |gd He].
  destruct (client_recv E C (at_time s t) x) as [s1 r1] eqn:Er.
  destruct r1 as [m|e|u|]; [|destruct e; try (gd He); apply IH; exact (events_ok_tail _ _ He)|gd He|gd He].
  apply recv_ok in Er; [|intros b ->; apply (He t); left; reflexivity].
  destruct (_ =? m_id req).
  - destruct (_ =? T_RST); [gd He|]. destruct (reject_bad E s1 m) as [s2 r2] eqn:Ej. unfold done. cbn [fst snd]. gd He.
    intros m' ->. destruct (reject_bad_not_ok _ _ _ _ _ Ej).
  - destruct (match_token req m).
    + destruct (handle_sep_response E C s1 m) as [s2 r2] eqn:Eh. unfold done. cbn [fst snd]. gd He.
      intros m' ->. apply sep_ok in Eh. subst. exact Er.
    + destruct (client_reject E s1 m) as [s2 [| | |]]; try (gd He). apply IH; exact (events_ok_tail _ _ He).
Qed.

Lemma con_good E C req evs : forall s, events_ok evs -> good (exchange_con E C req s evs).
Proof.
  induction evs as [|[t ev] evs IH]; intros s He; cbn [exchange_con]; [exact I|].
  destruct ev as [e|x|]; [gd He| |].
  2: { destruct (handle_ack_timeout _ _ _) as [s1 [| | |]]; try (gd He). apply IH; exact (events_ok_tail _ _ He). }
  destruct (client_recv E C (at_time s t) x) as [s1 r1] eqn:Er.
  destruct r1 as [m|e|u|]; [|destruct e; try (gd He); apply IH; exact (events_ok_tail _ _ He)|gd He|gd He].
  apply recv_ok in Er; [|intros b ->; apply (He t); left; reflexivity].
  destruct (_ =? m_id req).
  - destruct (_ =? T_ACK).
    + destruct (msg_is_empty m); [apply sep_good; exact (events_ok_tail _ _ He)|].
      destruct (match_token req m).
      * destruct (handle_piggybacked_response E C s1 m) as [s2 r2] eqn:Eh. unfold done. cbn [fst snd]. gd He.
        intros m' ->. apply pb_ok in Eh. subst. exact Er.
      * destruct (reject_bad E s1 m) as [s2 r2] eqn:Ej. unfold done. cbn [fst snd]. gd He.
        intros m' ->. destruct (reject_bad_not_ok _ _ _ _ _ Ej).
    + destruct (_ =? T_RST); [gd He|]. destruct (reject_bad E s1 m) as [s2 r2] eqn:Ej. unfold done. cbn [fst snd]. gd He.
      intros m' ->. destruct (reject_bad_not_ok _ _ _ _ _ Ej).
  - destruct (match_token req m).
    + destruct (handle_sep_response E C s1 m) as [s2 r2] eqn:Eh. unfold done. cbn [fst snd]. gd He.
      intros m' ->. apply sep_ok in Eh. subst. exact Er.
    + destruct (client_reject E s1 m) as [s2 [| | |]]; try (gd He). apply IH; exact (events_ok_tail _ _ He).
Qed.

Lemma exchange_good E C s req evs : events_ok evs -> good (exchange E C s req evs).
Proof.
  intro He. unfold exchange. destruct (_ || _); [split; [exact He|discriminate]|].
  destruct (prepare_req E s req) as [s1 r1] eqn:Ep.
  pose proof (prepare_req_spec _ _ _ _ _ Ep) as (i & tok & -> & _).
  destruct (client_send E s1 _) as [s2 [| | |]]; try (split; [exact He|discriminate]).
  destruct (_ =? T_CON); [apply con_good; exact He|]. destruct (_ =? T_NON); [apply non_good; exact He|].
  split; [exact He|discriminate].
Qed.

Definition client_P (st : cst * list event) : Prop := events_ok (snd st).
Lemma client_P_step E C st m : client_P st -> client_P (fst (client_exch E C st m)) /\
  forall resp, snd (client_exch E C st m) = Ok resp -> resp_ok resp.
Proof.
  intro H. unfold client_exch. pose proof (exchange_good E C (fst st) m (snd st) H) as G.
  destruct (exchange E C (fst st) m (snd st)) as [s evs r|s]; cbn [fst snd]; [exact G|].
  split; [intros t b []|discriminate].
Qed.

(** ** Recording *)

Section Recording.
Context {St : Type} (exch : St -> msg -> St * res msg).

Definition erase {A} (o : (St * exchanges) * A) : St * A := (fst (fst o), snd o).
Definition erase3 {A B} (o : (St * exchanges) * A * B) : St * A * B := (fst (fst (fst o)), snd (fst o), snd o).

Lemma recording_eq st h m : recording exch (st, h) m = ((fst (exch st m), h ++ [(m, snd (exch st m))]), snd (exch st m)).
Proof. unfold recording. cbn [fst snd]. destruct (exch st m); reflexivity. Qed.

Lemma loop1_recording fuel : forall st h req body size size2 szx start,
  erase (blockwise1_loop (recording exch) fuel (st, h) req body size size2 szx start)
  = blockwise1_loop exch fuel st req body size size2 szx start.
Proof.
  induction fuel as [|fuel IH]; intros st h req body size size2 szx start; cbn [blockwise1_loop]; [reflexivity|].
  cbv zeta. destruct (block1_msg _ _ _ _ _ _ _ _) as [m|e|u|]; try reflexivity.
  rewrite recording_eq. destruct (exch st m) as [st1 r]. cbn [fst snd].
  destruct r as [resp|e|u|]; try reflexivity.
  destruct (negb _); [reflexivity|]. destruct (_ && _ && _); [reflexivity|].
  destruct (parse_block_op _ _) as [[b|]|e|u|]; try reflexivity.
  destruct (negb _); [reflexivity|]. destruct (calc_block_szx _); try reflexivity.
  destruct (_ <=? _); [reflexivity|]. apply IH.
Qed.

Lemma blockwise1_recording fuel st h req body size1 size2 :
  erase (blockwise1 (recording exch) fuel (st, h) req body size1 size2) = blockwise1 exch fuel st req body size1 size2.
Proof.
  unfold blockwise1. destruct (_ || _); [reflexivity|]. destruct (calc_block_szx size1); try reflexivity.
  destruct (calc_block_szx size2); try reflexivity. apply loop1_recording.
Qed.

Lemma loop2_recording fuel : forall st h req buf size szx start,
  erase3 (blockwise2_loop (recording exch) fuel (st, h) req buf size szx start)
  = blockwise2_loop exch fuel st req buf size szx start.
Proof.
  induction fuel as [|fuel IH]; intros st h req buf size szx start; cbn [blockwise2_loop]; [reflexivity|].
  destruct (block2_msg _ _ _ _) as [m|e|u|]; try reflexivity.
  rewrite recording_eq. destruct (exch st m) as [st1 r]. cbn [fst snd].
  destruct r as [resp|e|u|]; try reflexivity.
  destruct (block2_resp _ _ _ _ _); [reflexivity|]. apply IH.
Qed.

Lemma blockwise2_recording fuel st h req have buf size2 :
  erase3 (blockwise2 (recording exch) fuel (st, h) req have buf size2) = blockwise2 exch fuel st req have buf size2.
Proof.
  unfold blockwise2. destruct (_ =? _); [reflexivity|]. destruct (calc_block_szx size2); try reflexivity.
  destruct have as [resp|]; [|apply loop2_recording].
  destruct (block2_resp _ _ _ _ _); [reflexivity|]. apply loop2_recording.
Qed.

Lemma exchange_blockwise_recording fuel st h req have size1 size2 buf :
  erase3 (exchange_blockwise (recording exch) fuel (st, h) req have size1 size2 buf)
  = exchange_blockwise exch fuel st req have size1 size2 buf.
Proof.
  unfold exchange_blockwise. destruct (_ =? M_GET); [apply blockwise2_recording|].
  destruct (_ || _); [|reflexivity].
  rewrite <- (blockwise1_recording fuel st h). unfold erase.
  destruct (blockwise1 (recording exch) fuel (st, h) req buf size1 size2) as [[st1 h1] r]. cbn [fst snd].
  destruct r as [[n resp]|e|u|]; try reflexivity.
  destruct (n =? 0); [reflexivity|]. destruct (_ =? 0); [reflexivity|]. apply blockwise2_recording.
Qed.

Lemma erase_eq {A} (o : (St * exchanges) * A) : erase o = let '((st, _), r) := o in (st, r).
Proof. destruct o as [[st h] r]. reflexivity. Qed.
Lemma erase3_eq {A B} (o : (St * exchanges) * A * B) : erase3 o = let '((st, _), b, r) := o in (st, b, r).
Proof. destruct o as [[[st h] b] r]. reflexivity. Qed.

Lemma performed_recording st h0 st' h h' : performed (recording exch) (st, h0) h (st', h') ->
  h' = h0 ++ h /\ performed exch st h st'.
Proof.
  revert st h0. induction h as [|[m r] h IH]; intros st h0 H.
  - inversion H; subst. rewrite app_nil_r. split; [reflexivity|constructor].
  - inversion H as [|? ? [st1 h1] ? ? ? H1 H2]; subst. rewrite recording_eq in H1. injection H1 as E1 E2 E3. subst.
    apply IH in H2 as [-> H2]. rewrite <- app_assoc. split; [reflexivity|].
    econstructor; [|exact H2]. destruct (exch st m); reflexivity.
Qed.
End Recording.

Lemma recording_P {St} (exch : St -> msg -> St * res msg) (P : St -> Prop) :
  (forall st m, P st -> P (fst (exch st m)) /\ forall resp, snd (exch st m) = Ok resp -> resp_ok resp) ->
  forall st m, P (fst st) -> P (fst (fst (recording exch st m))) /\
    forall resp, snd (recording exch st m) = Ok resp -> resp_ok resp.
Proof.
  intros H [st h] m Hp. rewrite recording_eq. cbn [fst snd] in *. exact (H st m Hp).
Qed.

Definition rec_exch (E : env) (C : cfg) := recording (client_exch E C).
Definition rec_P (st : (cst * list event) * exchanges) : Prop := client_P (fst st).
Lemma rec_P_step E C st m : rec_P st -> rec_P (fst (rec_exch E C st m)) /\
  forall resp, snd (rec_exch E C st m) = Ok resp -> resp_ok resp.
Proof. exact (recording_P (client_exch E C) client_P (client_P_step E C) st m). Qed.

Lemma client_upload E C s evs l body size1 size2 fuel st' h n resp :
  events_ok evs -> Forall setter_ok l ->
  let req := msg_build l in
  with_num OP_BLOCK1 (m_ops req) = [] -> lenN body < 9223372036854775808 ->
  blockwise1 (recording (client_exch E C)) fuel ((s, evs), []) req body size1 size2 = ((st', h), Ok (n, resp)) -> n <> 0 ->
  n = lenN body /\ concat (map m_payload (map fst h)) = body /\ upload_from 0 (map fst h) /\
  Forall (same_request req) (map fst h).
Proof.
  intros He Hl req Hno Hb Hr Hn.
  destruct (upload_any (rec_exch E C) ((s, evs), []) rec_P He (rec_P_step E C) fuel req body size1 size2 (wf_copied _ (wf_build l Hl)) Hb Hno)
    as (h0 & st & r & H1 & H2 & _ & H3 & _).
  unfold rec_exch in H1. rewrite Hr in H1. injection H1 as <- <-.
  apply performed_recording in H2 as [-> _]. cbn [app].
  destruct (H3 _ _ eq_refl Hn) as (U1 & U2 & U3 & U4 & _). auto 10.
Qed.

Lemma client_download E C s evs l have buf size1 size2 fuel st' h buf' n resp :
  events_ok evs -> (forall r, have = Some r -> resp_ok r) -> Forall setter_ok l ->
  let req := msg_build l in
  with_num OP_BLOCK1 (m_ops req) = [] -> lenN buf < 9223372036854775808 ->
  exchange_blockwise (recording (client_exch E C)) fuel ((s, evs), []) req have size1 size2 buf = ((st', h), buf', Ok (n, resp)) -> n <> 0 ->
  exists up down rs,
    h = up ++ down /\
    ((m_detail req = M_GET /\ up = [] /\ rs = download_responses have down) \/
     ((m_detail req = M_PUT \/ m_detail req = M_POST) /\
      concat (map m_payload (map fst up)) = buf /\ upload_from 0 (map fst up) /\
      exists up0 m r0, up = up0 ++ [(m, Ok r0)] /\ rs = r0 :: responses down)) /\
    n <= lenN buf /\ firstn (N.to_nat n) buf' = concat (map m_payload rs) /\
    skipn (N.to_nat n) buf' = skipn (N.to_nat n) buf /\
    download_from 0 size2 rs /\ (exists rs0, rs = rs0 ++ [resp]).
Proof.
  intros He Hh Hl req Hno Hb Hr Hn.
  destruct (transfer_any (rec_exch E C) ((s, evs), []) rec_P He (rec_P_step E C) fuel req have size1 size2 buf Hh (wf_copied _ (wf_build l Hl)) Hb Hno)
    as (h0 & st & b & r & H1 & H2 & (_ & _ & _ & _ & H3)).
  unfold rec_exch in H1. rewrite Hr in H1. injection H1 as <- <- <-.
  apply performed_recording in H2 as [-> _]. cbn [app].
  destruct (H3 _ _ eq_refl Hn) as (up & down & rs & -> & G1 & G2).
  exists up, down, rs. split; [reflexivity|]. split; [|exact G2].
  destruct G1 as [G1|(G1 & r0 & (U1 & U2 & U3 & U4 & (hh & m & U5) & _) & ->)]; [left; exact G1|right].
  split; [exact G1|]. split; [exact U2|]. split; [exact U3|]. exists hh, m, r0. auto.
Qed.

Lemma client_no_write_outside E C s evs l have buf size1 size2 fuel st' h buf' r :
  events_ok evs -> (forall r, have = Some r -> resp_ok r) -> Forall setter_ok l ->
  let req := msg_build l in
  with_num OP_BLOCK1 (m_ops req) = [] -> lenN buf < 9223372036854775808 ->
  exchange_blockwise (recording (client_exch E C)) fuel ((s, evs), []) req have size1 size2 buf = ((st', h), buf', r) ->
  lenN buf' = lenN buf /\ (r = UB OobWrite -> ended h (A:=msg) (UB OobWrite)).
Proof.
  intros He Hh Hl req Hno Hb Hr.
  destruct (transfer_any (rec_exch E C) ((s, evs), []) rec_P He (rec_P_step E C) fuel req have size1 size2 buf Hh (wf_copied _ (wf_build l Hl)) Hb Hno)
    as (h0 & st & b & r' & H1 & H2 & (_ & H3 & _ & H4 & _)).
  unfold rec_exch in H1. rewrite Hr in H1. injection H1 as <- <- <-.
  apply performed_recording in H2 as [-> _]. cbn [app]. split; [exact H3|]. intro Hu. apply (blame_write have), H4, Hu.
Qed.

Lemma client_transfer_ends E C s evs l have buf size1 size2 fuel st' h buf' r :
  events_ok evs -> (forall r, have = Some r -> resp_ok r) -> Forall setter_ok l ->
  let req := msg_build l in
  with_num OP_BLOCK1 (m_ops req) = [] -> lenN buf < 9223372036854775808 ->
  lenN buf / 16 < N.of_nat fuel ->
  exchange_blockwise (recording (client_exch E C)) fuel ((s, evs), []) req have size1 size2 buf = ((st', h), buf', r) ->
  lenN h <= 2 * (lenN buf / 16 + 1) /\ (r = OutOfFuel -> ended h (A:=msg) OutOfFuel).
Proof.
  intros He Hh Hl req Hno Hb Hf Hr.
  destruct (transfer_any (rec_exch E C) ((s, evs), []) rec_P He (rec_P_step E C) fuel req have size1 size2 buf Hh (wf_copied _ (wf_build l Hl)) Hb Hno)
    as (h0 & st & b & r' & H1 & H2 & (H3 & _ & H4 & _)).
  unfold rec_exch in H1. rewrite Hr in H1. injection H1 as <- <- <-.
  apply performed_recording in H2 as [-> _]. cbn [app]. auto.
Qed.
