From Verif Require Import BaseLemmas MsgModel MsgSpec.

(** ** Bits *)

Lemma lor_shiftl_add a n b : b < 2 ^ n -> N.lor (N.shiftl a n) b = a * 2 ^ n + b.
Proof.
  intro H.
  assert (N.land (N.shiftl a n) b = 0) as E.
  { apply N.bits_inj. intro m. rewrite N.land_spec, N.bits_0.
    destruct (N.ltb_spec m n) as [Hm|Hm].
    - rewrite N.shiftl_spec_low by exact Hm. reflexivity.
    - replace (N.testbit b m) with false; [apply andb_false_r|].
      symmetry. destruct (N.eq_dec b 0) as [->|Hb]; [apply N.bits_0|].
      apply N.bits_above_log2. apply N.log2_lt_pow2 in H; lia. }
  rewrite <- (N.lxor_lor _ _ E), <- (N.add_nocarry_lxor _ _ E), N.shiftl_mul_pow2. reflexivity.
Qed.

Lemma land_15 a : N.land a 15 = a mod 16.
Proof. change 15 with (N.ones 4). apply N.land_ones. Qed.
Lemma land_7 a : N.land a 7 = a mod 8.
Proof. change 7 with (N.ones 3). apply N.land_ones. Qed.
Lemma land_3 a : N.land a 3 = a mod 4.
Proof. change 3 with (N.ones 2). apply N.land_ones. Qed.
Lemma land_31 a : N.land a 31 = a mod 32.
Proof. change 31 with (N.ones 5). apply N.land_ones. Qed.
Lemma land_255 a : N.land a 255 = a mod 256.
Proof. change 255 with (N.ones 8). apply N.land_ones. Qed.
Lemma shiftr_4 a : N.shiftr a 4 = a / 16.
Proof. apply N.shiftr_div_pow2. Qed.
Lemma shiftr_5 a : N.shiftr a 5 = a / 32.
Proof. apply N.shiftr_div_pow2. Qed.
Lemma shiftr_6 a : N.shiftr a 6 = a / 64.
Proof. apply N.shiftr_div_pow2. Qed.
Lemma shiftr_8 a : N.shiftr a 8 = a / 256.
Proof. apply N.shiftr_div_pow2. Qed.
Lemma lor_8 a b : b < 256 -> N.lor (N.shiftl a 8) b = 256 * a + b.
Proof. intro H. rewrite lor_shiftl_add by exact H. change (2 ^ 8) with 256. lia. Qed.
Lemma lor_4 a b : b < 16 -> N.lor (N.shiftl a 4) b = 16 * a + b.
Proof. intro H. rewrite lor_shiftl_add by exact H. change (2 ^ 4) with 16. lia. Qed.
Lemma lor_5 a b : b < 32 -> N.lor (N.shiftl a 5) b = 32 * a + b.
Proof. intro H. rewrite lor_shiftl_add by exact H. change (2 ^ 5) with 32. lia. Qed.

(** ** A parser on lists, to which the model is reduced *)

Definition pext (sg : signedness) (nib : N) (b : list N) : option (N * list N) :=
  if nib =? 13 then
    match b with x :: b' => Some (add32 13 (char_to_unsigned sg x), b') | [] => None end
  else if nib =? 14 then
    match b with
    | x :: y :: b' => Some (269 + N.lor (N.shiftl x 8) y, b')
    | _ => None
    end
  else Some (nib, b).

Definition pophdr (sg : signedness) (b : list N) : option (N * N * list N) :=
  match b with
  | [] => None
  | b0 :: b1 =>
    let dn := N.land (N.shiftr b0 4) 15 in
    let ln := N.land b0 15 in
    if (dn =? 15) || (ln =? 15) then None else
    match pext sg dn b1 with
    | None => None
    | Some (d, b2) =>
      match pext sg ln b2 with
      | None => None
      | Some (l, b3) => if lenN b3 <? l then None else Some (d, l, b3)
      end
    end
  end.

Definition pop1 (sg : signedness) (b : list N) : option (N * list N * list N) :=
  match pophdr sg b with
  | None => None
  | Some (d, l, b3) => Some (d, firstn (N.to_nat l) b3, skipn (N.to_nat l) b3)
  end.

Fixpoint pops (sg : signedness) (fuel : nat) (acc : list op) (b : list N)
  : option (list op * list N) :=
  match fuel with
  | O => None
  | S fuel' =>
    match b with
    | [] => Some (acc, [])
    | b0 :: _ =>
      if N.land b0 255 =? 255 then Some (acc, b) else
      match pop1 sg b with
      | None => None
      | Some (d, v, b') =>
        pops sg fuel' (acc ++ [mkop (add32 (last_num acc) d) v]) b'
      end
    end
  end.

Lemma pext_len sg nib b v b' : pext sg nib b = Some (v, b') -> (length b' <= length b)%nat.
Proof.
  unfold pext. destruct (nib =? 13).
  - destruct b; [discriminate|]. intros [= _ <-]. cbn [length]. lia.
  - destruct (nib =? 14).
    + destruct b as [|x [|y b]]; try discriminate. intros [= _ <-]. cbn [length]. lia.
    + intros [= _ <-]. lia.
Qed.

Lemma pophdr_len sg b d l b' : pophdr sg b = Some (d, l, b') -> (length b' < length b)%nat.
Proof.
  unfold pophdr. destruct b as [|b0 b1]; [discriminate|].
  destruct (_ || _); [discriminate|].
  destruct (pext sg _ b1) as [[d' b2]|] eqn:E1; [|discriminate].
  destruct (pext sg _ b2) as [[l' b3]|] eqn:E2; [|discriminate].
  destruct (lenN b3 <? l'); [discriminate|]. intros [= _ _ <-].
  apply pext_len in E1. apply pext_len in E2. cbn [length]. lia.
Qed.

Lemma pop1_len sg b d v b' : pop1 sg b = Some (d, v, b') -> (length b' < length b)%nat.
Proof.
  unfold pop1. destruct (pophdr sg b) as [[[d' l] b3]|] eqn:E; [|discriminate].
  intros [= _ _ <-]. apply pophdr_len in E. rewrite skipn_length. lia.
Qed.

(** ** Reduction of the model to the list parser *)

Lemma rd_app_0 x b past : rd ((x :: b) ++ past) 0 = Ok x.
Proof. apply rd_cons_0. Qed.

Lemma rd_app_1 x y b past : rd ((x :: y :: b) ++ past) 1 = Ok y.
Proof.
  change 1 with (0 + 1). cbn [app]. rewrite rd_cons_S. apply rd_cons_0.
Qed.

Lemma parse_ext_red sg nib b past :
  parse_ext sg nib (b ++ past) (lenN b)
  = match pext sg nib b with
    | Some (v, b') => Ok (v, b' ++ past, lenN b')
    | None => Err EBADMSG
    end.
Proof.
  unfold parse_ext, pext. destruct (N.eqb_spec nib 13) as [->|_].
  - destruct b as [|x b].
    + reflexivity.
    + rewrite lenN_cons. destruct (N.ltb_spec (lenN b + 1) 1); [lia|].
      rewrite rd_app_0. cbn [bind app]. rewrite adv_cons_1. cbn [bind].
      replace (lenN b + 1 - 1) with (lenN b) by lia. reflexivity.
  - destruct (N.eqb_spec nib 14) as [->|_].
    + destruct b as [|x [|y b]].
      * reflexivity.
      * reflexivity.
      * rewrite !lenN_cons. destruct (N.ltb_spec (lenN b + 1 + 1) 2); [lia|].
        rewrite rd_app_0, rd_app_1. cbn [bind].
        change (adv ((x :: y :: b) ++ past) 2) with (adv ([x; y] ++ (b ++ past)) (lenN [x; y])). rewrite adv_app. cbn [bind].
        replace (lenN b + 1 + 1 - 2) with (lenN b) by lia. reflexivity.
    + reflexivity.
Qed.

Lemma parse_op_hdr_red sg b past :
  parse_op_hdr sg (b ++ past) (lenN b)
  = match pophdr sg b with
    | Some (d, l, b') => Ok (d, l, b' ++ past, lenN b')
    | None => Err EBADMSG
    end.
Proof.
  unfold parse_op_hdr, pophdr. destruct b as [|b0 b1]; [reflexivity|].
  rewrite lenN_cons. destruct (N.ltb_spec (lenN b1 + 1) 1); [lia|].
  rewrite rd_app_0. cbn [bind]. destruct (_ || _); [reflexivity|].
  cbn [app]. rewrite adv_cons_1. cbn [bind].
  replace (lenN b1 + 1 - 1) with (lenN b1) by lia. rewrite parse_ext_red.
  destruct (pext sg _ b1) as [[d b2]|]; [|reflexivity]. cbn [bind].
  rewrite parse_ext_red. destruct (pext sg _ b2) as [[l b3]|]; [|reflexivity]. cbn [bind].
  destruct (lenN b3 <? l); reflexivity.
Qed.

Lemma parse_op_red sg acc b past :
  parse_op sg acc (b ++ past) (lenN b)
  = match pop1 sg b with
    | Some (d, v, b') => Ok (acc ++ [mkop (add32 (last_num acc) d) v], b' ++ past, lenN b')
    | None => Err EBADMSG
    end.
Proof.
  unfold parse_op, pop1. rewrite parse_op_hdr_red.
  destruct (pophdr sg b) as [[[d l] b3]|] eqn:E; [|reflexivity]. cbn [bind].
  assert (l <= lenN b3) as Hl.
  { unfold pophdr in E. destruct b as [|b0 b1]; [discriminate|].
    destruct (_ || _); [discriminate|].
    destruct (pext sg _ b1) as [[d' b2]|]; [|discriminate].
    destruct (pext sg _ b2) as [[l' b3']|]; [|discriminate].
    destruct (N.ltb_spec (lenN b3') l'); [discriminate|]. injection E as <- <- <-. lia. }
  unfold rdn, adv. rewrite lenN_app. destruct (N.leb_spec l (lenN b3 + lenN past)); [|lia].
  cbn [bind]. unfold op_list_add_last. rewrite lenN_skipn.
  rewrite firstn_app, skipn_app.
  replace (N.to_nat l - length b3)%nat with 0%nat by (unfold lenN in Hl; lia).
  cbn [firstn skipn]. rewrite app_nil_r. reflexivity.
Qed.

Lemma parse_ops_red sg fuel acc b past :
  (length b < fuel)%nat ->
  parse_ops sg fuel acc (b ++ past) (lenN b)
  = match pops sg fuel acc b with
    | None => Err EBADMSG
    | Some (ops, b') =>
      match b' ++ past with
      | [] => UB OobRead
      | _ => Ok (ops, b' ++ past, lenN b')
      end
    end.
Proof.
  revert acc b. induction fuel as [|fuel IH]; intros acc b Hf; [lia|].
  cbn [parse_ops pops]. destruct b as [|b0 b].
  - cbn [app]. destruct past as [|x past]; [reflexivity|].
    rewrite rd_cons_0. cbn [bind]. rewrite orb_true_r. reflexivity.
  - rewrite rd_app_0. cbn [bind]. rewrite lenN_cons.
    destruct (N.eqb_spec (lenN b + 1) 0); [lia|]. rewrite orb_false_r.
    destruct (N.land b0 255 =? 255); [rewrite lenN_cons; reflexivity|].
    rewrite <- lenN_cons with (x := b0). rewrite parse_op_red.
    destruct (pop1 sg (b0 :: b)) as [[[d v] b']|] eqn:E; [|reflexivity]. cbn [bind].
    apply IH. apply pop1_len in E. cbn [length] in *. lia.
Qed.

(** The list parser with more fuel gives the same result. *)
Lemma pops_fuel sg f1 f2 acc b :
  (length b < f1)%nat -> (length b < f2)%nat -> pops sg f1 acc b = pops sg f2 acc b.
Proof.
  revert f2 acc b. induction f1 as [|f1 IH]; intros f2 acc b H1 H2; [lia|].
  destruct f2 as [|f2]; [lia|]. cbn [pops]. destruct b as [|b0 b]; [reflexivity|].
  destruct (N.land b0 255 =? 255); [reflexivity|].
  destruct (pop1 sg (b0 :: b)) as [[[d v] b']|] eqn:E; [|reflexivity].
  apply IH; apply pop1_len in E; cbn [length] in *; lia.
Qed.

Lemma pops_stop sg fuel acc b ops b' :
  pops sg fuel acc b = Some (ops, b') -> bytes_ok b ->
  b' = [] \/ exists t, b' = 255 :: t.
Proof.
  revert acc b. induction fuel as [|fuel IH]; intros acc b; cbn [pops]; [discriminate|].
  destruct b as [|b0 b]; [intros [= _ <-]; auto|].
  destruct (N.eqb_spec (N.land b0 255) 255) as [E|E].
  - intros [= _ <-] Hb. right. exists b. rewrite land_255 in E. apply bytes_ok_cons in Hb.
    f_equal. lia.
  - destruct (pop1 sg (b0 :: b)) as [[[d v] b2]|] eqn:E1; [|discriminate].
    intros H Hb. apply IH in H; [exact H|].
    clear IH H. unfold pop1 in E1. destruct (pophdr sg (b0 :: b)) as [[[d' l] b3]|] eqn:E2; [|discriminate].
    injection E1 as _ _ <-.
    assert (exists pre, b0 :: b = pre ++ b3) as [pre Hpre].
    { clear - E2. unfold pophdr in E2. destruct (_ || _); [discriminate|].
      destruct (pext sg _ b) as [[d1 b2]|] eqn:F1; [|discriminate].
      destruct (pext sg _ b2) as [[l1 b4]|] eqn:F2; [|discriminate].
      destruct (lenN b4 <? l1); [discriminate|]. injection E2 as _ _ <-.
      assert (G : forall nib x v y, pext sg nib x = Some (v, y) -> exists pre, x = pre ++ y).
      { clear. intros nib x v y. unfold pext. destruct (nib =? 13).
        - destruct x; [discriminate|]. intros [= _ <-]. exists [n]. reflexivity.
        - destruct (nib =? 14).
          + destruct x as [|x1 [|x2 x]]; try discriminate. intros [= _ <-]. exists [x1; x2]. reflexivity.
          + intros [= _ <-]. exists []. reflexivity. }
      destruct (G _ _ _ _ F1) as [p1 ->]. destruct (G _ _ _ _ F2) as [p2 ->].
      exists (b0 :: p1 ++ p2). cbn [app]. rewrite app_assoc. reflexivity. }
    rewrite Hpre in Hb. apply bytes_ok_app in Hb as [_ Hb].
    rewrite <- (firstn_skipn (N.to_nat l) b3) in Hb. apply bytes_ok_app in Hb. tauto.
Qed.

(** The pure parser of a whole datagram. *)
Definition pmsg (sg : signedness) (b : list N) : res (msg * bool) :=
  match b with
  | b0 :: b1 :: b2 :: b3 :: rest =>
    if negb (N.land (N.shiftr b0 6) 3 =? COAP_VER) then Err EINVAL else
    if MAX_TOKEN_LEN <? N.land b0 15 then Err EBADMSG else
    let class := N.land (N.shiftr b1 5) 7 in
    if negb (class =? CL_REQ) && negb (class =? CL_SUCCESS)
       && negb (class =? CL_CLIENT_ERR) && negb (class =? CL_SERVER_ERR)
    then Err EBADMSG else
    let tkl := N.land b0 15 in
    if lenN rest <? tkl then Err EBADMSG else
    let body := skipn (N.to_nat tkl) rest in
    match pops sg (S (length body)) [] body with
    | None => Err EBADMSG
    | Some (ops, pl) =>
      let m p := mkmsg COAP_VER (N.land (N.shiftr b0 4) 3) class (N.land b1 31)
                       (N.lor (N.shiftl b2 8) b3) (firstn (N.to_nat tkl) rest) ops p in
      match pl with
      | [] => Ok (m [], true)
      | [x] => Err EBADMSG
      | x :: y :: pl' => if N.land x 255 =? 255 then Ok (m (y :: pl'), false) else Err EBADMSG
      end
    end
  | _ => Err EBADMSG
  end.

Lemma rd_app_2 x y z b past : rd ((x :: y :: z :: b) ++ past) 2 = Ok z.
Proof.
  change 2 with (0 + 1 + 1). cbn [app]. rewrite !rd_cons_S. apply rd_cons_0.
Qed.
Lemma rd_app_3 x y z t b past : rd ((x :: y :: z :: t :: b) ++ past) 3 = Ok t.
Proof.
  change 3 with (0 + 1 + 1 + 1). cbn [app]. rewrite !rd_cons_S. apply rd_cons_0.
Qed.

Lemma pops_stop_any sg fuel acc b ops b' :
  pops sg fuel acc b = Some (ops, b') ->
  b' = [] \/ exists x t, b' = x :: t /\ N.land x 255 = 255.
Proof.
  revert acc b. induction fuel as [|fuel IH]; intros acc b; cbn [pops]; [discriminate|].
  destruct b as [|b0 b]; [intros [= _ <-]; auto|].
  destruct (N.eqb_spec (N.land b0 255) 255) as [E|E].
  - intros [= _ <-]. right. eauto.
  - destruct (pop1 sg (b0 :: b)) as [[[d v] b2]|]; [|discriminate]. apply IH.
Qed.

Lemma msg_parse_raw_red sg b past :
  msg_parse_raw sg (b ++ past) (lenN b)
  = match pmsg sg b with
    | Ok (m, at_end) =>
      if at_end && (match past with [] => true | _ => false end) then UB OobRead else Ok m
    | Err e => Err e
    | UB u => UB u
    | OutOfFuel => OutOfFuel
    end.
Proof.
  unfold msg_parse_raw, parse_hdr, pmsg.
  destruct b as [|b0 [|b1 [|b2 [|b3 rest]]]]; try reflexivity.
  rewrite !lenN_cons. destruct (N.ltb_spec (lenN rest + 1 + 1 + 1 + 1) 4); [lia|].
  rewrite rd_app_0, rd_app_1, rd_app_2, rd_app_3. cbn [bind].
  destruct (negb _); [reflexivity|].
  destruct (MAX_TOKEN_LEN <? N.land b0 15) eqn:Et; [reflexivity|].
  destruct (_ && _); [reflexivity|].
  cbn [bind h_tkl h_type h_class h_detail h_id].
  change (adv ((b0 :: b1 :: b2 :: b3 :: rest) ++ past) 4) with (adv ([b0; b1; b2; b3] ++ (rest ++ past)) (lenN [b0; b1; b2; b3])). rewrite adv_app. cbn [bind].
  replace (lenN rest + 1 + 1 + 1 + 1 - 4) with (lenN rest) by lia.
  unfold parse_token. destruct (N.ltb_spec (lenN rest) (N.land b0 15)) as [Hl|Hl]; [reflexivity|].
  set (tkl := N.land b0 15) in *. unfold rdn, adv. rewrite lenN_app.
  destruct (N.leb_spec tkl (lenN rest + lenN past)); [|lia]. cbn [bind].
  replace (lenN rest - tkl) with (lenN (skipn (N.to_nat tkl) rest)) by apply lenN_skipn.
  rewrite firstn_app, skipn_app.
  replace (N.to_nat tkl - length rest)%nat with 0%nat by (unfold lenN in Hl; lia).
  cbn [firstn skipn]. rewrite app_nil_r. set (body := skipn (N.to_nat tkl) rest).
  rewrite to_nat_lenN. rewrite parse_ops_red by lia.
  destruct (pops sg (S (length body)) [] body) as [[ops pl]|] eqn:E; [|reflexivity].
  destruct (pops_stop_any _ _ _ _ _ _ E) as [->|(x & t & -> & Hx)].
  - cbn [app]. destruct past as [|q past]; [reflexivity|]. reflexivity.
  - cbn [app bind]. unfold parse_payload. rewrite lenN_cons.
    destruct (N.eqb_spec (lenN t + 1) 0); [lia|]. rewrite rd_cons_0. cbn [bind].
    rewrite Hx. cbn [negb N.eqb Pos.eqb]. rewrite adv_cons_1. cbn [bind].
    replace (lenN t + 1 - 1) with (lenN t) by lia.
    destruct t as [|y t]; [reflexivity|].
    destruct (N.eqb_spec (lenN (y :: t)) 0) as [C|_]; [rewrite lenN_cons in C; lia|].
    rewrite rdn_app. reflexivity.
Qed.

(** ** The option grammar and the list parser *)

Definition sg_ok (sg : signedness) (v : N) : Prop := sg = UnsignedChar \/ ext_low v.

Lemma ext_enc_nib v nib e : ext_enc v nib e -> nib < 15.
Proof. destruct 1; lia. Qed.

Lemma ext_enc_bound v nib e : ext_enc v nib e -> v < 13 /\ e = [] \/ v < 269 /\ lenN e = 1 \/ v < 65805 /\ lenN e = 2.
Proof. destruct 1; [left|right; left|right; right]; split; try lia; reflexivity. Qed.

Lemma char_low sg b : b < 256 -> sg_ok sg (13 + b) -> char_to_unsigned sg b = b.
Proof.
  intros Hb [->|H]; [reflexivity|]. destruct sg; [|reflexivity]. cbn.
  unfold ext_low in H. destruct (N.ltb_spec b 128); [reflexivity|lia].
Qed.

Lemma pext_complete sg v nib e q :
  ext_enc v nib e -> sg_ok sg v -> pext sg nib (e ++ q) = Some (v, q).
Proof.
  intros H Hs. destruct H as [v Hv|b Hb|b1 b2 H1 H2]; unfold pext.
  - destruct (N.eqb_spec v 13); [lia|]. destruct (N.eqb_spec v 14); [lia|]. reflexivity.
  - destruct (N.eqb_spec 13 13); [|lia]. cbn [app]. rewrite char_low by assumption.
    unfold add32. rewrite N.mod_small; [reflexivity|]. unfold two32. lia.
  - destruct (N.eqb_spec 14 13); [lia|]. destruct (N.eqb_spec 14 14); [|lia]. cbn [app].
    rewrite lor_8 by exact H2. f_equal. f_equal. lia.
Qed.

Lemma pext_sound nib b v q :
  nib < 15 -> bytes_ok b -> pext UnsignedChar nib b = Some (v, q) ->
  exists e, b = e ++ q /\ ext_enc v nib e.
Proof.
  intros Hn Hb. unfold pext. destruct (N.eqb_spec nib 13) as [->|H13].
  - destruct b as [|x b]; [discriminate|]. intros [= <- <-]. apply bytes_ok_cons in Hb as [Hx Hb].
    exists [x]. split; [reflexivity|]. cbn [char_to_unsigned]. unfold add32.
    rewrite N.mod_small by (unfold two32; lia). constructor; exact Hx.
  - destruct (N.eqb_spec nib 14) as [->|H14].
    + destruct b as [|x [|y b]]; try discriminate. intros [= <- <-].
      apply bytes_ok_cons in Hb as [Hx Hb]. apply bytes_ok_cons in Hb as [Hy Hb].
      exists [x; y]. split; [reflexivity|]. rewrite lor_8 by exact Hy.
      replace (269 + (256 * x + y)) with (269 + 256 * x + y) by lia. constructor; assumption.
    + intros [= <- <-]. exists []. split; [reflexivity|]. constructor. lia.
Qed.

Lemma first_byte dn ln : dn < 15 -> ln < 15 ->
  N.land (N.shiftr (16 * dn + ln) 4) 15 = dn /\ N.land (16 * dn + ln) 15 = ln
  /\ N.land (16 * dn + ln) 255 <> 255 /\ 16 * dn + ln < 256.
Proof.
  intros H1 H2. rewrite shiftr_4, !land_15, land_255. repeat split; lia.
Qed.

Lemma pop1_complete sg delta dn dext val ln lext q :
  ext_enc delta dn dext -> ext_enc (lenN val) ln lext ->
  sg_ok sg delta -> sg_ok sg (lenN val) ->
  pop1 sg ((16 * dn + ln) :: dext ++ lext ++ val ++ q) = Some (delta, val, q).
Proof.
  intros Hd Hl Sd Sl. unfold pop1, pophdr.
  destruct (first_byte dn ln (ext_enc_nib _ _ _ Hd) (ext_enc_nib _ _ _ Hl)) as (E1 & E2 & _).
  rewrite E1, E2. pose proof (ext_enc_nib _ _ _ Hd). pose proof (ext_enc_nib _ _ _ Hl).
  destruct (N.eqb_spec dn 15); [lia|]. destruct (N.eqb_spec ln 15); [lia|]. cbn [orb].
  rewrite (pext_complete sg delta dn dext) by assumption.
  rewrite (pext_complete sg (lenN val) ln lext) by assumption.
  rewrite lenN_app. destruct (N.ltb_spec (lenN val + lenN q) (lenN val)); [lia|].
  rewrite firstn_lenN_app, skipn_lenN_app. reflexivity.
Qed.

Lemma pop1_sound b d v q :
  bytes_ok b -> pop1 UnsignedChar b = Some (d, v, q) ->
  exists dn dext ln lext,
    b = (16 * dn + ln) :: dext ++ lext ++ v ++ q /\
    ext_enc d dn dext /\ ext_enc (lenN v) ln lext /\ bytes_ok v /\ bytes_ok q.
Proof.
  intro Hb. unfold pop1, pophdr. destruct b as [|b0 b1]; [discriminate|].
  apply bytes_ok_cons in Hb as [H0 Hb].
  destruct (N.eqb_spec (N.land (N.shiftr b0 4) 15) 15) as [|Hdn]; [discriminate|].
  destruct (N.eqb_spec (N.land b0 15) 15) as [|Hln]; [discriminate|]. cbn [orb].
  rewrite shiftr_4 in *. rewrite !land_15 in *.
  destruct (pext UnsignedChar (b0 / 16 mod 16) b1) as [[d' b2]|] eqn:E1; [|discriminate].
  apply pext_sound in E1 as (dext & -> & Hd); [|lia|exact Hb].
  apply bytes_ok_app in Hb as [_ Hb].
  destruct (pext UnsignedChar (b0 mod 16) b2) as [[l b3]|] eqn:E2; [|discriminate].
  apply pext_sound in E2 as (lext & -> & Hl); [|lia|exact Hb].
  apply bytes_ok_app in Hb as [_ Hb].
  destruct (N.ltb_spec (lenN b3) l) as [|Hle]; [discriminate|]. intros [= <- <- <-].
  exists (b0 / 16 mod 16), dext, (b0 mod 16), lext. repeat split.
  - rewrite firstn_skipn. f_equal. lia.
  - exact Hd.
  - rewrite lenN_firstn, N.min_l by exact Hle. exact Hl.
  - rewrite <- (firstn_skipn (N.to_nat l) b3) in Hb. apply bytes_ok_app in Hb. tauto.
  - rewrite <- (firstn_skipn (N.to_nat l) b3) in Hb. apply bytes_ok_app in Hb. tauto.
Qed.

Lemma last_num_app l o : last_num (l ++ [o]) = o_num o.
Proof. unfold last_num. rewrite rev_app_distr. reflexivity. Qed.

Lemma delta_bound d dn dext : ext_enc d dn dext -> d <= 21935 * (lenN dext + 1).
Proof.
  destruct 1 as [v Hv|b Hb|b1 b2 H1 H2]; rewrite ?lenN_cons, ?(@lenN_nil N); lia.
Qed.

Definition stops (q : list N) : Prop := q = [] \/ exists t, q = 255 :: t.

Lemma exts_low_sg sg prev l : sg = UnsignedChar \/ exts_low prev l ->
  match l with
  | [] => True
  | o :: l' => sg_ok sg (o_num o - prev) /\ sg_ok sg (o_len o) /\
               (sg = UnsignedChar \/ exts_low (o_num o) l')
  end.
Proof.
  destruct l as [|o l]; [auto|]. unfold sg_ok. intros [->|(H1 & H2 & H3)]; auto.
Qed.

Lemma pops_complete sg os bs prev acc fuel q :
  ops_enc prev os bs -> last_num acc = prev ->
  (sg = UnsignedChar \/ exts_low prev os) ->
  prev + 21935 * lenN bs < two32 ->
  (length (bs ++ q) < fuel)%nat -> stops q ->
  pops sg fuel acc (bs ++ q) = Some (acc ++ os, q).
Proof.
  intro H. revert acc fuel. induction H as [prev|prev delta dn dext ln lext val os bs Hd Hl Hv Hos IH];
    intros acc fuel Hlast Hsg Hb Hf Hq.
  - cbn [app] in *. rewrite app_nil_r. destruct fuel as [|fuel]; [lia|]. cbn [pops].
    destruct Hq as [->|[t ->]]; [reflexivity|]. reflexivity.
  - destruct fuel as [|fuel]; [lia|]. cbn [pops app].
    destruct (first_byte dn ln (ext_enc_nib _ _ _ Hd) (ext_enc_nib _ _ _ Hl)) as (_ & _ & E3 & _).
    destruct (N.eqb_spec (N.land (16 * dn + ln) 255) 255) as [C|_]; [contradiction|].
    rewrite <- !app_assoc. apply exts_low_sg in Hsg as (S1 & S2 & S3). cbn [o_num] in *.
    replace (prev + delta - prev) with delta in S1 by lia.
    rewrite (pop1_complete sg delta dn dext val ln lext (bs ++ q)) by assumption.
    rewrite lenN_cons, !lenN_app in Hb. pose proof (delta_bound _ _ _ Hd).
    unfold add32. rewrite Hlast. rewrite N.mod_small by lia.
    rewrite IH; auto.
    + rewrite <- app_assoc. reflexivity.
    + apply last_num_app.
    + lia.
    + cbn [length app] in Hf. rewrite !app_length in Hf. rewrite app_length. lia.
Qed.

Lemma pops_sound fuel acc b ops q :
  bytes_ok b -> last_num acc + 21935 * lenN b < two32 ->
  pops UnsignedChar fuel acc b = Some (ops, q) ->
  exists os bs, ops = acc ++ os /\ b = bs ++ q /\ ops_enc (last_num acc) os bs /\ stops q.
Proof.
  revert acc b. induction fuel as [|fuel IH]; intros acc b Hb Hw; cbn [pops]; [discriminate|].
  destruct b as [|b0 b].
  - intros [= <- <-]. exists [], []. rewrite app_nil_r. repeat split; [constructor|left; reflexivity].
  - destruct (N.eqb_spec (N.land b0 255) 255) as [E|E].
    + intros [= <- <-]. exists [], []. rewrite app_nil_r. repeat split; [constructor|].
      right. exists b. rewrite land_255 in E. apply bytes_ok_cons in Hb. f_equal. lia.
    + destruct (pop1 UnsignedChar (b0 :: b)) as [[[d v] b']|] eqn:E1; [|discriminate].
      apply pop1_sound in E1 as (dn & dext & ln & lext & Heq & Hd & Hl & Hv & Hb'); [|exact Hb].
      rewrite Heq in Hw. rewrite lenN_cons, !lenN_app in Hw. pose proof (delta_bound _ _ _ Hd).
      unfold add32. rewrite N.mod_small by lia. intro H'.
      apply IH in H' as (os & bs & -> & -> & Hos & Hs); [|exact Hb'|rewrite last_num_app; cbn [o_num]; lia].
      rewrite last_num_app in Hos. cbn [o_num] in Hos.
      exists (mkop (last_num acc + d) v :: os), ((16 * dn + ln) :: dext ++ lext ++ v ++ bs).
      repeat split.
      * rewrite <- app_assoc. reflexivity.
      * rewrite Heq. cbn [app]. rewrite <- !app_assoc. reflexivity.
      * constructor; assumption.
      * exact Hs.
Qed.

(** ** Whole messages *)

Lemma check_consistent m : m_type m < 4 ->
  (msg_check m = Ok tt <-> consistent m).
Proof.
  intro Ht. unfold msg_check, consistent, T_NON, T_RST.
  destruct (N.eqb_spec (m_class m) 0) as [Hc|Hc]; cbn [andb].
  - destruct (N.eqb_spec (m_detail m) 0) as [Hd|Hd].
    + destruct (N.eqb_spec (m_type m) 1) as [H1|H1]; cbn [orb].
      { split; [discriminate|]. intros [C _]. destruct C; tauto. }
      destruct (N.eqb_spec (lenN (m_token m)) 0) as [H2|H2]; cbn [negb orb].
      2: { split; [discriminate|]. intros [C _]. destruct C as (_ & C & _); [tauto|]. rewrite C in H2. tauto. }
      destruct (N.eqb_spec (lenN (m_ops m)) 0) as [H3|H3]; cbn [negb orb].
      2: { split; [discriminate|]. intros [C _]. destruct C as (_ & _ & C & _); [tauto|]. rewrite C in H3. tauto. }
      destruct (N.eqb_spec (lenN (m_payload m)) 0) as [H4|H4]; cbn [negb orb].
      2: { split; [discriminate|]. intros [C _]. destruct C as (_ & _ & _ & C); [tauto|]. rewrite C in H4. tauto. }
      apply lenN_0 in H2, H3, H4. tauto.
    + destruct (N.eqb_spec (m_type m) 3).
      * split; [discriminate|]. intros [_ C]. tauto.
      * tauto.
  - destruct (N.eqb_spec (m_type m) 3).
    + split; [discriminate|]. intros [_ C]. tauto.
    + tauto.
Qed.

Lemma check_ub m : msg_check m = Ok tt \/ msg_check m = Err EBADMSG.
Proof.
  unfold msg_check. destruct (_ && _); [destruct (_ || _)|destruct (_ =? _)]; auto.
Qed.

Lemma pmsg_sound b m e :
  bytes_ok b -> lenN b < two16 -> pmsg UnsignedChar b = Ok (m, e) ->
  msg_check m = Ok tt -> encodes m b /\ (e = true <-> m_payload m = []).
Proof.
  intros Hb Hlen. unfold pmsg.
  destruct b as [|b0 [|b1 [|b2 [|b3 rest]]]]; try discriminate.
  apply bytes_ok_cons in Hb as [H0 Hb]. apply bytes_ok_cons in Hb as [H1 Hb].
  apply bytes_ok_cons in Hb as [H2 Hb]. apply bytes_ok_cons in Hb as [H3 Hb].
  rewrite shiftr_6, shiftr_5, shiftr_4, land_3, land_15, land_7, land_31, land_3, lor_8 by exact H3.
  unfold COAP_VER, MAX_TOKEN_LEN, CL_REQ, CL_SUCCESS, CL_CLIENT_ERR, CL_SERVER_ERR.
  destruct (N.eqb_spec (b0 / 64 mod 4) 1) as [Hver|]; [|discriminate]. cbn [negb].
  destruct (N.ltb_spec 8 (b0 mod 16)) as [|Htkl]; [discriminate|].
  destruct (negb (b1 / 32 mod 8 =? 0) && negb (b1 / 32 mod 8 =? 2)
      && negb (b1 / 32 mod 8 =? 4) && negb (b1 / 32 mod 8 =? 5)) eqn:Ecls; [discriminate|].
  destruct (N.ltb_spec (lenN rest) (b0 mod 16)) as [|Hle]; [discriminate|].
  set (tkl := b0 mod 16) in *.
  destruct (pops UnsignedChar _ [] _) as [[ops pl]|] eqn:E; [|discriminate].
  rewrite <- (firstn_skipn (N.to_nat tkl) rest) in Hb. apply bytes_ok_app in Hb as [Hbt Hbb].
  apply pops_sound in E as (os & bs & -> & Hsplit & Hos & Hstop); [|exact Hbb|].
  2: { rewrite lenN_skipn. rewrite !lenN_cons in Hlen. unfold last_num. cbn [rev].
       unfold two32, two16 in *. lia. }
  cbn [app]. unfold last_num in Hos. cbn [rev] in Hos.
  assert (Htok : lenN (firstn (N.to_nat tkl) rest) = tkl)
    by (rewrite lenN_firstn; lia).
  rewrite Hsplit in Hbb. apply bytes_ok_app in Hbb as [Hbs Hbp].
  assert (Hfin : forall p pb, payload_enc p pb -> pl = pb ->
     msg_check (mkmsg 1 (b0 / 16 mod 4) (b1 / 32 mod 8) (b1 mod 32) (256 * b2 + b3)
                      (firstn (N.to_nat tkl) rest) os p) = Ok tt ->
     encodes (mkmsg 1 (b0 / 16 mod 4) (b1 / 32 mod 8) (b1 mod 32) (256 * b2 + b3)
                      (firstn (N.to_nat tkl) rest) os p) (b0 :: b1 :: b2 :: b3 :: rest)).
  { intros p pb Hp -> Hck.
    assert (Heq : b0 :: b1 :: b2 :: b3 :: rest
      = (64 + 16 * (b0 / 16 mod 4) + lenN (firstn (N.to_nat tkl) rest))
        :: (32 * (b1 / 32 mod 8) + b1 mod 32)
        :: ((256 * b2 + b3) / 256) :: ((256 * b2 + b3) mod 256)
        :: firstn (N.to_nat tkl) rest ++ bs ++ pb).
    { rewrite Htok, <- Hsplit, firstn_skipn. unfold tkl. repeat f_equal; lia. }
    rewrite Heq.
    refine (encodes_intro (mkmsg 1 (b0 / 16 mod 4) (b1 / 32 mod 8) (b1 mod 32) (256 * b2 + b3)
                      (firstn (N.to_nat tkl) rest) os p) bs pb _ _ _ _ _ _ _ _ _ _); cbn [m_ver m_type m_class m_detail m_id m_token m_ops m_payload]; auto.
    - lia.
    - unfold known_class. lia.
    - lia.
    - lia.
    - lia.
    - apply check_consistent; [cbn; lia|exact Hck]. }
  destruct pl as [|x [|y pl']].
  - intros [= <- <-] Hck. split; [|tauto]. exact (Hfin [] [] pl_none eq_refl Hck).
  - discriminate.
  - destruct (N.eqb_spec (N.land x 255) 255) as [Hx|Hx]; [|discriminate].
    intros [= <- <-] Hck. split; [|split; discriminate].
    destruct Hstop as [C|[t Ht]]; [discriminate|]. injection Ht as -> <-.
    apply (Hfin (y :: pl') (255 :: y :: pl')); [|reflexivity|exact Hck].
    constructor. apply bytes_ok_cons in Hbp. tauto.
Qed.

Lemma pmsg_complete sg b m :
  encodes m b -> lenN b < two16 -> (sg = UnsignedChar \/ exts_low 0 (m_ops m)) ->
  pmsg sg b = Ok (m, match m_payload m with [] => true | _ => false end)
  /\ msg_check m = Ok tt.
Proof.
  intros H Hlen Hsg. destruct H as [m ob pb Hver Ht Hc Hd Hid Htl Htok Hcons Hops Hpl].
  split; [|apply check_consistent; assumption].
  unfold pmsg. set (b0 := 64 + 16 * m_type m + lenN (m_token m)) in *.
  set (b1 := 32 * m_class m + m_detail m) in *.
  unfold known_class in Hc.
  rewrite shiftr_6, shiftr_5, shiftr_4, land_3, land_15, land_7, land_31, land_3, lor_8 by lia.
  unfold COAP_VER, MAX_TOKEN_LEN, CL_REQ, CL_SUCCESS, CL_CLIENT_ERR, CL_SERVER_ERR.
  replace (b0 / 64 mod 4) with 1 by (unfold b0; lia).
  replace (b0 mod 16) with (lenN (m_token m)) by (unfold b0; lia).
  replace (b0 / 16 mod 4) with (m_type m) by (unfold b0; lia).
  replace (b1 / 32 mod 8) with (m_class m) by (unfold b1; lia).
  replace (b1 mod 32) with (m_detail m) by (unfold b1; lia).
  change (negb (1 =? 1)) with false. cbv iota. destruct (N.ltb_spec 8 (lenN (m_token m))); [lia|].
  replace (negb (m_class m =? 0) && negb (m_class m =? 2)
      && negb (m_class m =? 4) && negb (m_class m =? 5)) with false.
  2: { symmetry. destruct Hc as [->|[->|[->| ->]]]; reflexivity. }
  rewrite lenN_app. destruct (N.ltb_spec (lenN (m_token m) + lenN (ob ++ pb)) (lenN (m_token m))); [lia|].
  rewrite firstn_lenN_app, skipn_lenN_app.
  rewrite !lenN_cons, !lenN_app in Hlen. unfold two16 in Hlen.
  rewrite (pops_complete sg (m_ops m) ob 0 [] _ pb Hops); auto.
  - cbn [app]. replace (256 * (m_id m / 256) + m_id m mod 256) with (m_id m) by lia.
    remember (m_payload m) as plv eqn:Ep. destruct Hpl as [|y pl Hb]; destruct m; cbn in *; subst; reflexivity.
  - unfold two32. lia.
  - destruct Hpl; [left|right; eexists]; reflexivity.
Qed.

(** The memory after the datagram: irrelevant if there is any. *)
Lemma parse_sound b past m :
  bytes_ok b -> lenN b < two16 ->
  msg_parse UnsignedChar (b ++ past) (lenN b) = Ok m -> encodes m b.
Proof.
  intros Hb Hl. unfold msg_parse. rewrite msg_parse_raw_red.
  destruct (pmsg UnsignedChar b) as [[m' e]|e|u|] eqn:E; try discriminate.
  destruct (e && _); [discriminate|]. cbn [bind].
  destruct (check_ub m') as [H|H]; rewrite H; [|discriminate]. intros [= <-].
  exact (proj1 (pmsg_sound b m' e Hb Hl E H)).
Qed.

Lemma parse_complete sg b past m :
  encodes m b -> lenN b < two16 -> (sg = UnsignedChar \/ exts_low 0 (m_ops m)) ->
  past <> [] \/ m_payload m <> [] ->
  msg_parse sg (b ++ past) (lenN b) = Ok m.
Proof.
  intros He Hl Hsg Hp. unfold msg_parse. rewrite msg_parse_raw_red.
  destruct (pmsg_complete sg b m He Hl Hsg) as [-> Hck].
  destruct (m_payload m) as [|x pl] eqn:Epl.
  - destruct Hp as [Hp|Hp]; [|congruence]. destruct past; [congruence|]. cbn [andb bind].
    rewrite Hck. reflexivity.
  - cbn [andb bind]. rewrite Hck. reflexivity.
Qed.

Lemma parse_iff b past m :
  bytes_ok b -> lenN b < two16 -> past <> [] ->
  (msg_parse UnsignedChar (b ++ past) (lenN b) = Ok m <-> encodes m b).
Proof.
  intros Hb Hl Hp. split; [apply parse_sound; assumption|].
  intro H. apply parse_complete; auto.
Qed.

Lemma parse_err_or_ok sg b past :
  past <> [] ->
  (exists m, msg_parse sg (b ++ past) (lenN b) = Ok m) \/
  msg_parse sg (b ++ past) (lenN b) = Err EBADMSG \/
  msg_parse sg (b ++ past) (lenN b) = Err EINVAL.
Proof.
  intro Hp. unfold msg_parse. rewrite msg_parse_raw_red.
  assert (Hn : forall r, pmsg sg b = r -> (exists x, r = Ok x) \/ r = Err EBADMSG \/ r = Err EINVAL).
  { intros r <-. unfold pmsg. destruct b as [|b0 [|b1 [|b2 [|b3 rest]]]]; auto.
    destruct (negb _); auto. destruct (_ <? _); auto. destruct (_ && _); auto.
    destruct (_ <? _); auto. destruct (pops _ _ _ _) as [[ops pl]|]; auto.
    destruct pl as [|x [|y pl]]; eauto. destruct (_ =? _); eauto. }
  destruct (Hn _ eq_refl) as [[[m e] ->]|[->| ->]]; auto.
  destruct past; [congruence|]. rewrite andb_false_r. cbn [bind].
  destruct (check_ub m) as [H|H]; rewrite H; cbn [bind]; eauto.
Qed.

Lemma parse_past_irrelevant sg b past1 past2 :
  past1 <> [] -> past2 <> [] ->
  msg_parse sg (b ++ past1) (lenN b) = msg_parse sg (b ++ past2) (lenN b).
Proof.
  intros H1 H2. unfold msg_parse. rewrite !msg_parse_raw_red.
  destruct past1; [congruence|]. destruct past2; [congruence|]. reflexivity.
Qed.

(** With nothing after the datagram: out-of-range read exactly when the options
    are well formed and run up to the end. *)
Lemma parse_exact sg b past :
  past <> [] ->
  msg_parse sg b (lenN b) = UB OobRead \/
  msg_parse sg b (lenN b) = msg_parse sg (b ++ past) (lenN b).
Proof.
  intro Hp. unfold msg_parse. rewrite <- (app_nil_r b) at 1 3. rewrite !msg_parse_raw_red.
  destruct (pmsg sg b) as [[m e]|e|u|]; auto.
  destruct past; [congruence|]. destruct e; cbn [andb bind]; auto.
Qed.

Lemma parse_exact_payload sg b past m :
  past <> [] -> msg_parse sg (b ++ past) (lenN b) = Ok m -> m_payload m <> [] ->
  msg_parse sg b (lenN b) = Ok m.
Proof.
  intros Hp. unfold msg_parse. rewrite <- (app_nil_r b) at 3. rewrite !msg_parse_raw_red.
  destruct (pmsg sg b) as [[m' e]|e|u|] eqn:E; try discriminate.
  destruct past; [congruence|]. rewrite andb_false_r. cbn [bind]. intros H Hpl.
  destruct e; cbn [andb bind]; [|exact H].
  exfalso. destruct (check_ub m') as [C|C]; rewrite C in H; [|discriminate].
  injection H as <-. apply Hpl. revert E. unfold pmsg.
  destruct b as [|b0 [|b1 [|b2 [|b3 rest]]]]; try discriminate.
  destruct (negb _); try discriminate. destruct (_ <? _); try discriminate.
  destruct (_ && _); try discriminate.
  destruct (_ <? _); try discriminate. destruct (pops _ _ _ _) as [[ops pl]|]; try discriminate.
  destruct pl as [|x [|y pl]]; try discriminate.
  - intros [= <-]. reflexivity.
  - destruct (_ =? _); discriminate.
Qed.
