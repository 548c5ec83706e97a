From Verif Require Import BaseLemmas MsgModel MsgSpec MsgLemmas.

Lemma lt8_cases n : n < 8 -> n = 0 \/ n = 1 \/ n = 2 \/ n = 3 \/ n = 4 \/ n = 5 \/ n = 6 \/ n = 7.
Proof. lia. Qed.

Lemma hi_nibble v : v < 256 -> N.shiftr (N.land v 240) 4 = v / 16.
Proof.
  intro H. rewrite N.shiftr_land. change (N.shiftr 240 4) with 15. rewrite land_15, shiftr_4. lia.
Qed.

Lemma more_bit v : negb (N.land v 8 =? 0) = N.odd (v / 8).
Proof.
  change 8 with (N.shiftl 1 3) at 1. rewrite land_pow2_zero, negb_involutive, N.testbit_odd.
  f_equal. rewrite N.shiftr_div_pow2. reflexivity.
Qed.

Lemma block_fin num last :
  (let size := N.shiftl 1 (N.land last 7 + 4) in
   if MAX_BLOCK_SIZE <? size then Err EINVAL
   else Ok (mkblk num (negb (N.land last 8 =? 0)) size))
  = if last mod 8 =? 7 then Err EINVAL
    else Ok (mkblk num (N.odd (last / 8)) (2 ^ (4 + last mod 8))).
Proof.
  cbv zeta. rewrite land_7, more_bit. rewrite N.shiftl_1_l, (N.add_comm (last mod 8) 4).
  assert (last mod 8 < 8) as H by lia.
  destruct (lt8_cases _ H) as [->|[->|[->|[->|[->|[->|[->| ->]]]]]]]; reflexivity.
Qed.

Lemma odd_add_even a b : N.odd (a + 2 * b) = N.odd a.
Proof. rewrite N.odd_add_mul_2. reflexivity. Qed.

(** The three lengths that a block option can have. *)
Lemma parse_block_val_eq v past :
  bytes_ok v -> 1 <= lenN v <= 3 ->
  parse_block_val (v ++ past) (lenN v)
  = let V := be_val v in
    if V mod 8 =? 7 then Err EINVAL
    else Ok (mkblk (V / 16) (N.odd (V / 8)) (2 ^ (4 + V mod 8))).
Proof.
  intros Hb Hl. cbv zeta.
  destruct v as [|v0 [|v1 [|v2 [|v3 v]]]]; try (unfold lenN in Hl; cbn in Hl; lia).
  - apply bytes_ok_cons in Hb as [Hv0 _].
    unfold parse_block_val. change (lenN [v0] =? 1) with true. cbv iota.
    rewrite rd_app_0. cbn [bind]. rewrite (block_fin _ v0). unfold be_val. cbn [fold_left].
    rewrite hi_nibble by exact Hv0. replace (256 * 0 + v0) with v0 by lia. reflexivity.
  - apply bytes_ok_cons in Hb as [Hv0 Hb]. apply bytes_ok_cons in Hb as [Hv1 _].
    unfold parse_block_val. change (lenN [v0; v1] =? 1) with false. change (lenN [v0; v1] =? 2) with true. cbv iota.
    rewrite rd_app_0. cbn [bind]. rewrite rd_app_1. cbn [bind]. rewrite (block_fin _ v1).
    unfold be_val. cbn [fold_left]. rewrite hi_nibble by exact Hv1. rewrite lor_4 by lia.
    replace (256 * (256 * 0 + v0) + v1) with (256 * v0 + v1) by lia.
    replace ((256 * v0 + v1) mod 8) with (v1 mod 8) by lia.
    replace ((256 * v0 + v1) / 16) with (16 * v0 + v1 / 16) by lia.
    replace ((256 * v0 + v1) / 8) with (v1 / 8 + 2 * (16 * v0)) by lia.
    rewrite odd_add_even. reflexivity.
  - apply bytes_ok_cons in Hb as [Hv0 Hb]. apply bytes_ok_cons in Hb as [Hv1 Hb]. apply bytes_ok_cons in Hb as [Hv2 _].
    unfold parse_block_val. change (lenN [v0; v1; v2] =? 1) with false.
    change (lenN [v0; v1; v2] =? 2) with false. cbv iota.
    rewrite rd_app_0. cbn [bind]. rewrite rd_app_1. cbn [bind]. rewrite rd_app_2. cbn [bind]. rewrite (block_fin _ v2).
    unfold be_val. cbn [fold_left]. rewrite hi_nibble by exact Hv2.
    replace (N.shiftl v0 12) with (N.shiftl (N.shiftl v0 8) 4) by (rewrite N.shiftl_shiftl; reflexivity).
    rewrite <- N.shiftl_lor. rewrite lor_8 by exact Hv1. rewrite lor_4 by lia.
    replace (256 * (256 * (256 * 0 + v0) + v1) + v2) with (256 * (256 * v0 + v1) + v2) by lia.
    set (w := 256 * v0 + v1).
    replace ((256 * w + v2) mod 8) with (v2 mod 8) by lia.
    replace ((256 * w + v2) / 16) with (16 * w + v2 / 16) by lia.
    replace ((256 * w + v2) / 8) with (v2 / 8 + 2 * (16 * w)) by lia.
    rewrite odd_add_even. reflexivity.
Qed.

Lemma odd_mod2 a : N.odd a = (a mod 2 =? 1).
Proof.
  rewrite <- N.bit0_odd. pose proof (N.bit0_mod a) as H. destruct (N.testbit a 0); cbn in H; rewrite <- H; reflexivity.
Qed.

Lemma block_value_iff V b :
  block_value V b <->
  V mod 8 <> 7 /\ b = mkblk (V / 16) (N.odd (V / 8)) (2 ^ (4 + V mod 8)).
Proof.
  split.
  - destruct 1 as [num more szx H].
    assert (E : (16 * num + 8 * (if more then 1 else 0) + szx) mod 8 = szx) by (destruct more; lia).
    rewrite E. split; [lia|]. f_equal; [destruct more; lia|]. rewrite odd_mod2. destruct more.
    + replace ((16 * num + 8 * 1 + szx) / 8 mod 2) with 1 by lia. reflexivity.
    + replace ((16 * num + 8 * 0 + szx) / 8 mod 2) with 0 by lia. reflexivity.
  - intros [H ->].
    assert (E : V = 16 * (V / 16) + 8 * (if N.odd (V / 8) then 1 else 0) + V mod 8).
    { rewrite odd_mod2. destruct (N.eqb_spec (V / 8 mod 2) 1); lia. }
    rewrite E at 1. constructor. lia.
Qed.

Lemma parse_block_val_spec v past b :
  bytes_ok v -> 1 <= lenN v <= 3 ->
  (parse_block_val (v ++ past) (lenN v) = Ok b <-> block_value (be_val v) b).
Proof.
  intros Hb Hl. rewrite parse_block_val_eq by assumption. cbv zeta. rewrite block_value_iff.
  destruct (N.eqb_spec (be_val v mod 8) 7) as [E|E].
  - split; [discriminate|]. intros [C _]. contradiction.
  - split; [intros [= <-]; auto|intros [_ ->]; reflexivity].
Qed.

Lemma parse_block_val_total v past :
  bytes_ok v -> 1 <= lenN v <= 3 ->
  (exists b, parse_block_val (v ++ past) (lenN v) = Ok b) \/
  parse_block_val (v ++ past) (lenN v) = Err EINVAL.
Proof.
  intros Hb Hl. rewrite parse_block_val_eq by assumption. cbv zeta. destruct (_ =? _); eauto.
Qed.

Lemma szx_ok size szx : calc_block_szx size = Ok szx -> szx < 7 /\ size = 2 ^ (4 + szx).
Proof.
  unfold calc_block_szx.
  repeat match goal with |- context [?a =? ?b] => destruct (N.eqb_spec a b) as [->|_]; [intros [= <-]; split; [lia|reflexivity]|] end.
  discriminate.
Qed.

Lemma last_byte num (more : bool) szx : szx < 7 ->
  lo8 (N.lor (N.lor (lo8 (N.shiftl num 4)) (N.shiftl (if more then 1 else 0) 3)) szx)
  = (16 * num) mod 256 + 8 * (if more then 1 else 0) + szx.
Proof.
  intro H. unfold lo8. rewrite N.shiftl_mul_pow2. change (2 ^ 4) with 16.
  assert (E : (num * 16) mod 256 = N.shiftl (num mod 16) 4) by (rewrite N.shiftl_mul_pow2; change (2 ^ 4) with 16; lia).
  rewrite E. rewrite lor_4 by (destruct more; reflexivity).
  replace (16 * (num mod 16) + N.shiftl (if more then 1 else 0) 3)
    with (N.shiftl (2 * (num mod 16) + (if more then 1 else 0)) 3)
    by (rewrite !N.shiftl_mul_pow2; change (2 ^ 3) with 8; lia).
  rewrite lor_shiftl_add by (change (2 ^ 3) with 8; lia). change (2 ^ 3) with 8.
  destruct more; lia.
Qed.

Lemma format_block_val_spec len num more size v :
  format_block_val len num more size = Ok v -> num < 2 ^ (8 * len - 4) ->
  lenN v = len /\ bytes_ok v /\ 1 <= len <= 3 /\ block_value (be_val v) (mkblk num more size).
Proof.
  unfold format_block_val. destruct (calc_block_szx size) as [szx|e|u|] eqn:E; try discriminate.
  apply szx_ok in E as [Hs ->]. cbn [bind]. rewrite (last_byte num more szx Hs).
  intros H Hn.
  assert (HV : forall V, V = 16 * num + 8 * (if more then 1 else 0) + szx -> block_value V (mkblk num more (2 ^ (4 + szx)))).
  { intros V ->. constructor. exact Hs. }
  destruct (N.eqb_spec len 1) as [->|H1]; [|destruct (N.eqb_spec len 2) as [->|H2]; [|destruct (N.eqb_spec len 3) as [->|H3]; [|discriminate]]].
  - destruct (_ <? _); [discriminate|]. injection H as <-. change (2 ^ (8 * 1 - 4)) with 16 in Hn.
    repeat split; try lia.
    + constructor; [|constructor]. unfold byte_ok. destruct more; lia.
    + apply HV. unfold be_val. cbn [fold_left]. destruct more; lia.
  - destruct (_ <? _); [discriminate|]. injection H as <-. change (2 ^ (8 * 2 - 4)) with 4096 in Hn.
    rewrite shiftr_4. unfold lo8. repeat split; try lia.
    + repeat constructor; unfold byte_ok; destruct more; lia.
    + apply HV. unfold be_val. cbn [fold_left]. destruct more; lia.
  - destruct (_ <? _); [discriminate|]. injection H as <-. change (2 ^ (8 * 3 - 4)) with 1048576 in Hn.
    rewrite shiftr_4. replace (N.shiftr num 12) with (num / 4096) by (rewrite N.shiftr_div_pow2; reflexivity).
    unfold lo8. repeat split; try lia.
    + repeat constructor; unfold byte_ok; destruct more; lia.
    + apply HV. unfold be_val. cbn [fold_left]. destruct more; lia.
Qed.

Lemma block_round_trip len num more size v past :
  format_block_val len num more size = Ok v -> num < 2 ^ (8 * len - 4) ->
  parse_block_val (v ++ past) len = Ok (mkblk num more size).
Proof.
  intros H Hn. destruct (format_block_val_spec _ _ _ _ _ H Hn) as (Hl & Hb & Hr & HV).
  rewrite <- Hl in *. apply parse_block_val_spec; auto.
Qed.

Lemma format_block_val_ok len num more szx :
  1 <= len <= 3 -> num < 2 ^ (8 * len - 4) -> szx < 7 ->
  exists v, format_block_val len num more (2 ^ (4 + szx)) = Ok v.
Proof.
  intros Hl Hn Hs. unfold format_block_val.
  assert (calc_block_szx (2 ^ (4 + szx)) = Ok szx) as ->.
  { destruct (lt8_cases szx ltac:(lia)) as [->|[->|[->|[->|[->|[->|[->| ->]]]]]]]; try reflexivity. lia. }
  cbn [bind]. assert (len = 1 \/ len = 2 \/ len = 3) as [->|[->| ->]] by lia.
  - change (1 =? 1) with true. change (2 ^ (8 * 1 - 4)) with 16 in Hn. change (N.shiftl 1 4) with 16.
    destruct (N.ltb_spec 16 num); [lia|]. eauto.
  - change (2 =? 1) with false. change (2 =? 2) with true. change (2 ^ (8 * 2 - 4)) with 4096 in Hn.
    change (N.shiftl 1 12) with 4096. destruct (N.ltb_spec 4096 num); [lia|]. eauto.
  - change (3 =? 1) with false. change (3 =? 2) with false. change (3 =? 3) with true.
    change (2 ^ (8 * 3 - 4)) with 1048576 in Hn.
    change (N.shiftl 1 20) with 1048576. destruct (N.ltb_spec 1048576 num); [lia|]. eauto.
Qed.
