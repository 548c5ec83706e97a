From Coq Require Import Permutation.
From Verif Require Import BaseLemmas MsgModel MsgSpec MsgLemmas.

(** ** The encoder *)

Definition enc_op (prev : N) (o : op) : list N :=
  (16 * nibble (o_num o - prev) + nibble (o_len o))
    :: ext_bytes (o_num o - prev) ++ ext_bytes (o_len o) ++ o_val o.
Fixpoint enc_ops (prev : N) (l : list op) : list N :=
  match l with [] => [] | o :: l' => enc_op prev o ++ enc_ops (o_num o) l' end.
Definition enc_payload (pl : list N) : list N :=
  match pl with [] => [] | _ => 255 :: pl end.
Definition enc_hdr (m : msg) : list N :=
  [64 + 16 * m_type m + lenN (m_token m); 32 * m_class m + m_detail m;
   m_id m / 256; m_id m mod 256].
Definition enc_msg (m : msg) : list N :=
  enc_hdr m ++ m_token m ++ enc_ops 0 (m_ops m) ++ enc_payload (m_payload m).

Lemma nibble_bound v : nibble v < 15.
Proof. unfold nibble. destruct (N.leb_spec 269 v), (N.leb_spec 13 v); lia. Qed.

Lemma ext_enc_intro v : v <= 65804 -> ext_enc v (nibble v) (ext_bytes v).
Proof.
  intro H. unfold nibble, ext_bytes. destruct (N.leb_spec 269 v) as [H1|H1].
  - unfold be16. rewrite shiftr_8. unfold two16.
    rewrite (N.mod_small (v - 269)) by lia.
    replace v with (269 + 256 * ((v - 269) / 256) + (v - 269) mod 256) at 1 by lia.
    constructor; lia.
  - destruct (N.leb_spec 13 v) as [H2|H2].
    + unfold lo8. rewrite N.mod_small by lia. replace v with (13 + (v - 13)) at 1 by lia. constructor. lia.
    + constructor. exact H2.
Qed.

Lemma ext_enc_unique v nib e : ext_enc v nib e -> nib = nibble v /\ e = ext_bytes v /\ v <= 65804.
Proof.
  destruct 1 as [v Hv|b Hb|b1 b2 H1 H2]; unfold nibble, ext_bytes, be16, lo8.
  - destruct (N.leb_spec 269 v); [lia|]. destruct (N.leb_spec 13 v); [lia|]. repeat split; lia.
  - destruct (N.leb_spec 269 (13 + b)); [lia|]. destruct (N.leb_spec 13 (13 + b)); [|lia].
    repeat split; try lia. f_equal. rewrite N.mod_small; lia.
  - destruct (N.leb_spec 269 (269 + 256 * b1 + b2)); [|lia]. repeat split; try lia.
    rewrite shiftr_8. unfold two16. rewrite (N.mod_small _ 65536) by lia.
    f_equal; [|f_equal]; lia.
Qed.

Lemma ops_enc_enc prev l :
  ops_sorted_from prev l -> deltas_ok prev l -> Forall op_ok l -> ops_enc prev l (enc_ops prev l).
Proof.
  revert prev. induction l as [|o l IH]; intros prev Hs Hd Hok; cbn [enc_ops]; [constructor|].
  destruct Hs as [Hle Hs], Hd as (Hd1 & Hd2 & Hd). inversion Hok as [|? ? (Hn & Hv & Hl) Hok']; subst.
  unfold enc_op. cbn [app]. rewrite <- !app_assoc.
  pose proof (ops_cons prev (o_num o - prev) (nibble (o_num o - prev)) (ext_bytes (o_num o - prev))
    (nibble (o_len o)) (ext_bytes (o_len o)) (o_val o) l (enc_ops (o_num o) l)) as C.
  replace (prev + (o_num o - prev)) with (o_num o) in C by lia.
  destruct o as [num val]. cbn [o_num o_val] in *. apply C.
  - apply ext_enc_intro; exact Hd1.
  - apply ext_enc_intro; exact Hd2.
  - exact Hv.
  - apply IH; assumption.
Qed.

Lemma ops_enc_inv prev l bs :
  ops_enc prev l bs ->
  bs = enc_ops prev l /\ ops_sorted_from prev l /\ deltas_ok prev l /\ Forall (fun o => bytes_ok (o_val o)) l.
Proof.
  induction 1 as [prev|prev delta dn dext ln lext val os bs Hd Hl Hv Hos (IH1 & IH2 & IH3 & IH4)].
  - cbn. auto.
  - cbn [enc_ops ops_sorted_from deltas_ok]. unfold enc_op. cbn [o_num o_val].
    apply ext_enc_unique in Hd as (-> & -> & Hd). apply ext_enc_unique in Hl as (-> & -> & Hl).
    replace (prev + delta - prev) with delta by lia. unfold o_len in *. cbn [o_val].
    repeat split; try lia; auto.
    cbn [app]. rewrite <- !app_assoc, <- IH1. reflexivity.
Qed.

Lemma lenN_ext_bytes v : lenN (ext_bytes v) = ext_size v.
Proof. unfold ext_bytes, ext_size. destruct (269 <=? v); [reflexivity|]. destruct (13 <=? v); reflexivity. Qed.

Lemma lenN_enc_op prev o :
  lenN (enc_op prev o) = 1 + ext_size (o_num o - prev) + ext_size (o_len o) + o_len o.
Proof.
  unfold enc_op. rewrite lenN_cons, !lenN_app, !lenN_ext_bytes. unfold o_len. lia.
Qed.

Lemma lenN_enc_ops prev l : lenN (enc_ops prev l) = ops_size prev l.
Proof.
  revert prev. induction l as [|o l IH]; intro prev; cbn [enc_ops ops_size]; [reflexivity|].
  rewrite lenN_app, lenN_enc_op, IH. lia.
Qed.

Lemma lenN_enc_msg m : lenN (enc_msg m) = wire_size m.
Proof.
  unfold enc_msg, enc_hdr, wire_size. rewrite !lenN_app, lenN_enc_ops.
  destruct (m_payload m) as [|x pl]; cbn [enc_payload]; rewrite ?lenN_cons, ?(@lenN_nil N); lia.
Qed.

(** ** Well-formed messages *)

Record wf_msg (m : msg) : Prop := {
  wf_ver : m_ver m = 1;
  wf_type : m_type m < 4;
  wf_class : m_class m <= 7;
  wf_detail : m_detail m <= 31;
  wf_id : m_id m <= 65535;
  wf_tkl : lenN (m_token m) <= 8;
  wf_tok : bytes_ok (m_token m);
  wf_sorted : ops_sorted (m_ops m);
  wf_ops : Forall op_ok (m_ops m);
  wf_payload : bytes_ok (m_payload m)
}.

Lemma encodes_enc m : wf_msg m -> representable m -> consistent m -> encodes m (enc_msg m).
Proof.
  intros W [Hc Hd] Hcons. destruct W. unfold enc_msg, enc_hdr. cbn [app].
  apply encodes_intro; auto; try lia.
  - apply ops_enc_enc; auto.
  - destruct (m_payload m); constructor; assumption.
Qed.

Lemma ops_bound prev l bs : ops_enc prev l bs ->
  Forall (fun o => o_num o <= prev + 21935 * lenN bs) l /\ Forall (fun o => o_len o <= lenN bs) l.
Proof.
  induction 1 as [prev|prev delta dn dext ln lext val os bs Hd Hl Hv Hos [IH1 IH2]]; [auto|].
  pose proof (delta_bound _ _ _ Hd). rewrite lenN_cons, !lenN_app. split.
  - constructor; [cbn [o_num]; lia|]. eapply Forall_impl; [|exact IH1]. cbn. intros. lia.
  - constructor; [unfold o_len; cbn [o_val]; lia|]. eapply Forall_impl; [|exact IH2]. cbn. intros. lia.
Qed.

Lemma encodes_inv m b : encodes m b -> lenN b < two16 ->
  b = enc_msg m /\ wf_msg m /\ representable m /\ consistent m.
Proof.
  intros H Hlen. destruct H as [m ob pb Hver Ht Hc Hd Hid Htl Htok Hcons Hops Hpl].
  pose proof (ops_bound _ _ _ Hops) as [Hb1 Hb2].
  apply ops_enc_inv in Hops as (-> & Hs & Hdl & Hby).
  rewrite !lenN_cons, !lenN_app in Hlen. unfold two16 in Hlen.
  assert (pb = enc_payload (m_payload m) /\ bytes_ok (m_payload m)) as [-> Hpb].
  { destruct Hpl; split; auto. constructor. }
  unfold enc_msg, enc_hdr. cbn [app]. repeat split; auto; try lia.
  - unfold known_class in Hc. lia.
  - apply Forall_forall. intros o Ho. rewrite Forall_forall in Hb1, Hb2, Hby.
    specialize (Hb1 o Ho). specialize (Hb2 o Ho). specialize (Hby o Ho). unfold op_ok, two32. repeat split; auto; lia.
  - apply Hcons; assumption.
  - apply Hcons; assumption.
  - apply Hcons; assumption.
  - apply Hcons; assumption.
  - apply Hcons; assumption.
  - apply Hcons; assumption.
Qed.

(** ** Formatting *)

Lemma wr_wr cap out a b :
  (let* o := wr cap out a in wr cap o b) = wr cap out (a ++ b).
Proof.
  unfold wr. rewrite lenN_app. destruct (N.leb_spec (lenN out + lenN a) cap) as [H|H]; cbn [bind].
  - rewrite lenN_app, <- app_assoc.
    destruct (N.leb_spec (lenN out + lenN a + lenN b) cap), (N.leb_spec (lenN out + (lenN a + lenN b)) cap);
      try lia; reflexivity.
  - destruct (N.leb_spec (lenN out + (lenN a + lenN b)) cap); [lia|reflexivity].
Qed.

Lemma sub32_le a b : b <= a -> a < two32 -> sub32 a b = a - b.
Proof.
  unfold sub32, two32. intros H1 H2. rewrite (N.mod_small b) by lia.
  replace (a + 4294967296 - b) with ((a - b) + 1 * 4294967296) by lia.
  rewrite N.mod_add by lia. apply N.mod_small. lia.
Qed.
Lemma sub64_le a b : b <= a -> a < two64 -> sub64 a b = a - b.
Proof.
  unfold sub64, two64. intros H1 H2. rewrite (N.mod_small b) by lia.
  replace (a + 18446744073709551616 - b) with ((a - b) + 1 * 18446744073709551616) by lia.
  rewrite N.mod_add by lia. apply N.mod_small. lia.
Qed.

Lemma bind_assoc {A B C} (r : res A) (f : A -> res B) (g : B -> res C) :
  bind (bind r f) g = bind r (fun x => bind (f x) g).
Proof. destruct r; reflexivity. Qed.

Lemma format_op_eq cap o prev out len :
  prev <= o_num o -> o_num o < two32 ->
  format_op cap o prev out len
  = if len <? format_op_need (o_num o - prev) o then Err ENOSPC
    else wr cap out (enc_op prev o).
Proof.
  intros H1 H2. unfold format_op. rewrite sub32_le by assumption.
  destruct (_ <? _); [reflexivity|]. unfold enc_op.
  replace (lo8 (N.lor (N.shiftl (nibble (o_num o - prev)) 4) (nibble (o_len o))))
    with (16 * nibble (o_num o - prev) + nibble (o_len o)).
  - set (x := 16 * _ + _).
    change (x :: ext_bytes (o_num o - prev) ++ ext_bytes (o_len o) ++ o_val o)
      with ([x] ++ (ext_bytes (o_num o - prev) ++ ext_bytes (o_len o) ++ o_val o)).
    rewrite <- (wr_wr cap out [x]). destruct (wr cap out [x]) as [o1| | |]; cbn [bind]; auto.
    rewrite <- (wr_wr cap o1). destruct (wr cap o1 _) as [o2| | |]; cbn [bind]; auto.
    rewrite <- (wr_wr cap o2). reflexivity.
  - pose proof (nibble_bound (o_num o - prev)). pose proof (nibble_bound (o_len o)).
    rewrite lor_4 by lia. unfold lo8. rewrite N.mod_small; lia.
Qed.

(** The space that format_op demands against what it uses. *)
Lemma need_cmp prev o : o_len o < two32 - 5 ->
  lenN (enc_op prev o) <= format_op_need (o_num o - prev) o + 1 /\
  format_op_need (o_num o - prev) o <= lenN (enc_op prev o) + 1 /\
  (13 <= o_num o \/ o_len o < 13 \/ 269 <= o_len o ->
   lenN (enc_op prev o) <= format_op_need (o_num o - prev) o) /\
  (o_num o < 13 \/ 13 <= o_len o ->
   format_op_need (o_num o - prev) o <= lenN (enc_op prev o)).
Proof.
  intro H. rewrite lenN_enc_op. unfold format_op_need, ext_size, add32, two32 in *.
  destruct (N.leb_spec 269 (o_num o - prev)), (N.leb_spec 13 (o_num o - prev)),
    (N.leb_spec 269 (o_len o)), (N.leb_spec 13 (o_len o)), (N.leb_spec 13 (o_num o));
    rewrite N.mod_small by lia; lia.
Qed.

Lemma format_ops_result cap l prev out :
  cap < two64 -> lenN out <= cap -> ops_sorted_from prev l -> Forall op_ok l -> Forall len_ok l ->
  let r := format_ops cap l prev out (cap - lenN out) in
  let total := lenN out + ops_size prev l in
  (r = Ok (out ++ enc_ops prev l) /\ total <= cap) \/
  (r = Err ENOSPC /\ (cap < total + 1) /\ (Forall no_long l -> cap < total)) \/
  (r = UB OobWrite /\ cap < total /\ ~ Forall no_short l).
Proof.
  intro Hcap. revert prev out. induction l as [|o l IH]; intros prev out Hout Hs Hok Hlen;
    cbn [format_ops enc_ops ops_size].
  - left. rewrite app_nil_r. split; [reflexivity|lia].
  - destruct Hs as [Hle Hs]. inversion Hok as [|? ? (Hn & Hv & Hl) Hok']; subst.
    inversion Hlen as [|? ? Hl1 Hlen']; subst.
    rewrite format_op_eq by assumption.
    destruct (need_cmp prev o Hl1) as (N1 & N2 & N3 & N4).
    pose proof (lenN_enc_op prev o) as Lo.
    destruct (N.ltb_spec (cap - lenN out) (format_op_need (o_num o - prev) o)) as [Hlt|Hge].
    + right. left. cbn [bind]. repeat split; [lia|]. intro F. inversion F; subst.
      specialize (N4 ltac:(assumption)). lia.
    + unfold wr. destruct (N.leb_spec (lenN out + lenN (enc_op prev o)) cap) as [Hfit|Hnofit].
      * cbn [bind]. rewrite lenN_app.
        replace (lenN out + lenN (enc_op prev o) - lenN out) with (lenN (enc_op prev o)) by lia.
        rewrite sub64_le by lia.
        replace (cap - lenN out - lenN (enc_op prev o)) with (cap - lenN (out ++ enc_op prev o))
          by (rewrite lenN_app; lia).
        specialize (IH (o_num o) (out ++ enc_op prev o)). rewrite lenN_app in IH at 1.
        specialize (IH Hfit Hs Hok' Hlen'). cbv zeta in IH. rewrite lenN_app in *.
        rewrite app_assoc.
        destruct IH as [(E & T)|[(E & T1 & T2)|(E & T1 & T2)]].
        -- left. split; [exact E|lia].
        -- right; left. repeat split; [exact E|lia|]. intro F. inversion F; subst.
           specialize (T2 ltac:(assumption)). lia.
        -- right; right. repeat split; [exact E|lia|]. intro F. inversion F; subst. auto.
      * right; right. cbn [bind]. repeat split; [lia|]. intro F. inversion F; subst.
        specialize (N3 ltac:(assumption)). lia.
Qed.

Lemma wr_ok cap out bs : lenN out + lenN bs <= cap -> wr cap out bs = Ok (out ++ bs).
Proof. intro H. unfold wr. destruct (N.leb_spec (lenN out + lenN bs) cap); [reflexivity|lia]. Qed.

Lemma format_hdr_eq cap m : wf_msg m ->
  format_hdr cap m [] cap = if cap <? 4 then Err ENOSPC else Ok (enc_hdr m).
Proof.
  intro W. destruct W. unfold format_hdr. destruct (N.ltb_spec cap 4); [reflexivity|].
  rewrite wr_ok by (cbn; rewrite (@lenN_nil N); unfold lenN; cbn; lia). cbn [app].
  unfold enc_hdr, be16, lo8, COAP_VER. rewrite shiftr_8, land_3, land_15, land_7, land_31.
  change (N.shiftl 1 6) with (N.shiftl 4 4). rewrite <- N.shiftl_lor.
  rewrite lor_4, lor_5 by lia.
  replace (N.lor 4 (m_type m mod 4)) with (4 + m_type m).
  2: { rewrite N.mod_small by lia. assert (m_type m = 0 \/ m_type m = 1 \/ m_type m = 2 \/ m_type m = 3) as H' by lia.
       destruct H' as [->|[->|[->| ->]]]; reflexivity. }
  unfold two16. rewrite (N.mod_small (m_id m) 65536) by lia.
  apply f_equal. repeat apply (f_equal2 cons); try reflexivity; lia.
Qed.

Lemma wire_size_split m : wire_size m = 4 + lenN (m_token m) + ops_size 0 (m_ops m) + lenN (enc_payload (m_payload m)).
Proof.
  unfold wire_size. destruct (m_payload m) as [|x pl]; cbn [enc_payload]; rewrite ?lenN_cons, ?(@lenN_nil N); lia.
Qed.

Lemma format_result m cap :
  wf_msg m -> Forall len_ok (m_ops m) -> cap < two64 ->
  let r := msg_format m cap in
  (r = Ok (enc_msg m) /\ wire_size m <= cap /\ msg_check m = Ok tt) \/
  (r = Err EBADMSG /\ msg_check m = Err EBADMSG) \/
  (r = Err ENOSPC /\ cap < wire_size m + 1 /\ (Forall no_long (m_ops m) -> cap < wire_size m)) \/
  (r = UB OobWrite /\ cap < wire_size m /\ ~ Forall no_short (m_ops m)).
Proof.
  intros W Hlen Hcap. cbv zeta. unfold msg_format.
  destruct (check_ub m) as [Hck|Hck]; rewrite Hck; cbn [bind]; [|right; left; auto].
  rewrite format_hdr_eq by exact W. pose proof (wire_size_split m) as WS.
  destruct (N.ltb_spec cap 4) as [H4|H4]; cbn [bind].
  { right; right; left. repeat split; lia. }
  assert (L1 : lenN (enc_hdr m) = 4) by reflexivity.
  unfold format_token. rewrite L1, sub64_le by lia.
  destruct (N.ltb_spec (cap - 4) (lenN (m_token m))) as [Ht|Ht].
  { right; right; left. repeat split; lia. }
  rewrite wr_ok by lia. cbn [bind]. rewrite lenN_app, L1. rewrite sub64_le by lia.
  destruct W as [? ? ? ? ? ? ? Wsorted Wops ?].
  destruct (format_ops_result cap (m_ops m) 0 (enc_hdr m ++ m_token m)) as [(E & T)|[(E & T1 & T2)|(E & T1 & T2)]]; auto.
  - rewrite lenN_app, L1. lia.
  - rewrite lenN_app, L1 in E, T. rewrite E. cbn [bind].
    unfold format_payload. rewrite lenN_app, lenN_app, L1, lenN_enc_ops.
    unfold enc_msg. destruct (m_payload m) as [|x pl] eqn:Epl.
    + left. cbn [enc_payload] in *. rewrite (@lenN_nil N) in WS. rewrite (@lenN_nil N).
      destruct (N.eqb_spec 0 0); [|lia]. rewrite app_nil_r, <- app_assoc. repeat split; lia.
    + destruct (N.eqb_spec (lenN (x :: pl)) 0) as [C|_]; [rewrite lenN_cons in C; lia|].
      cbn [enc_payload] in *. rewrite lenN_cons in WS.
      rewrite sub64_le by lia.
      destruct (N.ltb_spec (cap - (4 + lenN (m_token m) + ops_size 0 (m_ops m))) (lenN (x :: pl) + 1)) as [Hp|Hp].
      * right; right; left. repeat split; lia.
      * left. rewrite wr_ok.
        -- repeat rewrite <- app_assoc. repeat split; lia.
        -- rewrite !lenN_app, L1, lenN_enc_ops, (lenN_cons 255). lia.
  - rewrite lenN_app, L1 in E, T1, T2. rewrite E. right; right; left. cbn [bind]. repeat split; [lia|].
    intro F. specialize (T2 F). lia.
  - rewrite lenN_app, L1 in E, T1. rewrite E. right; right; right. cbn [bind]. repeat split; [lia|exact T2].
Qed.

(** ** Messages built through the API *)

Lemma op_list_add_loop_spec prev rest o :
  ops_sorted_from (o_num prev) rest -> o_num prev <= o_num o ->
  ops_sorted_from (o_num prev) (op_list_add_loop prev rest o) /\
  (exists l1 l2, prev :: rest = l1 ++ l2 /\ op_list_add_loop prev rest o = l1 ++ o :: l2 /\
     l1 <> [] /\
     Forall (fun x => o_num x <= o_num o) l1 /\ Forall (fun x => o_num o < o_num x) l2).
Proof.
  revert prev. induction rest as [|next rest IH]; intros prev Hs Hle; cbn [op_list_add_loop].
  - split; [cbn; lia|]. exists [prev], []. repeat split; auto; discriminate.
  - destruct Hs as [Hpn Hs].
    destruct (N.leb_spec (o_num prev) (o_num o)); [|lia]. cbn [andb].
    destruct (N.ltb_spec (o_num o) (o_num next)) as [Hlt|Hge].
    + split; [cbn; repeat split; auto; lia|]. exists [prev], (next :: rest). repeat split; auto; [discriminate|].
      constructor; [exact Hlt|].
      clear - Hs Hlt. revert next Hs Hlt. induction rest as [|x rest IH]; intros next Hs Hlt; constructor.
      * destruct Hs. lia.
      * destruct Hs as [Hnx Hs]. apply (IH x); [exact Hs|lia].
    + destruct (IH next Hs Hge) as [IHs (l1 & l2 & E1 & E2 & Hne & F1 & F2)]. split.
      * destruct l1 as [|y l1]; [congruence|]. cbn [app] in E1. injection E1 as Ey _.
        cbn [ops_sorted_from]. split; [lia|].
        destruct (op_list_add_loop next rest o) as [|z zs] eqn:Ez; [cbn; exact I|].
        cbn [app] in E2. injection E2 as -> _. subst y. cbn [ops_sorted_from] in *. split; [lia|]. tauto.
      * exists (prev :: l1), l2. repeat split; auto.
        -- cbn [app]. rewrite E1. reflexivity.
        -- cbn [app]. rewrite E2. reflexivity.
        -- discriminate.
Qed.

Lemma op_list_add_spec l o :
  ops_sorted l ->
  ops_sorted (op_list_add l o) /\
  exists l1 l2, l = l1 ++ l2 /\ op_list_add l o = l1 ++ o :: l2 /\
    Forall (fun x => o_num x <= o_num o) l1 /\ Forall (fun x => o_num o < o_num x) l2.
Proof.
  intro Hs. unfold op_list_add. destruct l as [|first rest].
  - split; [cbn; lia|]. exists [], []. auto.
  - destruct Hs as [_ Hs]. destruct (N.ltb_spec (o_num o) (o_num first)) as [Hlt|Hge].
    + split; [cbn; repeat split; auto; lia|]. exists [], (first :: rest). repeat split; auto.
      constructor; [exact Hlt|].
      clear - Hs Hlt. revert first Hs Hlt. induction rest as [|x rest IH]; intros first Hs Hlt; constructor.
      * destruct Hs. lia.
      * destruct Hs as [Hnx Hs]. apply (IH x); [exact Hs|lia].
    + destruct (op_list_add_loop_spec first rest o Hs Hge) as [S (l1 & l2 & E1 & E2 & _ & F1 & F2)].
      split.
      * unfold ops_sorted. destruct (op_list_add_loop first rest o) as [|z zs]; [exact I|].
        cbn in *. split; [lia|]. tauto.
      * exists l1, l2. auto.
Qed.

Lemma with_num_app n l1 l2 : with_num n (l1 ++ l2) = with_num n l1 ++ with_num n l2.
Proof. unfold with_num. apply filter_app. Qed.

Lemma op_list_add_with_num l o n :
  ops_sorted l -> with_num n (op_list_add l o) = with_num n (l ++ [o]).
Proof.
  intro Hs. destruct (op_list_add_spec l o Hs) as [_ (l1 & l2 & -> & -> & F1 & F2)].
  rewrite !with_num_app. change (o :: l2) with ([o] ++ l2). rewrite with_num_app, <- app_assoc. f_equal.
  unfold with_num at 1 4. cbn [filter]. destruct (N.eqb_spec (o_num o) n) as [<-|Hne].
  - replace (with_num (o_num o) l2) with (@nil op); [reflexivity|].
    symmetry. unfold with_num. clear - F2. induction F2 as [|x l2 Hx F2 IH]; [reflexivity|].
    cbn [filter]. destruct (N.eqb_spec (o_num x) (o_num o)); [lia|exact IH].
  - cbn [app]. rewrite app_nil_r. reflexivity.
Qed.

Lemma op_list_add_perm l o : ops_sorted l -> Permutation (op_list_add l o) (o :: l).
Proof.
  intro Hs. destruct (op_list_add_spec l o Hs) as [_ (l1 & l2 & -> & -> & _)].
  symmetry. apply Permutation_middle.
Qed.

Lemma adds_sorted os l : ops_sorted l -> ops_sorted (fold_left op_list_add os l).
Proof.
  revert l. induction os as [|o os IH]; intros l Hs; cbn [fold_left]; [exact Hs|].
  apply IH. apply op_list_add_spec. exact Hs.
Qed.
Lemma adds_perm os l : ops_sorted l -> Permutation (fold_left op_list_add os l) (os ++ l).
Proof.
  revert l. induction os as [|o os IH]; intros l Hs; cbn [fold_left app]; [reflexivity|].
  rewrite IH by (apply op_list_add_spec; exact Hs). rewrite (op_list_add_perm _ _ Hs).
  symmetry. apply Permutation_middle.
Qed.
Lemma adds_with_num os l n : ops_sorted l ->
  with_num n (fold_left op_list_add os l) = with_num n l ++ with_num n os.
Proof.
  revert l. induction os as [|o os IH]; intros l Hs; cbn [fold_left].
  - cbn. rewrite app_nil_r. reflexivity.
  - rewrite IH by (apply op_list_add_spec; exact Hs). rewrite op_list_add_with_num by exact Hs.
    rewrite with_num_app, <- app_assoc. f_equal. change (o :: os) with ([o] ++ os). rewrite with_num_app. reflexivity.
Qed.

(** Adding the options of a sorted list to the empty list copies it. *)
Lemma op_list_add_last_eq l o :
  ops_sorted l -> Forall (fun x => o_num x <= o_num o) l -> op_list_add l o = l ++ [o].
Proof.
  intros Hs Hall. destruct (op_list_add_spec l o Hs) as [_ (l1 & l2 & -> & -> & _ & F2)].
  destruct l2 as [|x l2]; [rewrite app_nil_r; reflexivity|].
  exfalso. apply Forall_app in Hall as [_ Hall]. inversion Hall; inversion F2; subst. lia.
Qed.

Lemma sorted_from_forall n l : ops_sorted_from n l -> Forall (fun x => n <= o_num x) l.
Proof.
  revert n. induction l as [|x l IH]; intros n; cbn; [auto|]. intros [H1 H2]. constructor; [exact H1|].
  eapply Forall_impl; [|exact (IH _ H2)]. cbn. intros. lia.
Qed.

Lemma sorted_app_inv n l1 l2 : ops_sorted_from n (l1 ++ l2) ->
  ops_sorted_from n l1 /\ (forall x y, In x l1 -> In y l2 -> o_num x <= o_num y).
Proof.
  revert n. induction l1 as [|a l1 IH]; intros n; cbn [app ops_sorted_from].
  - intros _. split; [exact I|]. intros x y [].
  - intros [H1 H2]. destruct (IH _ H2) as [H3 H4]. repeat split; auto.
    intros x y [<-|Hx] Hy; [|apply H4; assumption].
    apply sorted_from_forall in H2. rewrite Forall_forall in H2. apply H2. apply in_or_app. auto.
Qed.

Lemma adds_copy os l : ops_sorted (l ++ os) -> fold_left op_list_add os l = l ++ os.
Proof.
  revert l. induction os as [|o os IH]; intros l Hs; cbn [fold_left].
  - rewrite app_nil_r. reflexivity.
  - destruct (sorted_app_inv _ _ _ Hs) as [Hl Hx].
    rewrite op_list_add_last_eq; [|exact Hl|apply Forall_forall; intros x Hin; apply Hx; [exact Hin|left; reflexivity]].
    rewrite IH; rewrite <- app_assoc; auto.
Qed.

Lemma wf_create : wf_msg msg_create.
Proof. split; cbn; try (unfold lenN; cbn; lia); auto; constructor. Qed.

Ltac wfs := split; cbn [m_ver m_type m_class m_detail m_id m_token m_ops m_payload clear_payload set_payload]; auto; try lia.

Lemma wf_run_setter m s : wf_msg m -> setter_ok s -> wf_msg (run_setter m s).
Proof.
  intros W Hs. pose proof W as W0. destruct W as [W1 W2 W3 W4 W5 W6 W7 W8 W9 W10].
  destruct s as [t|c d|i|t|n v|pl|]; unfold run_setter; cbv zeta iota.
  - unfold set_type, T_CON, T_NON, T_ACK, T_RST.
    destruct (N.eqb_spec t 0), (N.eqb_spec t 1), (N.eqb_spec t 2), (N.eqb_spec t 3); cbn [negb andb];
      try exact W0; wfs.
  - unfold set_code, MAX_CODE_CLASS, MAX_CODE_DETAIL. destruct (N.ltb_spec 7 c); [exact W0|].
    destruct (N.ltb_spec 31 d); [exact W0|]. wfs.
  - unfold set_msg_id, MAX_MSG_ID. destruct (N.ltb_spec 65535 i); [exact W0|]. wfs.
  - unfold set_token, MAX_TOKEN_LEN. destruct (N.ltb_spec 8 (lenN t)); [exact W0|]. wfs.
  - cbn [add_op]. wfs.
    + apply op_list_add_spec. exact W8.
    + rewrite op_list_add_perm by exact W8. constructor; [exact Hs|exact W9].
  - wfs.
  - wfs. constructor.
Qed.

Lemma wf_build l : Forall setter_ok l -> wf_msg (msg_build l).
Proof.
  unfold msg_build. generalize msg_create, wf_create. induction l as [|s l IH]; intros m W Hl; cbn [fold_left].
  - exact W.
  - inversion Hl; subst. apply IH; [apply wf_run_setter; assumption|assumption].
Qed.

Lemma deltas_len_ok prev l : deltas_ok prev l -> Forall len_ok l.
Proof.
  revert prev. induction l as [|o l IH]; intro prev; cbn; [constructor|].
  intros (_ & H & Hd). constructor; [|apply (IH _ Hd)]. unfold len_ok, two32. lia.
Qed.

(** ** Property-level lemmas for the codec *)

Lemma decode_encode l sg cap b past :
  Forall setter_ok l ->
  representable (msg_build l) ->
  (sg = UnsignedChar \/ exts_low 0 (m_ops (msg_build l))) ->
  cap < two64 ->
  msg_format (msg_build l) cap = Ok b ->
  lenN b < two16 -> past <> [] ->
  msg_parse sg (b ++ past) (lenN b) = Ok (msg_build l).
Proof.
  intros Hl Hr Hsg Hcap Hf Hb Hp. pose proof (wf_build l Hl) as W. set (m := msg_build l) in *.
  destruct (format_result m cap W) as [(E & _ & Hck)|[(E & _)|[(E & _)|(E & _)]]];
    try (rewrite Hf in E; discriminate); auto.
  { destruct Hr as [_ Hd]. exact (deltas_len_ok _ _ Hd). }
  rewrite Hf in E. injection E as ->.
  apply parse_complete; auto. apply encodes_enc; auto.
  apply check_consistent; [destruct W; assumption|exact Hck].
Qed.

Lemma encode_decode b past m cap :
  bytes_ok b -> lenN b < two16 -> past <> [] ->
  msg_parse UnsignedChar (b ++ past) (lenN b) = Ok m ->
  lenN b < cap -> cap < two64 -> msg_format m cap = Ok b.
Proof.
  intros Hb Hl Hp E Hc1 Hc2. apply parse_sound in E; auto.
  destruct (encodes_inv m b E Hl) as (-> & W & [Hk Hd] & Hcons).
  destruct (format_result m cap W (deltas_len_ok _ _ Hd) Hc2) as [(F & _)|[(F & C)|[(F & C & _)|(F & C & _)]]].
  - exact F.
  - apply check_consistent in Hcons; [congruence|destruct W; assumption].
  - rewrite lenN_enc_msg in Hc1. lia.
  - rewrite lenN_enc_msg in Hc1. lia.
Qed.

Lemma format_no_overflow l cap :
  Forall setter_ok l -> cap < two64 ->
  Forall len_ok (m_ops (msg_build l)) ->
  (wire_size (msg_build l) <= cap \/ Forall no_short (m_ops (msg_build l))) ->
  (exists b, msg_format (msg_build l) cap = Ok b /\ lenN b <= cap) \/
  msg_format (msg_build l) cap = Err ENOSPC \/ msg_format (msg_build l) cap = Err EBADMSG.
Proof.
  intros Hl Hc Hlen H. pose proof (wf_build l Hl) as W.
  destruct (format_result _ cap W Hlen Hc) as [(F & T & _)|[(F & C)|[(F & C & _)|(F & C1 & C2)]]]; auto.
  - left. eexists. split; [exact F|]. rewrite lenN_enc_msg. exact T.
  - exfalso. destruct H as [H|H]; [lia|contradiction].
Qed.

Lemma format_room l cap :
  Forall setter_ok l -> cap < two64 ->
  Forall len_ok (m_ops (msg_build l)) ->
  consistent (msg_build l) ->
  (wire_size (msg_build l) < cap \/
   wire_size (msg_build l) <= cap /\ Forall no_long (m_ops (msg_build l))) ->
  exists b, msg_format (msg_build l) cap = Ok b /\ lenN b = wire_size (msg_build l).
Proof.
  intros Hl Hc Hlen Hcons H. pose proof (wf_build l Hl) as W.
  destruct (format_result _ cap W Hlen Hc) as [(F & T & _)|[(F & C)|[(F & C1 & C2)|(F & C1 & C2)]]].
  - eexists. split; [exact F|]. apply lenN_enc_msg.
  - apply check_consistent in Hcons; [congruence|destruct W; assumption].
  - exfalso. destruct H as [H|[H F']]; [lia|]. specialize (C2 F'). lia.
  - exfalso. destruct H as [H|[H F']]; lia.
Qed.

(** A successful format of a representable message is its wire form. *)
Lemma format_encodes l cap b :
  Forall setter_ok l -> cap < two64 -> representable (msg_build l) ->
  msg_format (msg_build l) cap = Ok b -> encodes (msg_build l) b.
Proof.
  intros Hl Hc Hr Hf. pose proof (wf_build l Hl) as W.
  destruct Hr as [Hk Hd].
  destruct (format_result _ cap W (deltas_len_ok _ _ Hd) Hc) as [(F & T & Hck)|[(F & C)|[(F & C1 & C2)|(F & C1 & C2)]]];
    rewrite Hf in F; try discriminate. injection F as ->.
  apply encodes_enc; [exact W|split; assumption|].
  apply check_consistent; [destruct W; assumption|exact Hck].
Qed.

(** ** Options *)

Definition adds (l : list op) : list op := fold_left op_list_add l [].

Lemma adds_spec l :
  ops_sorted (adds l) /\ Permutation (adds l) l /\
  (forall n, with_num n (adds l) = with_num n l).
Proof.
  unfold adds. repeat split.
  - apply adds_sorted. exact I.
  - rewrite adds_perm by exact I. rewrite app_nil_r. reflexivity.
  - intro n. rewrite adds_with_num by exact I. reflexivity.
Qed.

Lemma build_ops l : m_ops (msg_build l) = adds (added l).
Proof.
  unfold msg_build, adds. change (@nil op) with (m_ops msg_create).
  generalize msg_create. induction l as [|s l IH]; intro m; cbn [fold_left added map concat]; [reflexivity|].
  rewrite IH. rewrite fold_left_app. f_equal.
  destruct s as [t|c d|i|t|n v|pl|]; unfold run_setter; cbv zeta iota; cbn [fold_left]; try reflexivity.
  - unfold set_type. destruct (_ && _); reflexivity.
  - unfold set_code. destruct (_ <? _); [reflexivity|]. destruct (_ <? _); reflexivity.
  - unfold set_msg_id. destruct (_ <? _); reflexivity.
  - unfold set_token. destruct (_ <? _); reflexivity.
Qed.

Lemma build_ops_spec l :
  let r := m_ops (msg_build l) in
  ops_sorted r /\ Permutation r (added l) /\ (forall n, with_num n r = with_num n (added l)).
Proof. cbv zeta. rewrite build_ops. apply adds_spec. Qed.

(** ** Critical and unsafe options *)

Lemma check_critical_spec l :
  let bad o := N.odd (o_num o) = true /\ op_num_is_recognized (o_num o) = false in
  (check_critical_ops l = 0 <-> forall o, In o l -> ~ bad o) /\
  (check_critical_ops l <> 0 ->
   exists l1 o l2, l = l1 ++ o :: l2 /\ bad o /\ check_critical_ops l = o_num o /\
                   forall x, In x l1 -> ~ bad x).
Proof.
  cbv zeta.
  assert (Hodd : forall n, op_num_is_critical n = N.odd n).
  { intro n. unfold op_num_is_critical. change 1 with (N.ones 1). rewrite N.land_ones.
    change (2 ^ 1) with 2. rewrite <- N.bit0_mod. rewrite N.bit0_odd. destruct (N.odd n); reflexivity. }
  induction l as [|o l [IH1 IH2]]; cbn [check_critical_ops].
  - split; [|congruence]. split; [intros _ o []|reflexivity].
  - rewrite Hodd. destruct (N.odd (o_num o)) eqn:Eo; cbn [andb];
      [destruct (op_num_is_recognized (o_num o)) eqn:Er; cbn [negb]|].
    + split.
      * rewrite IH1. split; [intros H x [<-|Hx]; [intros [_ C]; congruence|auto]|].
        intros H x Hx. apply H. right. exact Hx.
      * intro H. destruct (IH2 H) as (l1 & x & l2 & -> & Hb & E & Hl1).
        exists (o :: l1), x, l2. repeat split; try tauto. intros y [<-|Hy]; [intros [_ C]; congruence|auto].
    + split.
      * split; [intro C; rewrite C in Eo; discriminate|]. intro H. exfalso. apply (H o); [left; reflexivity|auto].
      * intros _. exists [], o, l. repeat split; auto.
    + split.
      * rewrite IH1. split; [intros H x [<-|Hx]; [intros [C _]; congruence|auto]|].
        intros H x Hx. apply H. right. exact Hx.
      * intro H. destruct (IH2 H) as (l1 & x & l2 & -> & Hb & E & Hl1).
        exists (o :: l1), x, l2. repeat split; try tauto. intros y [<-|Hy]; [intros [C _]; congruence|auto].
Qed.

Lemma check_unsafe_spec l :
  let bad o := N.testbit (o_num o) 1 = true /\ op_num_is_recognized (o_num o) = false in
  (check_unsafe_ops l = 0 <-> forall o, In o l -> ~ bad o) /\
  (check_unsafe_ops l <> 0 ->
   exists l1 o l2, l = l1 ++ o :: l2 /\ bad o /\ check_unsafe_ops l = o_num o /\
                   forall x, In x l1 -> ~ bad x).
Proof.
  cbv zeta.
  assert (Hodd : forall n, op_num_is_unsafe n = N.testbit n 1).
  { intro n. unfold op_num_is_unsafe. change 2 with (N.shiftl 1 1). rewrite land_pow2_zero.
    apply negb_involutive. }
  induction l as [|o l [IH1 IH2]]; cbn [check_unsafe_ops].
  - split; [|congruence]. split; [intros _ o []|reflexivity].
  - rewrite Hodd. destruct (N.testbit (o_num o) 1) eqn:Eo; cbn [andb];
      [destruct (op_num_is_recognized (o_num o)) eqn:Er; cbn [negb]|].
    + split.
      * rewrite IH1. split; [intros H x [<-|Hx]; [intros [_ C]; congruence|auto]|].
        intros H x Hx. apply H. right. exact Hx.
      * intro H. destruct (IH2 H) as (l1 & x & l2 & -> & Hb & E & Hl1).
        exists (o :: l1), x, l2. repeat split; try tauto. intros y [<-|Hy]; [intros [_ C]; congruence|auto].
    + split.
      * split; [intro C; rewrite C in Eo; discriminate|]. intro H. exfalso. apply (H o); [left; reflexivity|auto].
      * intros _. exists [], o, l. repeat split; auto.
    + split.
      * rewrite IH1. split; [intros H x [<-|Hx]; [intros [C _]; congruence|auto]|].
        intros H x Hx. apply H. right. exact Hx.
      * intro H. destruct (IH2 H) as (l1 & x & l2 & -> & Hb & E & Hl1).
        exists (o :: l1), x, l2. repeat split; try tauto. intros y [<-|Hy]; [intros [C _]; congruence|auto].
Qed.

(** ** Copy *)

Lemma copy_wf m : m_type m < 4 -> m_class m <= 7 -> m_detail m <= 31 -> m_id m <= 65535 ->
  lenN (m_token m) <= 8 -> ops_sorted (m_ops m) -> msg_copy msg_create m = Ok m.
Proof.
  intros H1 H2 H3 H4 H5 H6. unfold msg_copy, set_type, T_CON, T_NON, T_ACK, T_RST.
  replace (negb (m_type m =? 0) && negb (m_type m =? 1) && negb (m_type m =? 2) && negb (m_type m =? 3)) with false.
  2: { symmetry. destruct (N.eqb_spec (m_type m) 0), (N.eqb_spec (m_type m) 1),
       (N.eqb_spec (m_type m) 2), (N.eqb_spec (m_type m) 3); try reflexivity. lia. }
  cbn [bind m_ver m_type m_class m_detail m_id m_token m_ops m_payload msg_create].
  unfold set_code, MAX_CODE_CLASS, MAX_CODE_DETAIL. destruct (N.ltb_spec 7 (m_class m)); [lia|].
  destruct (N.ltb_spec 31 (m_detail m)); [lia|].
  cbn [bind m_ver m_type m_class m_detail m_id m_token m_ops m_payload].
  unfold set_msg_id, MAX_MSG_ID. destruct (N.ltb_spec 65535 (m_id m)); [lia|].
  cbn [bind m_ver m_type m_class m_detail m_id m_token m_ops m_payload].
  unfold set_token, MAX_TOKEN_LEN. destruct (N.ltb_spec 8 (lenN (m_token m))); [lia|].
  cbn [bind m_ver m_type m_class m_detail m_id m_token m_ops m_payload set_payload].
  rewrite adds_copy by exact H6. destruct m; reflexivity.
Qed.

Lemma copy_built l : Forall setter_ok l -> msg_copy msg_create (msg_build l) = Ok (msg_build l).
Proof. intro H. destruct (wf_build l H). apply copy_wf; assumption. Qed.

Lemma copy_parsed b past m :
  bytes_ok b -> lenN b < two16 ->
  msg_parse UnsignedChar (b ++ past) (lenN b) = Ok m -> msg_copy msg_create m = Ok m.
Proof.
  intros Hb Hl E. apply parse_sound in E; auto. destruct (encodes_inv m b E Hl) as (_ & W & _).
  destruct W. apply copy_wf; assumption.
Qed.

(** ** Path *)

Lemma path_fold l out n c :
  exists r, fold_left path_step l (out, n, c)
  = (out ++ firstn (N.to_nat n) (path_bytes l), r, c + lenN (path_bytes l)).
Proof.
  revert out n c. induction l as [|o l IH]; intros out n c.
  - exists n. cbn. rewrite firstn_nil, app_nil_r. f_equal. unfold lenN. cbn. lia.
  - cbn [fold_left]. unfold path_step at 2. unfold path_bytes, with_num. cbn [filter map concat].
    change OP_URI_PATH with 11. destruct (N.eqb_spec (o_num o) 11) as [E|E].
    2: { apply IH. }
    cbn [map concat]. fold (with_num 11 l). fold (path_bytes l).
    set (m1 := if n <? 1 then n else 1). set (m2 := if n - m1 <? o_len o then n - m1 else o_len o).
    destruct (IH ((out ++ firstn (N.to_nat m1) [47]) ++ firstn (N.to_nat m2) (o_val o)) (n - m1 - m2) (c + 1 + o_len o)) as [r Hr].
    exists r. rewrite Hr. f_equal; [f_equal|].
    + rewrite <- !app_assoc. f_equal. unfold m1, m2. cbn [app].
      destruct (N.ltb_spec n 1) as [H1|H1].
      * assert (n = 0) as -> by lia. cbn [N.to_nat].
        replace (if 0 - m1 <? o_len o then 0 - m1 else o_len o) with 0
          by (destruct (N.ltb_spec (0 - m1) (o_len o)); lia).
        reflexivity.
      * replace (N.to_nat n) with (S (N.to_nat (n - 1))) by lia. cbn [firstn app].
        change (N.to_nat 1) with 1%nat. cbn [firstn app]. f_equal.
        unfold m1, o_len, lenN. destruct (N.ltb_spec (n - 1) (N.of_nat (length (o_val o)))) as [H2|H2].
        -- replace (n - 1 - (n - 1)) with 0 by lia. change (N.to_nat 0) with 0%nat. cbn [firstn].
           rewrite app_nil_r. rewrite firstn_app.
           replace (N.to_nat (n - 1) - length (o_val o))%nat with 0%nat by lia.
           cbn [firstn]. rewrite app_nil_r. reflexivity.
        -- rewrite Nnat.Nat2N.id, firstn_all. rewrite firstn_app.
           rewrite (firstn_all2 (o_val o)) by lia.
           replace (N.to_nat (n - 1 - N.of_nat (length (o_val o)))) with (N.to_nat (n - 1) - length (o_val o))%nat by lia.
           reflexivity.
    + cbn [app]. rewrite lenN_cons, lenN_app. unfold o_len. lia.
Qed.

Lemma path_bytes_nil l : path_bytes l = [] <-> with_num 11 l = [].
Proof.
  unfold path_bytes. destruct (with_num 11 l); [tauto|]. cbn. split; discriminate.
Qed.

Lemma uri_path_spec l len :
  2 <= len ->
  let full := match path_bytes l with [] => [47] | p => p end in
  let shown := firstn (N.to_nat (len - 1)) full in
  uri_path_to_str l len
  = Ok (Some (shown ++ repeat 0 (N.to_nat (len - lenN shown))), lenN full).
Proof.
  intros Hlen. cbv zeta. unfold uri_path_to_str. destruct (N.eqb_spec len 0); [lia|].
  destruct (path_fold l [] (len - 1) 0) as [r ->]. cbn [app].
  destruct (N.ltb_spec len (lenN (firstn (N.to_nat (len - 1)) (path_bytes l)))) as [C|_].
  { rewrite lenN_firstn in C. lia. }
  destruct (path_bytes l) as [|x p] eqn:E.
  - rewrite firstn_nil. rewrite (@lenN_nil N).
    destruct (N.eqb_spec 0 0); [|lia]. destruct (N.ltb_spec 1 len); [|lia]. cbn [andb].
    replace (firstn (N.to_nat (len - 1)) [47]) with [47]; [reflexivity|].
    symmetry. apply firstn_all2. cbn. lia.
  - destruct (N.eqb_spec (lenN (firstn (N.to_nat (len - 1)) (x :: p))) 0) as [C|_].
    { rewrite lenN_firstn, lenN_cons in C. lia. }
    cbn [andb]. rewrite N.add_0_l. reflexivity.
Qed.

Lemma uri_path_safe l len : exists buf n, uri_path_to_str l len = Ok (buf, n) /\
  match buf with
  | None => len = 0
  | Some b => lenN b = len /\ exists s, b = s ++ [0]
  end.
Proof.
  unfold uri_path_to_str. destruct (N.eqb_spec len 0); [eauto|].
  destruct (path_fold l [] (len - 1) 0) as [r ->]. cbn [app].
  set (out := firstn (N.to_nat (len - 1)) (path_bytes l)).
  assert (Ho : lenN out <= len - 1) by (unfold out; rewrite lenN_firstn; lia).
  destruct (N.ltb_spec len (lenN out)); [lia|].
  assert (Hp : forall o, lenN o <= len - 1 ->
      lenN (o ++ repeat 0 (N.to_nat (len - lenN o))) = len /\
      exists s, o ++ repeat 0 (N.to_nat (len - lenN o)) = s ++ [0]).
  { intros o Hol. split; [rewrite lenN_app, lenN_repeat; lia|].
    replace (N.to_nat (len - lenN o)) with (N.to_nat (len - lenN o - 1) + 1)%nat by lia.
    rewrite repeat_app. exists (o ++ repeat 0 (N.to_nat (len - lenN o - 1))). rewrite <- app_assoc. reflexivity. }
  destruct (N.eqb_spec (lenN out) 0) as [Hz|Hz]; cbn [andb].
  - destruct (N.ltb_spec 1 len).
    + do 2 eexists. split; [reflexivity|]. apply (Hp [47]). unfold lenN. cbn. lia.
    + do 2 eexists. split; [reflexivity|]. apply Hp. exact Ho.
  - do 2 eexists. split; [reflexivity|]. apply Hp. exact Ho.
Qed.
