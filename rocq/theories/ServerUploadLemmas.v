(** Blockwise transfers to the server, in the history. *)
From Verif Require Import BaseLemmas MsgModel MsgSpec MsgLemmas MsgFormatLemmas MsgBlockLemmas
  ClientModel ClientSpec ClientLemmas ClientReplyLemmas ServerModel ServerSpec ServerLemmas
  ServerTraceLemmas ServerPropLemmas ServerHistLemmas ServerBlockSpec ServerBlockLemmas.

(** ** Requests *)

Section Requests.
Context (C : scfg) (c : N).

Lemma requests_app i h1 ms1 j h2 ms2 k :
  requests C c i h1 ms1 j -> requests C c j h2 ms2 k -> requests C c i (h1 ++ h2) (ms1 ++ ms2) k.
Proof.
  intros H H2. induction H as [i|i d m h ms j R T I Ac H IH|i d m h ms j R T I Ac H IH|i d m h ms j R T I H IH|i d m h ms j R T H IH|i o h ms j O H IH];
    cbn [List.app]; auto.
  - eapply rs_new; eauto.
  - eapply rs_refused; eauto.
  - eapply rs_repeated; eauto.
  - eapply rs_reply; eauto.
  - eapply rs_other; eauto.
Qed.

Definition silent (o : sobs) : Prop := match o with SRecv _ _ => False | _ => True end.
Lemma requests_silent i s : Forall silent s -> requests C c i s [] i.
Proof.
  induction 1 as [|o s Ho Hs IH]; [constructor|]. apply rs_other; [|exact IH]. intros d ->. exact Ho.
Qed.
Lemma requests_foreign i s : Forall (foreign c) s -> requests C c i s [] i.
Proof.
  induction 1 as [|o s Ho Hs IH]; [constructor|]. apply rs_other; [|exact IH]. intros d ->. apply Ho. reflexivity.
Qed.

Definition inside (o : sobs) : Prop := ~ boundary c o.
Lemma foreign_inside s : Forall (foreign c) s -> Forall inside s.
Proof.
  intro H. eapply Forall_impl; [|exact H]. intros o Ho Hb. apply Ho. destruct o; cbn in *; try contradiction; congruence.
Qed.

Definition since_at (h : list sobs) (ms : list msg) (j : N) : Prop :=
  exists h0 m mid ms', h = h0 ++ SHandle c m :: mid /\ ms = m :: ms' /\ requests C c (m_id m) mid ms' j /\ Forall inside mid.

Lemma since_at_handled h ms j : since_at h ms j -> since_handled C c h ms.
Proof.
  intros (h0 & m & mid & ms' & H1 & H2 & H3 & H4). exists h0, m, mid, ms', j. repeat split; auto.
  apply Forall_forall. exact H4.
Qed.
Lemma since_at_app h ms j s ms' k : since_at h ms j -> requests C c j s ms' k -> Forall inside s -> since_at (h ++ s) (ms ++ ms') k.
Proof.
  intros (h0 & m & mid & ms1 & -> & -> & H3 & H4) H5 H6. exists h0, m, (mid ++ s), (ms1 ++ ms').
  split; [rewrite <- app_assoc; reflexivity|]. split; [reflexivity|]. split; [eapply requests_app; eassumption|].
  apply Forall_app. auto.
Qed.

End Requests.

(** ** Consecutive blocks *)

Inductive all_more : N -> N -> list msg -> N -> N -> Prop :=
| am_nil size pos : all_more size pos [] size pos
| am_cons size pos m num o ms size' pos' :
    block1 m num true o -> num * smaller size o = pos -> m_payload m <> [] ->
    all_more (smaller size o) (pos + lenN (m_payload m)) ms size' pos' -> all_more size pos (m :: ms) size' pos'.

Lemma all_more_snoc size pos ms size' pos' m num o : all_more size pos ms size' pos' ->
  block1 m num true o -> num * smaller size' o = pos' -> m_payload m <> [] ->
  all_more size pos (ms ++ [m]) (smaller size' o) (pos' + lenN (m_payload m)).
Proof.
  intros H H1 H2 H3. induction H as [size pos|size pos m' num' o' ms size' pos' B1 B2 B3 H IH]; cbn [List.app].
  - eapply am_cons; eauto. constructor.
  - eapply am_cons; eauto.
Qed.
Lemma all_more_end size pos ms size' pos' m num more o : all_more size pos ms size' pos' ->
  block1 m num more o -> num * smaller size' o = pos' -> m_payload m <> [] ->
  consecutive_blocks size pos (ms ++ [m]) more.
Proof.
  intros H H1 H2 H3. induction H as [size pos|size pos m' num' o' ms size' pos' B1 B2 B3 H IH]; cbn [List.app].
  - eapply cb_last; eauto.
  - eapply cb_more; eauto.
Qed.
Lemma all_more_blocks size pos ms size' pos' : all_more size pos ms size' pos' -> ms <> [] -> consecutive_blocks size pos ms true.
Proof.
  induction 1 as [size pos|size pos m' num' o' ms size' pos' B1 B2 B3 H IH]; [congruence|]. intros _.
  destruct ms as [|m ms]; [eapply cb_last; eauto|]. eapply cb_more; eauto. apply IH. discriminate.
Qed.
Lemma all_more_length size pos ms size' pos' : all_more size pos ms size' pos' ->
  pos' = pos + lenN (concat (map m_payload ms)).
Proof.
  induction 1 as [size pos|size pos m' num' o' ms size' pos' B1 B2 B3 H IH]; cbn [map concat].
  - rewrite (@lenN_nil N). lia.
  - rewrite lenN_app. lia.
Qed.
Lemma all_more_inv size pos ms size' pos' m more : all_more size pos ms size' pos' ->
  consecutive_blocks size pos (ms ++ [m]) more -> exists num o, block1 m num more o /\ num * smaller size' o = pos' /\ m_payload m <> [].
Proof.
  induction 1 as [size pos|size pos m' num' o' ms size' pos' B1 B2 B3 H IH]; cbn [List.app]; intro HC.
  - inversion HC as [? ? ? num more' o Hb Hn Hp|? ? ? num o ms more' Hb Hn Hp Hc]; subst; [eauto|inversion Hc].
  - inversion HC as [? ? ? num more' o Hb Hn Hp|? ? ? num o ms0 more' Hb Hn Hp Hc]; subst.
    + destruct ms; discriminate.
    + apply IH. assert (Ho : o = o'); [|subst o; exact Hc].
      unfold block1 in Hb, B1. destruct (parse_block_op _ _) as [[b|]|?|?|]; try contradiction; destruct Hb as (_ & _ & ->), B1 as (_ & _ & ->); reflexivity.
Qed.

Lemma block1_of m o1 : parse_block_op (m_ops m) OP_BLOCK1 = Ok o1 ->
  block1 m (b_num (blk_or_zero o1)) (b_more (blk_or_zero o1)) (option_map b_size o1).
Proof. intro H. unfold block1. rewrite H. destruct o1; cbn; auto. Qed.
Lemma block1_inv m o1 num more o : parse_block_op (m_ops m) OP_BLOCK1 = Ok o1 -> block1 m num more o ->
  num = b_num (blk_or_zero o1) /\ more = b_more (blk_or_zero o1) /\ o = option_map b_size o1.
Proof. intro H. unfold block1. rewrite H. destruct o1; cbn; auto. Qed.
Lemma resize_smaller o1 size : resize o1 size = smaller size (option_map b_size o1).
Proof. unfold resize, smaller. destruct o1 as [b|]; cbn; [|reflexivity]. destruct (N.ltb_spec (b_size b) size); lia. Qed.

(** ** The transaction during an upload *)

Definition on_target (t : trans) (m : msg) : Prop := method_of (t_type t) (m_detail m) /\ seen_path m = cstr (t_uri t).

Record up_state (C : scfg) (s0 : N) (ms : list msg) (buf : list N) (t : trans) : Prop := {
  us_takes : takes_body t buf;
  us_len : lenN buf = sc_large C;
  us_blocks : all_more s0 0 ms (t_size1 t) (t_next1 t);
  us_body : firstn (N.to_nat (t_next1 t)) buf = concat (map m_payload ms);
  us_target : forall m, In m ms -> on_target t m;
  us_size : ms <> [] -> exists szx, szx < 7 /\ t_size1 t = 2 ^ (4 + szx)
}.

Lemma next_block2_type t req resp : t_type (fst (fst (next_block2 t req resp))) = TRegular \/
  t_type (fst (fst (next_block2 t req resp))) = t_type t.
Proof.
  unfold next_block2. destruct (nb_start_spec t req resp) as [t' H1 _|t' u H1 _|o1 o2 E1 E2]; [auto|auto|].
  unfold nb_block2. cbv zeta.
  assert (Hc : forall t r c d, t_type (fst (fst (end_code t r c d))) = t_type t).
  { intros t0 r c d. unfold end_code. destruct (set_code r c d); reflexivity. }
  destruct (_ || _); [rewrite Hc; auto|].
  destruct (calc_block_szx _); try (left; reflexivity).
  destruct (format_block_val _ _ _ _); try (left; reflexivity).
  destruct (add_op _ _ _); try (left; reflexivity).
  destruct (bind _ _); try (left; reflexivity).
  rewrite Hc. destruct (_ <? _); [left|right]; reflexivity.
Qed.

Lemma taken_prefix t buf m : t_next1 t + lenN (m_payload m) <= lenN buf ->
  firstn (N.to_nat (t_next1 t + lenN (m_payload m))) (taken t buf m) = firstn (N.to_nat (t_next1 t)) buf ++ m_payload m.
Proof.
  intro H. unfold taken. rewrite app_assoc.
  replace (N.to_nat (t_next1 t + lenN (m_payload m))) with (length (firstn (N.to_nat (t_next1 t)) buf ++ m_payload m) + 0)%nat.
  - rewrite firstn_app_2. cbn [firstn]. apply app_nil_r.
  - rewrite app_length, firstn_length. unfold lenN in *. lia.
Qed.
Lemma taken_len t buf m : t_next1 t + lenN (m_payload m) <= lenN buf -> lenN (taken t buf m) = lenN buf.
Proof. intro H. unfold taken. rewrite !lenN_app, lenN_firstn, lenN_skipn. lia. Qed.

Section App.
Context {A : Type} (P : app A) (E : senv) (C : scfg).

Lemma rx_out_type t req resp s2 rr l x : rx_out t req resp s2 rr l x -> uploading (t_type t) -> ~ uploading (t_type (fst (fst x))).
Proof.
  intros [s e t' H|s ls b e t' H _|s ls b t' H _|s ls b e t' _ _ _ H _ _ _ _ _ _] Hu; cbn [fst].
  1-3: rewrite H; intros [D|D]; discriminate.
  destruct (next_block2_type t' req (fold_left run_setter ls resp)) as [->| ->]; [intros [D|D]; discriminate|].
  rewrite H. destruct Hu as [->| ->]; cbn; intros [D|D]; discriminate.
Qed.

(** The transaction goes on taking the body. *)
Lemma up_more a t s0 ms buf m resp a' l t' resp' r : up_state C s0 ms buf t -> bytes_ok (m_payload m) ->
  nb1_out P a t buf m resp (a', l, (t', resp', r)) -> uploading (t_type t') ->
  a' = a /\ l = [] /\ core t' = core t /\ t_uri t' = t_uri t /\ t_type t' = t_type t /\
  exists buf', up_state C s0 (ms ++ [m]) buf' t'.
Proof.
  intros [[T1 T2 T3 T4 T5 T6 T7 T8 T9 T10] U2 U3 U4 U5 U6] Hmp H Hu.
  inversion H as [t0 H1 H2|t0 o1 d H1 H2 H3|t0 u H1 H2|t0 o1 H1 H2 H3|o1 o2 v E1 E2 D M size Z L Bk Bv|o1 o2 v rx a0 rr l0 x E1 E2 D M size Z L Bk Bv R Ap Ro]; subst.
  1-4: exfalso; rewrite H1 in Hu; destruct Hu; discriminate.
  - split; [reflexivity|]. split; [reflexivity|]. split; [apply core_block|]. split; [reflexivity|]. split; [reflexivity|].
    exists (taken t buf m). destruct D as (D1 & D2 & D3 & D4 & D5).
    assert (Hlen := taken_len t buf m D5).
    assert (Hsz : resize o1 (t_size1 t) <= 1024).
    { unfold resize. destruct o1 as [b|]; [destruct (N.ltb_spec (b_size b) (t_size1 t))|]; lia. }
    split; cbn [t_size1 t_next1 t_with_block t_type t_uri].
    + split; cbn [t_type t_body t_end t_next1 t_size1 t_size2 t_next2 t_rx t_with_block]; auto using taken_bytes; try lia.
      unfold resize. destruct o2 as [b|]; [destruct (N.ltb_spec (b_size b) (t_size2 t))|]; lia.
    + congruence.
    + unfold size. rewrite resize_smaller. eapply all_more_snoc; [exact U3| | |exact D4].
      * rewrite <- M. apply block1_of. exact E1.
      * rewrite <- resize_smaller. exact D3.
    + rewrite taken_prefix by exact D5. rewrite U4, map_app, concat_app. cbn [map concat]. rewrite app_nil_r. reflexivity.
    + intros m' Hm'. apply in_app_iff in Hm' as [Hm'|[<-|[]]]; [apply (U5 m' Hm')|split; assumption].
    + intros _. exact Z.
  - exfalso. apply (rx_out_type _ _ _ _ _ _ _ Ro) in Hu; [exact Hu|exact T1].
Qed.

(** The callback is called with the body. *)
Lemma up_call a t s0 ms buf m resp x c body : up_state C s0 ms buf t ->
  nb1_out P a t buf m resp x -> In (SCall c body) (snd (fst x)) ->
  c = t_client t /\ consecutive_blocks s0 0 (ms ++ [m]) false /\ body = concat (map m_payload (ms ++ [m])) /\
  (forall m', In m' (ms ++ [m]) -> on_target t m') /\ lenN body <= sc_large C /\
  exists l, snd (fst x) = SCall c body :: l /\ Forall (fun o => exists b, o = SBody c b) l.
Proof.
  intros [[T1 T2 T3 T4 T5 T6 T7 T8 T9 T10] U2 U3 U4 U5 U6] H Hin.
  inversion H as [t0 H1 H2|t0 o1 d H1 H2 H3|t0 u H1 H2|t0 o1 H1 H2 H3|o1 o2 v E1 E2 D M size Z L Bk Bv|o1 o2 v rx a0 rr l0 x' E1 E2 D M size Z L Bk Bv R Ap Ro]; subst;
    cbn [fst snd] in Hin; try (destruct Hin; fail).
  assert (Hl0 : Forall (fun o => exists b, o = SBody (t_client t) b) l0).
  { inversion Ro; subst; repeat constructor. eexists; reflexivity. }
  destruct Hin as [Hin|Hin].
  2: { exfalso. rewrite Forall_forall in Hl0. destruct (Hl0 _ Hin) as [b Hb]. discriminate. }
  injection Hin as <- <-. destruct D as (D1 & D2 & D3 & D4 & D5). cbn [fst snd].
  rewrite taken_prefix by exact D5. split; [reflexivity|]. split; [|split; [|split; [|split]]].
  - eapply all_more_end; [exact U3|rewrite <- M; apply block1_of; exact E1| |exact D4]. rewrite <- resize_smaller. exact D3.
  - rewrite U4, map_app, concat_app. cbn [map concat]. rewrite app_nil_r. reflexivity.
  - intros m' Hm'. apply in_app_iff in Hm' as [Hm'|[<-|[]]]; [apply (U5 m' Hm')|split; assumption].
  - rewrite lenN_app, lenN_firstn. lia.
  - exists l0. auto.
Qed.

(** ** Histories *)

Definition UInv (h : list sobs) (t : trans) : Prop :=
  uploading (t_type t) -> exists ms buf s0, since_at C (t_client t) h ms (m_id (t_req t)) /\ up_state C s0 ms buf t /\
    offered P (t_client t) ms s0.

(** Only the fields of the transfer matter. *)
Definition xfer (t : trans) :=
  (t_type t, t_body t, t_end t, t_size1 t, t_size2 t, t_next1 t, t_next2 t, t_uri t, t_detail t, t_rx t).

Lemma up_state_xfer s0 ms buf t t' : xfer t' = xfer t -> up_state C s0 ms buf t -> up_state C s0 ms buf t'.
Proof.
  intros Hx [[T1 T2 T3 T4 T5 T6 T7 T8 T9 T10] U2 U3 U4 U5 U6]. injection Hx as X1 X2 X3 X4 X5 X6 X7 X8 X9 X10.
  split; [split|..]; unfold on_target in *; rewrite ?X1, ?X2, ?X3, ?X4, ?X5, ?X6, ?X7, ?X8, ?X9, ?X10; auto.
Qed.

Lemma next_block_regular a t req resp a' l t' resp' r : uploading (t_type t') -> serving (t_type t) ->
  next_block P a t req resp <> (a', l, (t', resp', r)).
Proof.
  intros Hu Hs H. unfold next_block in H.
  assert (H' : (a, [], next_block2 t req resp) = (a', l, (t', resp', r))) by (destruct Hs as [E1|[E1|E1]]; rewrite E1 in H; exact H).
  injection H' as _ _ Hn. pose proof (next_block2_type t req resp) as Ht. rewrite Hn in Ht. cbn [fst] in Ht.
  destruct Hu as [E1|E1], Hs as [E2|[E2|E2]], Ht as [E3|E3]; congruence.
Qed.

Lemma type_kinds ty : ty = TRegular \/ uploading ty \/ serving ty.
Proof. unfold uploading, serving. destruct ty; tauto. Qed.

Lemma offered_app c ms ms' size : offered P c ms size -> offered P c (ms ++ ms') size.
Proof.
  intros (m & l & x1 & x2 & x3 & x4 & x5 & x6 & x7 & -> & H). exists m, (l ++ ms'), x1, x2, x3, x4, x5, x6, x7. auto.
Qed.

(** How the answer to a request affects an upload. *)
Lemma answered_up t a m t' l a' r : sc_large C < large -> vals_ok (m_ops m) -> lenN (m_payload m) <= 1152 -> bytes_ok (m_payload m) ->
  (uploading (t_type t) -> exists ms buf s0, up_state C s0 ms buf t) ->
  answered P C t a m t' l a' r -> uploading (t_type t') ->
  server_check_options C m <> 0 /\ t' = t /\ l = [] \/
  server_check_options C m = 0 /\ uploading (t_type t) /\ l = [] /\
    (forall s0 ms buf, up_state C s0 ms buf t -> exists buf', up_state C s0 (ms ++ [m]) buf' t') \/
  server_check_options C m = 0 /\ t_type t = TRegular /\ l = [SHandle (t_client t) m] /\ exists s0 buf', up_state C s0 [m] buf' t' /\ offered P (t_client t) [m] s0.
Proof.
  intros HL Hv Hp Hpb HU Ha Hu.
  destruct Ha as [Hz|a' l t' resp r Hz Ht En|a' e Hz Ht Eh|a' l Hz Ht Eh|a1 l s1 s2 body bl rx lg a' ol t' resp r Hz Ht Eh Eb].
  - left. auto.
  - right. left. destruct (type_kinds (t_type t)) as [?|[Hup|Hs]]; [contradiction| |].
    + split; [exact Hz|]. split; [exact Hup|]. destruct (HU Hup) as (ms & buf & s0 & U).
      pose proof (next_block1_spec P a t buf m msg_create (us_takes _ _ _ _ _ U) Hv Hp rwf_create) as Q. rewrite En in Q.
      destruct (up_more _ _ _ _ _ _ _ _ _ _ _ _ U Hpb Q Hu) as (_ & -> & _). split; [reflexivity|].
      intros s0' ms' buf' U'. pose proof (next_block1_spec P a t buf' m msg_create (us_takes _ _ _ _ _ U') Hv Hp rwf_create) as Q'. rewrite En in Q'.
      destruct (up_more _ _ _ _ _ _ _ _ _ _ _ _ U' Hpb Q' Hu) as (_ & _ & _ & _ & _ & H). exact H.
    + exfalso. eapply next_block_regular; eassumption.
  - exfalso. rewrite Ht in Hu. destruct Hu; discriminate.
  - exfalso. rewrite Ht in Hu. destruct Hu; discriminate.
  - right. right. split; [exact Hz|]. split; [exact Ht|].
    pose proof (handle_blockwise_spec P C lg a1 t m (msg_build l) s1 s2 body bl rx HL) as Q. rewrite Eb in Q.
    inversion Q as [t0 e H1|t0 H1|t0 u H1 _ _|t1 buf H1 H2 H3 H4 H5 H6 H7 H8 H9 H10|t1 buf H1 H2 H3 H4 H5 H6 H7 H8]; subst.
    1-3: exfalso; rewrite H1 in Hu; destruct Hu; discriminate.
    + exfalso. match goal with Hn : next_block2 t1 m _ = _ |- _ => pose proof (next_block2_type t1 m (msg_build l)) as Hty; rewrite Hn in Hty end.
      cbn [fst] in Hty. rewrite H4 in Hty. destruct Hu as [E1|E1], Hty; congruence.
    + assert (U : up_state C (t_size1 t1) [] buf t1).
      { split; auto; [rewrite H2; constructor|rewrite H2; reflexivity|intros ? []|congruence]. }
      pose proof (next_block1_spec P a1 t1 buf m (msg_build l) H1 Hv Hp (rwf_build l)) as Q'.
      match goal with Hn : next_block P a1 t1 m _ = _ |- _ => rewrite Hn in Q' end.
      destruct (up_more _ _ _ _ _ _ _ _ _ _ _ _ U Hpb Q' Hu) as (_ & -> & _ & _ & _ & buf' & U').
      split; [reflexivity|]. exists (t_size1 t1), buf'. split; [exact U'|].
      exists m, [], a, a1, l. do 4 eexists. split; [reflexivity|exact Eh].
Qed.

Lemma acked_xfer t m t1 s1 : acked C t m t1 s1 -> xfer t1 = xfer t.
Proof. intros []; reflexivity. Qed.

Ltac quiet_obs := repeat first [apply Forall_nil | apply Forall_cons; [first [exact I|intros []]|]].

Lemma acked_quiet t m t1 s1 c : acked C t m t1 s1 -> Forall silent s1 /\ Forall (inside c) s1.
Proof. intros []; split; quiet_obs. Qed.
Lemma ident_quiet m id s id' i c : ident C m id s id' i -> Forall silent s /\ Forall (inside c) s.
Proof. intros []; split; quiet_obs. Qed.

Lemma UInv_survive h t id a d m now t' s id' a' : sc_large C < large ->
  SInv h t -> UInv h t -> bytes_ok d -> lenN d <= 1152 ->
  msg_parse (sc_sg C) (d ++ repeat 0 (N.to_nat (1152 - lenN d))) (lenN d) = Ok m -> pwf m ->
  survive P C (t_with_last_use t now) id a m t' s id' a' ->
  UInv (h ++ SRecv (t_client t) d :: SUse (t_client t) now :: s) t'.
Proof.
  intros HL HI HU Hd Hdl Hp W Hs. set (c := t_client t) in *.
  assert (R : reads C d m) by (split; assumption).
  destruct (reads_parts _ _ _ Hd R) as (Hv & Hpb & Hpl).
  assert (Hdup : forall t0 s0, xfer t0 = xfer t -> core t0 = core t0 -> t_client t0 = c -> m_id (t_req t0) = m_id (t_req t) ->
     Forall silent s0 -> Forall (inside c) s0 -> (m_type m <= 1 /\ m_id m = m_id (t_req t) \/ 1 < m_type m) ->
     UInv (h ++ SRecv c d :: SUse c now :: s0) t0).
  { intros t0 s0 Hx _ Hc Hi Hsi Hin Hty Hu. assert (Hu' : uploading (t_type t)) by (injection Hx as X1; rewrite <- X1; exact Hu).
    destruct (HU Hu') as (ms & buf & s1 & S & U & Of). exists ms, buf, s1. rewrite Hc, Hi. split; [|split; [eapply up_state_xfer; eassumption|exact Of]].
    rewrite <- (app_nil_r ms). eapply since_at_app; [exact S| |].
    - assert (Hq : requests C c (m_id (t_req t)) (SUse c now :: s0) [] (m_id (t_req t))).
      { apply requests_silent. constructor; [exact I|exact Hsi]. }
      destruct Hty as [[Ht He]|Ht]; [eapply rs_repeated; eauto|eapply rs_reply; eauto].
    - constructor; [intros []|]. constructor; [intros []|exact Hin]. }
  assert (Hmr : match_req (t_with_last_use t now) m = true -> m_id m = m_id (t_req t)).
  { unfold match_req. intro H. apply andb_true_iff in H as [_ H]. apply N.eqb_eq in H. symmetry. exact H. }
  assert (Hmn : match_req (t_with_last_use t now) m = false -> m_id m <> m_id (t_req t)).
  { unfold match_req. cbn [t_req t_with_last_use]. rewrite (proj1 (si_ver _ _ HI)). change (negb (1 =? 0)) with true. cbn [andb].
    intro H. apply N.eqb_neq in H. congruence. }
  assert (Ht01 : m_type m = T_CON \/ m_type m = T_NON -> m_type m <= 1) by (intros [->| ->]; vm_compute; discriminate).
  (* the answer to a new request *)
  assert (Hnew : forall t1 s1 t2 s2 a1 resp s3 id1 i t3 s4 q, m_type m = T_CON \/ m_type m = T_NON ->
     match_req (t_with_last_use t now) m = false ->
     acked C (blank (t_with_last_use t now)) m t1 s1 -> answered P C t1 a m t2 s2 a1 (Ok resp) -> ident C m id s3 id1 i ->
     msg_copy msg_create m = Ok q -> xfer t3 = xfer t2 -> t_client t3 = t_client t2 -> m_id (t_req t3) = m_id q ->
     Forall silent s4 -> Forall (inside c) s4 ->
     UInv (h ++ SRecv c d :: SUse c now :: s1 ++ s2 ++ s3 ++ s4) t3).
  { intros t1 s1 t2 s2 a1 resp s3 id1 i t3 s4 q Hty Hm H1 H2 H3 Hq Hx Hcl Hiq Hs4 Hi4 Hu.
    destruct (copy_pwf m W) as (q0 & Hq0 & Hq1 & _). rewrite Hq0 in Hq. injection Hq as <-. rewrite Hiq, Hq1.
    assert (Hc1 : t_client t1 = c) by (rewrite (acked_client _ _ _ _ _ H1); reflexivity).
    assert (Hc2 : t_client t2 = c).
    { rewrite (core_client _ _ (proj1 (answered_fine _ _ _ _ _ _ _ _ _ H2))). exact Hc1. }
    assert (Hx1 : xfer t1 = xfer t) by (rewrite (acked_xfer _ _ _ _ H1); reflexivity).
    destruct (acked_quiet _ _ _ _ c H1) as [Q1 Q1']. destruct (ident_quiet _ _ _ _ _ c H3) as [Q3 Q3'].
    assert (Hu2 : uploading (t_type t2)) by (injection Hx as X1; rewrite <- X1; exact Hu).
    assert (HU1 : uploading (t_type t1) -> exists ms buf s0, up_state C s0 ms buf t1).
    { intro Hu1. assert (Hu' : uploading (t_type t)) by (injection Hx1 as X1; rewrite <- X1; exact Hu1).
      destruct (HU Hu') as (ms & buf & s0 & S & U & _). exists ms, buf, s0. eapply up_state_xfer; [exact Hx1|exact U]. }
    assert (Hrest : forall x, Forall silent x -> Forall (inside c) x ->
       Forall silent (SUse c now :: s1 ++ x ++ s3 ++ s4) /\ Forall (inside c) (SUse c now :: s1 ++ x ++ s3 ++ s4)).
    { intros x X1 X2. split; (constructor; [first [exact I|intros []]|]); rewrite !Forall_app; auto. }
    rewrite Hcl, Hc2.
    destruct (answered_up _ _ _ _ _ _ _ HL Hv Hpl Hpb HU1 H2 Hu2) as [(Hz & -> & ->)|[(Hz & Hu1 & -> & Hup)|(Hz & Ht & -> & s0 & buf' & U' & Of)]].
    - assert (Hu' : uploading (t_type t)) by (injection Hx1 as X1; rewrite <- X1; exact Hu2).
      destruct (HU Hu') as (ms & buf & s0 & S & U & Of). exists ms, buf, s0.
      split; [|split; [eapply up_state_xfer; [rewrite Hx; exact Hx1|exact U]|exact Of]].
      rewrite <- (app_nil_r ms). destruct (Hrest [] (Forall_nil _) (Forall_nil _)) as [R1 R2].
      eapply since_at_app; [exact S| |constructor; [intros []|exact R2]].
      eapply (rs_refused C c _ d m); [exact R|auto|auto| |apply requests_silent; exact R1].
      intro Hac. apply Hz. apply server_options_spec. exact Hac.
    - assert (Hu' : uploading (t_type t)) by (injection Hx1 as X1; rewrite <- X1; exact Hu1).
      destruct (HU Hu') as (ms & buf & s0 & S & U & Of).
      destruct (Hup s0 ms buf) as [buf' U']; [eapply up_state_xfer; [exact Hx1|exact U]|].
      exists (ms ++ [m]), buf', s0. split; [|split; [eapply up_state_xfer; [exact Hx|exact U']|]].
      2: { apply offered_app. exact Of. }
      destruct (Hrest [] (Forall_nil _) (Forall_nil _)) as [R1 R2].
      eapply since_at_app; [exact S| |constructor; [intros []|exact R2]].
      eapply (rs_new C c _ d m); [exact R|auto|auto|apply server_options_spec; exact Hz|apply requests_silent; exact R1].
    - exists [m], buf', s0. split; [|split; [eapply up_state_xfer; [exact Hx|exact U']|rewrite <- Hc1; exact Of]].
      exists (h ++ SRecv c d :: SUse c now :: s1), m, (s3 ++ s4), [].
      split; [rewrite Hc1, <- app_assoc; reflexivity|]. split; [reflexivity|]. split.
      + apply requests_silent. rewrite Forall_app. auto.
      + rewrite Forall_app. auto. }
  destruct Hs as [Hm Ht|now2 Hm Ht Hsep|b now2 Hm Ht Hsep Hb|Hm Ht|t1 s1 t2 s2 a1 resp s3 id1 i b now2 q Ht Hc Hm H1 H2 H3 Hi Hb Hnc Hq|t1 s1 t2 s2 a1 resp s3 id1 i b now2 q rn Ht Hsep Hc Hm H1 H2 H3 Hi Hb Hq].
  - apply Hdup; try reflexivity; try constructor. auto.
  - apply Hdup; try reflexivity; try quiet_obs. left. auto.
  - apply Hdup; try reflexivity; try quiet_obs. left. auto.
  - apply Hdup; try reflexivity; try quiet_obs. right. destruct Ht as [->| ->]; reflexivity.
  - eapply Hnew; try eassumption; try reflexivity; quiet_obs.
  - eapply Hnew; try eassumption; try reflexivity; try (left; assumption); quiet_obs.
Qed.

Lemma UInv_micro v v' s : sc_large C < large -> base v -> slots SInv v -> slots UInv v -> micro P E C false v v' s -> slots UInv v'.
Proof.
  intros HL Hb HS HU Hm.
  assert (H : slots (fun h t => SInv h t /\ UInv h t) v').
  { eapply slots_micro; [..|exact Hb|intros i Hi Ha; split; [apply HS|apply HU]; assumption|exact Hm].
    - intros h t x [HI HQ] Hf. split.
      + destruct HI as [Iu Ii Iv If]. split; auto.
        * rewrite last_use_app, last_use_foreign by exact Hf. exact Iu.
        * rewrite last_id_app, last_id_foreign by exact Hf. exact Ii.
      + intro Hu. destruct (HQ Hu) as (ms & buf & s0 & S & U & Of). exists ms, buf, s0. split; [|split; [exact U|exact Of]].
        rewrite <- (app_nil_r ms). eapply since_at_app; [exact S|apply requests_foreign; exact Hf|apply foreign_inside; exact Hf].
    - intros h c now. split.
      + split; cbn [fresh_trans t_client t_last_use t_req t_resp]; auto.
        * rewrite last_use_app. cbn. rewrite N.eqb_refl. reflexivity.
        * rewrite last_id_app. cbn. rewrite N.eqb_refl. reflexivity.
        * exists [64; 0; 0; 0]. vm_compute. reflexivity.
      + intros [H|H]; discriminate.
    - intros t d h t' x id a id' a' r [HI HQ] Ha Ha' Hd Hdl Hid Hr Hf.
      apply rx_run_survive in Hr as (m & now & s' & Hp & W & -> & Hs); [|assumption..].
      split; [eapply SInv_survive; eassumption|eapply UInv_survive; eassumption].
    - intros t h t' x r [HI HQ] Ha _ Ha' Hr Hf. destruct HI as [Iu Ii Iv If]. split.
      + destruct Hr as [Hl|e Hl Hn|Hl|b now Hl Hbb|b e Hl Hbb|Hl Hbb]; try discriminate;
        (split; [rewrite last_use_app; cbn; rewrite ?N.eqb_refl; auto|rewrite last_id_app; cbn; rewrite ?N.eqb_refl; auto|exact Iv|exact If]).
      + assert (Hx : xfer t' = xfer t /\ t_client t' = t_client t /\ m_id (t_req t') = m_id (t_req t) /\
                     Forall silent x /\ Forall (inside (t_client t)) x).
        { destruct Hr; try discriminate; (split; [reflexivity|split; [reflexivity|split; [reflexivity|split; quiet_obs]]]). }
        destruct Hx as (X1 & X2 & X3 & X4 & X5). intro Hu.
        assert (Hu' : uploading (t_type t)) by (injection X1 as Y1; rewrite <- Y1; exact Hu).
        destruct (HQ Hu') as (ms & buf & s0 & S & U & Of). exists ms, buf, s0. rewrite X2, X3.
        split; [|split; [eapply up_state_xfer; eassumption|exact Of]]. rewrite <- (app_nil_r ms).
        eapply since_at_app; [exact S|apply requests_silent; exact X4|exact X5]. }
  intros i Hi Ha. apply H; assumption.
Qed.

Lemma UInv_init id (a : A) : slots UInv (server_init id a).
Proof. intros i Hi Ai. unfold tr, server_init in Ai. cbn [v_tr] in Ai. rewrite nth_repeat in Ai. discriminate. Qed.

End App.
