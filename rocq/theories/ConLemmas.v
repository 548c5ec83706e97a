(** Lemmas about the model of connection.c. *)
From Verif Require Import Base BaseLemmas BufModel BufSpec BufLemmas UriModel UriSpec UriLemmas HttpModel HttpSpec HttpLemmas HttpChunkLemmas HttpHeadLemmas MsgModel MsgSpec MsgFormatLemmas ClientModel ClientSpec ClientBlockLemmas CrossModel CrossSpec CrossLemmas ConModel ConSpec.

(** ** Receiving *)

Lemma buffer_holds b q : buffer b q -> holds b q (d_size b) 32768.
Proof. intros ((H1 & H2) & H3 & H4 & H5 & H6). unfold holds. repeat split; try assumption; lia. Qed.
Lemma holds_buffer b q size : holds b q size 32768 -> lenN q < size -> (size = 4096 \/ size = 8192 \/ size = 16384 \/ size = 32768) -> buffer b q.
Proof. intros (H1 & H2 & H3 & H4 & H5 & H6 & H7) Hq Hs. subst size. unfold buffer, holding. repeat split; assumption. Qed.

Lemma cells_map q : cells (map Some q) = Ok q.
Proof. induction q as [|x q IH]; [reflexivity|]. cbn [map cells]. rewrite IH. reflexivity. Qed.
Lemma cells_holds b q size max : holds b q size max -> cells (firstn (N.to_nat (d_count b)) (d_data b)) = Ok q.
Proof. intros (H1 & _ & _ & _ & _ & _ & H7). rewrite H1, lenN_to_nat, H7. apply cells_map. Qed.

Lemma max_small : 32768 < 2 ^ 63.
Proof. reflexivity. Qed.

Lemma holds_space b q size : holds b q size 32768 -> data_buf_get_space b = size - lenN q.
Proof. intros (H1 & H2 & H3 & H4 & H5 & _). unfold data_buf_get_space. rewrite H1, H2. apply sub64_ok; [exact H4|]. unfold two64. lia. Qed.

Lemma recv_text text m fuel : (forall p r, text = p ++ r -> r <> [] -> http_msg_parse fuel p = Err EAGAIN) ->
  (forall rest, http_msg_parse fuel (text ++ rest) = Ok (m, lenZ text)) -> 0 < lenN text -> lenN text <= 32641 ->
  forall evs wire b q rest, buffer b q -> q ++ wire = text ++ rest -> wire <> [] -> Forall reads evs ->
  (0 < length evs)%nat -> (length (text) - length q <= length evs)%nat ->
  exists used evs' wire' b' q', connection_recv fuel evs wire b = (evs', wire', b', KOk m) /\ evs = used ++ evs' /\ buffer b' q' /\ q' ++ wire' = rest.
Proof.
  intros Hpart Hfull Ht Hl.
  induction evs as [|e evs IH]; intros wire b q rest Hbuf E Hw Hr Hl0 Hl1; [cbn in Hl0; lia|]. clear Hl0.
  inversion Hr as [|? ? (n & Hn & ->) Hr']; subst. cbn [connection_recv].
  pose proof (buffer_holds _ _ Hbuf) as Hh. destruct Hbuf as (_ & Hq & _ & _ & Hsz). rewrite (holds_space _ _ _ Hh).
  set (k := N.to_nat (N.min n (d_size b - lenN q))). assert (Hk : (0 < k)%nat) by (unfold k; lia).
  assert (Hk2 : N.of_nat k <= d_size b - lenN q) by (unfold k; lia). clearbody k.
  destruct wire as [|x wire0]; [congruence|]. set (wire := x :: wire0) in *.
  assert (Hg : exists g0, firstn k wire = x :: g0) by (destruct k; [lia|]; eexists; reflexivity). destruct Hg as [g0 Hg].
  destruct (firstn k wire) as [|y g1] eqn:Eg; [discriminate|]. rewrite <- Eg in *. clear Hg g0.
  assert (Lg : lenN (firstn k wire) <= d_size b - lenN q) by (unfold lenN at 1; rewrite firstn_length; lia).
  assert (Lg1 : 0 < lenN (firstn k wire)) by (rewrite Eg, lenN_cons; lia). clear Eg y g1.
  destruct (recv_holds _ _ _ _ (firstn k wire) max_small Hh ltac:(lia)) as (b1 & Er & Hh1). rewrite Er.
  rewrite (cells_holds _ _ _ _ Hh1).
  assert (E1 : (q ++ firstn k wire) ++ skipn k wire = text ++ rest) by (rewrite <- app_assoc, firstn_skipn; exact E).
  remember (d_size b) as size eqn:Es. clear b Es Hh Er. set (q1 := q ++ firstn k wire) in *.
  assert (Lq1 : lenN q < lenN q1) by (unfold q1; rewrite lenN_app; lia).
  assert (Lq2 : lenN q1 <= size) by (unfold q1; rewrite lenN_app; lia).
  clearbody q1. set (wire' := skipn k wire) in *. clearbody wire'. clear wire wire0 x E Hw Lg Lg1 k Hk Hk2.
  destruct (split_at _ _ _ _ E1) as [(r & Em & Hrr & Ew)|(more & -> & Er)].
  - rewrite (Hpart q1 r Em Hrr). rewrite (holds_space _ _ _ Hh1).
    assert (Lm : lenN q1 < lenN (text)) by (rewrite Em, lenN_app; destruct r; [congruence|rewrite lenN_cons; lia]).
    assert (Hw' : wire' <> []) by (rewrite Ew; destruct r; [congruence|discriminate]).
    assert (Hev : (length (text) - length q1 <= length evs)%nat) by (cbn [length] in Hl1; unfold lenN in *; lia).
    assert (Hev0 : (0 < length evs)%nat) by (unfold lenN in *; lia).
    unfold CONNECTION_DATA_BUF_MIN_SPACE. destruct (N.ltb_spec (size - lenN q1) 128) as [Hs|Hs].
    + pose proof (expand_holds _ _ _ _ true max_small Hh1) as X. destruct (data_buf_expand b1 true) as [b2|[]| |]; try contradiction; try lia.
      destruct X as (X1 & _ & X2). assert (Hbuf2 : buffer b2 q1) by (apply (holds_buffer _ _ _ X2); lia).
      destruct (IH wire' b2 q1 rest Hbuf2 E1 Hw' Hr' Hev0 Hev) as (used & evs' & w' & b' & q' & I1 & I2 & I3 & I4).
      exists (HRead n true :: used), evs', w', b', q'. rewrite I1, I2. auto.
    + assert (Hbuf1 : buffer b1 q1) by (apply (holds_buffer _ _ _ Hh1); lia).
      destruct (IH wire' b1 q1 rest Hbuf1 E1 Hw' Hr' Hev0 Hev) as (used & evs' & w' & b' & q' & I1 & I2 & I3 & I4).
      exists (HRead n true :: used), evs', w', b', q'. rewrite I1, I2. auto.
  - rewrite Hfull.
    assert (Ez : Z.to_N (lenZ (text)) = lenN (text)) by (unfold lenZ, lenN; lia).
    destruct (Z.ltb_spec 0 (lenZ (text))); [|unfold lenZ, lenN in *; lia]. rewrite Ez.
    destruct (consume_holds _ _ _ _ (lenN (text)) max_small Hh1) as (b2 & Ec & Hh2). rewrite Ec.
    rewrite lenN_to_nat, skipn_app, skipn_all, Nat.sub_diag in Hh2. cbn [skipn List.app] in Hh2. rewrite lenN_app in Lq2.
    exists [HRead n true], evs, wire', b2, more. split; [reflexivity|]. split; [reflexivity|]. split; [apply (holds_buffer _ _ _ Hh2); lia|]. symmetry. exact Er.
Qed.

Lemma recv_message m fuel : message_ok m -> (forall b, hm_body m = Some b -> ~ In 0 b) -> lenN (http_text m) <= 32641 ->
  forall evs wire b q rest, buffer b q -> q ++ wire = http_text m ++ rest -> wire <> [] -> Forall reads evs ->
  (0 < length evs)%nat -> (length (http_text m) - length q <= length evs)%nat ->
  exists used evs' wire' b' q', connection_recv fuel evs wire b = (evs', wire', b', KOk m) /\ evs = used ++ evs' /\ buffer b' q' /\ q' ++ wire' = rest.
Proof.
  intros Hm Hb0 Hl.
  assert (Hb : forall b, hm_body m = Some b -> ~ In 0 b /\ lenN b < 2147483648).
  { intros b Eb. split; [auto|]. unfold http_text, body_of in Hl. rewrite Eb, lenN_app in Hl. lia. }
  apply recv_text; [intros p r; exact (message_part m fuel p r Hm Hb)|intro rest; exact (message_parse m fuel rest Hm Hb)| |exact Hl].
  unfold http_text, head_text. destruct (hm_start m) as [[x y] z]. rewrite !lenN_app. change (lenN [32]) with 1. lia.
Qed.
Lemma chunks_len ds t : chunks_text ds t -> lenN (concat ds) + lenN ds < lenN t.
Proof.
  intro H. induction H as [|d ds h t Hd Hh Ht IH]; [reflexivity|]. cbn [concat]. rewrite !lenN_app, lenN_cons. change (lenN crlf) with 2. lia.
Qed.
Lemma recv_chunked m ds t trailers fuel : let text := head_text m ++ t ++ headers_text trailers ++ crlf in
  start_ok m -> Forall header_ok (hm_headers m) -> is_chunked (hm_headers m) -> Forall header_ok trailers ->
  chunks_text ds t -> ~ In 0 (concat ds) -> lenN text <= 32641 -> 32641 <= N.of_nat fuel ->
  forall evs wire b q rest, buffer b q -> q ++ wire = text ++ rest -> wire <> [] -> Forall reads evs ->
  (0 < length evs)%nat -> (length text - length q <= length evs)%nat ->
  exists used evs' wire' b' q', connection_recv fuel evs wire b = (evs', wire', b', KOk (mkhmsg (hm_start m) (hm_headers m ++ trailers) (Some (concat ds)))) /\
    evs = used ++ evs' /\ buffer b' q' /\ q' ++ wire' = rest.
Proof.
  intros text H1 H2 H3 H4 H5 H6 H7 H8. pose proof (chunks_len _ _ H5) as L.
  assert (L2 : lenN t <= lenN text) by (unfold text; rewrite !lenN_app; lia).
  assert (L3 : lenN (concat ds) < 2147483647) by lia. assert (L4 : (length ds < fuel)%nat) by (unfold lenN in *; lia).
  apply recv_text; [| |lia|exact H7].
  - intros p r E Hr. exact (chunked_part m fuel ds t trailers p r H1 H2 H3 H4 H5 H6 L3 L4 E Hr).
  - intro rest. unfold text. rewrite <- (chunked_parse m fuel ds t trailers rest H1 H2 H3 H4 H5 H6 L3 L4). f_equal. rewrite <- !app_assoc. reflexivity.
Qed.

(** ** Sending *)

(** What connection_send gives for the bytes. *)
Lemma recv_frame fuel more : forall evs wire b evs' wire' b' m, connection_recv fuel evs wire b = (evs', wire', b', KOk m) ->
  connection_recv fuel (evs ++ more) wire b = (evs' ++ more, wire', b', KOk m) /\ (length evs' < length evs)%nat.
Proof.
  induction evs as [|e evs IH]; intros wire b evs' wire' b' m; [discriminate|]. cbn [connection_recv List.app].
  assert (Now : forall w0 b0 (r : kret hmsg), (evs, w0, b0, r) = (evs', wire', b', KOk m) -> (evs ++ more, w0, b0, r) = (evs' ++ more, wire', b', KOk m) /\ (length evs' < length (e :: evs))%nat).
  { intros w0 b0 r X. injection X as <- <- <- ->. split; [reflexivity|cbn; lia]. }
  assert (Later : forall w0 b0, connection_recv fuel evs w0 b0 = (evs', wire', b', KOk m) -> connection_recv fuel (evs ++ more) w0 b0 = (evs' ++ more, wire', b', KOk m) /\ (length evs' < length (e :: evs))%nat).
  { intros w0 b0 X. apply IH in X as [X1 X2]. split; [exact X1|cbn; lia]. }
  destruct e as [|er| |n mem]; try apply Now.
  destruct (firstn _ wire); [apply Now|]. destruct (data_buf_recv _ _) as [[b1 y]| | |]; try apply Now.
  destruct (cells _) as [text| | |]; try apply Now.
  destruct (http_msg_parse fuel text) as [[m0 num]|er| |]; try apply Now.
  - destruct (0 <? num)%Z; [destruct (data_buf_consume _ _) as [[b2 z]| | |]; apply Now|].
    destruct (num =? -11)%Z; [|destruct (num =? 0)%Z; apply Now].
    destruct (_ <? _); [|apply Later]. destruct (data_buf_expand b1 mem) as [b2| | |]; [apply Later|apply Now..].
  - destruct er; try apply Now.
    destruct (_ <? _); [|apply Later]. destruct (data_buf_expand b1 mem) as [b2| | |]; [apply Later|apply Now..].
Qed.
Lemma recv_held m fuel b rest n x wire evs : message_ok m -> (forall y, hm_body m = Some y -> ~ In 0 y) -> lenN (http_text m) <= 32641 ->
  buffer b (http_text m ++ rest) -> 0 < n ->
  exists wire' b' q', connection_recv fuel (HRead n true :: evs) (x :: wire) b = (evs, wire', b', KOk m) /\ buffer b' q' /\ q' ++ wire' = rest ++ x :: wire.
Proof.
  intros H1 H2 H3 H4 H5. destruct (recv_message m fuel H1 H2 H3 [HRead n true] (x :: wire) b (http_text m ++ rest) (rest ++ x :: wire)) as (used & evs' & wire' & b' & q' & R1 & R2 & R3 & R4).
  - exact H4.
  - rewrite <- app_assoc. reflexivity.
  - discriminate.
  - constructor; [exists n; auto|constructor].
  - cbn; lia.
  - rewrite app_length. lia.
  - apply recv_frame with (more := evs) in R1 as [R1 R5]. destruct evs' as [|e' evs']; [|cbn in R5; lia].
    exists wire', b', q'. split; [exact R1|auto].
Qed.

Lemma written_cells len t rest : 0 < len -> len <= 32768 -> lenN t <= len ->
  firstn (N.to_nat (lenN t)) (firstn (N.to_nat len) (written len t rest)) = (if lenN t =? len then firstn (N.to_nat (len - 1)) t ++ [0] else t).
Proof.
  intros H0 H1 Ht. unfold written. set (p := firstn (N.to_nat (len - 1)) t).
  assert (Lp : length p = Nat.min (N.to_nat (len - 1)) (length t)) by (unfold p; apply firstn_length).
  rewrite firstn_firstn, Nat.min_l by (unfold lenN in *; lia). rewrite firstn_app.
  destruct (N.eqb_spec (lenN t) len) as [E|E].
  - assert (Lp2 : length p = N.to_nat (len - 1)) by (rewrite Lp; unfold lenN in *; lia). rewrite E, firstn_all2 by lia. f_equal.
    rewrite Lp2. replace (N.to_nat len - N.to_nat (len - 1))%nat with 1%nat by lia. reflexivity.
  - assert (Ep : p = t) by (unfold p; apply firstn_all2; unfold lenN in *; lia). rewrite Ep, lenN_to_nat, firstn_all, Nat.sub_diag. cbn [firstn]. apply app_nil_r.
Qed.

Lemma lenN_map {A B} (f : A -> B) l : lenN (map f l) = lenN l.
Proof. unfold lenN. rewrite map_length. reflexivity. Qed.

Lemma generate_buffer m b : no_nul m -> lenN (http_text m) < two64 -> buffer b [] ->
  exists b', send_generate m b = Ok (b', lenN (http_text m)) /\ buffer b' [] /\ d_size b' = d_size b /\
    (lenN (http_text m) <= d_size b ->
     cells (firstn (N.to_nat (lenN (http_text m))) (d_data b')) =
       Ok (if lenN (http_text m) =? d_size b then firstn (N.to_nat (d_size b - 1)) (http_text m) ++ [0] else http_text m)).
Proof.
  intros Hn Ht Hb. pose proof (buffer_holds _ _ Hb) as Hh. unfold send_generate. rewrite (holds_space _ _ _ Hh).
  destruct Hb as ((C1 & C2) & C3 & C4 & C5 & C6). change (lenN (@nil N)) with 0 in *. rewrite N.sub_0_r.
  set (data := map _ (d_data b)). assert (Ld : lenN data = d_size b + 1) by (unfold data; rewrite lenN_map; exact C5).
  rewrite (http_generate_ok m data (d_size b) Hn) by (unfold two64 in *; lia). cbn [bind].
  eexists. split; [reflexivity|].
  set (wr := written (d_size b) (http_text m) (skipn (N.to_nat (d_size b)) data)).
  assert (Lw : lenN wr = d_size b + 1).
  { unfold wr, written. unfold lenN in *. rewrite !app_length, repeat_length, skipn_length, firstn_length. lia. }
  assert (Lf : lenN (map Some (firstn (N.to_nat (d_size b)) wr)) = d_size b) by (unfold lenN in *; rewrite map_length, firstn_length; lia).
  split; [|split; [reflexivity|]].
  - unfold buffer, holding. cbn [d_count d_size d_max d_data]. split; [split; [exact C1|reflexivity]|]. split; [exact C3|]. split; [exact C4|]. split; [|exact C6].
    rewrite lenN_app, Lf. unfold lenN in *. rewrite skipn_length. lia.
  - intro Hl. cbn [d_data]. rewrite firstn_app, (proj2 (Nat.sub_0_le _ _)) by (unfold lenN in *; lia). cbn [firstn]. rewrite app_nil_r, firstn_map.
    rewrite cells_map. f_equal. unfold wr. apply written_cells; lia.
Qed.

Definition sent (size : N) (m : hmsg) : list N :=
  if lenN (http_text m) =? size then firstn (N.to_nat (size - 1)) (http_text m) ++ [0] else http_text m.

Lemma send_spec m w mem : no_nul m -> lenN (http_text m) < two64 -> forall fuel b, buffer b [] -> 32768 < d_size b * 2 ^ N.of_nat fuel ->
  exists b' r, connection_send fuel mem w m b = (b', r) /\ buffer b' [] /\ d_size b <= d_size b' /\
    ((lenN (http_text m) <= d_size b' /\ r = match w with WAll => KOk (sent (d_size b') m) | WFail => KErr EOTHER | WClosed => KClosed end) \/
     (32768 < lenN (http_text m) /\ r = KErr EINVAL) \/
     (d_size b' < lenN (http_text m) /\ mem (d_size b') = false /\ r = KErr ENOMEM)).
Proof.
  intros Hn Ht. induction fuel as [|fuel IH]; intros b Hb Hf.
  { destruct Hb as (_ & _ & _ & _ & Hs). change (2 ^ N.of_nat 0) with 1 in Hf. lia. }
  cbn [connection_send]. destruct (generate_buffer m b Hn Ht Hb) as (b1 & E & Hb1 & Hs & Hc). rewrite E.
  pose proof (buffer_holds _ _ Hb1) as Hh1. rewrite (holds_space _ _ _ Hh1), (@lenN_nil N), N.sub_0_r.
  destruct (N.leb_spec (lenN (http_text m)) (d_size b1)) as [Hle|Hgt].
  - destruct Hb1 as (B1 & B2 & B3 & B4 & B5). rewrite B4. destruct (N.ltb_spec (d_size b1 + 1) (lenN (http_text m))); [lia|].
    rewrite Hc by lia. exists b1. eexists. split; [reflexivity|]. split; [repeat split; assumption || apply B1|]. split; [lia|]. left. split; [exact Hle|].
    unfold sent. rewrite Hs. reflexivity.
  - pose proof (expand_holds _ _ _ _ (mem (d_size b1)) max_small Hh1) as X. destruct (data_buf_expand b1 (mem (d_size b1))) as [b2|[]| |]; try contradiction.
    + destruct X as (X1 & X2 & X3). pose proof X3 as (_ & Es2 & _).
      assert (Hs1 : d_size b1 = 4096 \/ d_size b1 = 8192 \/ d_size b1 = 16384 \/ d_size b1 = 32768) by apply Hb1.
      assert (Hb2 : buffer b2 []) by (apply (holds_buffer _ _ _ X3); [rewrite (@lenN_nil N)|]; lia).
      destruct (IH b2 Hb2) as (b' & r & I1 & I2 & I3 & I4).
      { rewrite Nat2N.inj_succ, N.pow_succ_r' in Hf. rewrite Es2, Hs. lia. }
      exists b', r. split; [exact I1|]. split; [exact I2|]. split; [lia|exact I4].
    + exists b1. eexists. split; [reflexivity|]. split; [exact Hb1|]. split; [lia|]. right. left. destruct Hb1 as (_ & _ & _ & _ & B5). split; [lia|reflexivity].
    + destruct X as [X1 X2]. exists b1. eexists. split; [reflexivity|]. split; [exact Hb1|]. split; [lia|]. right. right. auto.
Qed.

(** ** Requests *)

(** Requests as the conversion makes them. *)
Definition fresh (d : N) (pl : list N) (m : msg) : Prop :=
  m_type m = 0 /\ m_class m = 0 /\ (m_detail m = d /\ m_payload m = pl) /\ m_id m <= 65535 /\ m_token m = [] /\ ops_sorted (m_ops m) /\ with_num OP_BLOCK1 (m_ops m) = [].
Lemma fresh_copied d pl m : d <= 31 -> fresh d pl m -> copied m.
Proof. intros Hd (H1 & H2 & (H3 & _) & H4 & H5 & H6 & _). split; [|exact H6]. apply copy_wf; try assumption; [lia|lia|lia|]. rewrite H5. unfold lenN. cbn. lia. Qed.
Lemma x_add_fresh d pl X m num v m' : x_add_op X m num v = Ok m' -> num <> OP_BLOCK1 -> fresh d pl m -> fresh d pl m'.
Proof.
  unfold x_add_op, add_op. destruct (x_op X _ _); [|discriminate]. intros E Hn (H1 & H2 & H3 & H4 & H5 & H6 & H7). injection E as <-.
  unfold fresh. cbn [m_type m_class m_detail m_id m_token m_ops m_payload]. destruct H3. repeat split; try assumption; [apply op_list_add_spec; exact H6|].
  rewrite with_num_add, H7 by exact H6. cbn [o_num]. destruct (N.eqb_spec num OP_BLOCK1); [contradiction|reflexivity].
Qed.
Lemma cross_split_fresh d pl X num sep : num <> OP_BLOCK1 -> forall fuel m str m', cross_split fuel X m num sep str = Ok m' -> fresh d pl m -> fresh d pl m'.
Proof.
  intro Hn.
  assert (A : forall m s m', (if 0 <? lenN s mod two32 then x_add_op X m num (firstn (N.to_nat (lenN s mod two32)) s) else Ok m) = Ok m' -> fresh d pl m -> fresh d pl m').
  { intros m s m'. destruct (0 <? _); [intros E; apply (x_add_fresh _ _ _ _ _ _ _ E Hn)|]. intro E. injection E as <-. auto. }
  induction fuel as [|fuel IH]; intros m str m' E Hm; cbn [cross_split] in E; [discriminate|].
  destruct (str_cut sep str) as [[a b]|]; [|exact (A _ _ _ E Hm)].
  destruct (if 0 <? _ then _ else _) as [m1| | |] eqn:E1; cbn [bind] in E; try discriminate. apply (IH _ _ _ E). exact (A _ _ _ E1 Hm).
Qed.
Lemma cross_uri_fresh d pl sg X m str m' : cross_uri_http_to_coap sg X m str = Ok m' -> fresh d pl m -> fresh d pl m'.
Proof.
  unfold cross_uri_http_to_coap. destruct (uri_parse _ _ _) as [u| | |]; cbn [bind]; try discriminate. destruct (negb _); [discriminate|].
  destruct (u_scheme u) as [s|]; [|discriminate]. destruct (_ && _); [discriminate|]. intros E Hm.
  assert (A : forall m num s m', num <> OP_BLOCK1 -> (match s with Some s => x_add_op X m num (firstn (N.to_nat (lenN s mod two32)) s) | None => Ok m end) = Ok m' -> fresh d pl m -> fresh d pl m').
  { intros m0 num [s0|] m0' Hn E0; [exact (x_add_fresh _ _ _ _ _ _ _ E0 Hn)|]. injection E0 as <-. auto. }
  destruct (match u_host u with Some _ => _ | None => _ end) as [m1| | |] eqn:E1; cbn [bind] in E; try discriminate. apply A in E1; [|discriminate|exact Hm].
  destruct (match u_port u with Some _ => _ | None => _ end) as [m2| | |] eqn:E2; cbn [bind] in E; try discriminate. apply A in E2; [|discriminate|exact E1].
  destruct (match u_path u with Some _ => _ | None => _ end) as [m3| | |] eqn:E3; cbn [bind] in E; try discriminate.
  assert (F3 : fresh d pl m3).
  { destruct (u_path u) as [[|c p]|]; [discriminate| |injection E3 as <-; exact E2]. destruct (negb _); [discriminate|]. apply (cross_split_fresh d pl X OP_URI_PATH 47) in E3; [exact E3|discriminate|exact E2]. }
  destruct (u_query u) as [q|]; [|injection E as <-; exact F3]. apply (cross_split_fresh d pl X OP_URI_QUERY 38) in E; [exact E|discriminate|exact F3].
Qed.
Lemma cross_headers_fresh d pl X hs : forall m m', cross_headers_http_to_coap X m hs = COk m' -> fresh d pl m -> fresh d pl m'.
Proof.
  assert (A : forall m num v (k : msg -> cres msg) m', num <> OP_BLOCK1 -> cbind (coded 502 (x_add_op X m num v)) k = COk m' -> fresh d pl m -> exists m1, fresh d pl m1 /\ k m1 = COk m').
  { intros m num v k m' Hn E Hm. destruct (x_add_op X m num v) as [m1| | |] eqn:E1; cbn [coded cbind] in E; try discriminate. exists m1. split; [exact (x_add_fresh _ _ _ _ _ _ _ E1 Hn Hm)|exact E]. }
  induction hs as [|[name value] hs IH]; intros m m' E Hm; cbn [cross_headers_http_to_coap] in E; [injection E as <-; exact Hm|].
  destruct (same_word name s_etag); [apply A in E as (m1 & F & E); [exact (IH _ _ E F)|discriminate|exact Hm]|].
  destruct (same_word name s_cache_control).
  { destruct (str_str _ _) as [t|]; [|exact (IH _ _ E Hm)]. destruct (scan_dec t); [|exact (IH _ _ E Hm)]. apply A in E as (m1 & F & E); [exact (IH _ _ E F)|discriminate|exact Hm]. }
  destruct (same_word name s_accept); [|exact (IH _ _ E Hm)]. destruct (same_word _ _); [|discriminate].
  apply A in E as (m1 & F & E); [exact (IH _ _ E F)|discriminate|exact Hm].
Qed.
Lemma cross_req_fresh sg X h body bend req body' bend' : cross_req_http_to_coap sg X h body bend = COk (req, body', bend') ->
  (exists d, fresh d (m_payload req) req /\ (d = 1 \/ d = 2 \/ d = 3 \/ d = 4)) /\
  ((lenN (body_of h) <= 1024 /\ m_payload req = body_of h /\ body' = body /\ bend' = bend) \/
   (1024 < lenN (body_of h) <= lenN body /\ m_payload req = [] /\ bend' = lenN (body_of h) /\ body' = body_of h ++ skipn (N.to_nat bend') body)).
Proof.
  unfold cross_req_http_to_coap. destruct (hm_start h) as [[a b] c]. fold (body_of h).
  assert (E0 : set_type msg_create T_CON = Ok msg_create) by reflexivity. rewrite E0. cbn [coded cbind]. clear E0.
  destruct (cross_method msg_create a) as [m1| | |] eqn:E1; cbn [cbind]; try discriminate.
  assert (F1 : exists d, fresh d [] m1 /\ (d = 1 \/ d = 2 \/ d = 3 \/ d = 4)).
  { revert E1. unfold cross_method. destruct (str_eq a s_GET); [|destruct (str_eq a s_POST); [|destruct (str_eq a s_PUT); [|destruct (str_eq a s_DELETE); [|discriminate]]]];
      (intro E1; lazy in E1; injection E1 as <-); [exists 1|exists 2|exists 3|exists 4]; (split; [|lia]); (repeat split; cbn; lia || constructor || reflexivity). }
  destruct F1 as (d & F1 & Hd). destruct (cross_uri_http_to_coap sg X m1 b) as [m2| | |] eqn:E2; cbn [coded cbind]; try discriminate.
  apply (cross_uri_fresh d []) in E2; [|exact F1]. destruct (cross_headers_http_to_coap X m2 (hm_headers h)) as [m3| | |] eqn:E3; cbn [cbind]; try discriminate.
  apply (cross_headers_fresh d []) in E3; [|exact E2]. pose proof E3 as (G1 & G2 & (G3 & G4) & G5). unfold MAX_PAYLOAD_LEN.
  destruct (N.ltb_spec 1024 (lenN (body_of h))) as [Hl|Hl].
  - destruct (N.ltb_spec (lenN body) (lenN (body_of h))); [discriminate|]. unfold put. destruct (N.leb_spec (0 + lenN (body_of h)) (lenN body)); [|lia].
    cbn [coded cbind]. intro E. injection E as <- <- <-. rewrite G4. split; [exists d; auto|]. right. repeat split; try assumption.
  - destruct (_ || _); [|discriminate]. cbn [set_payload coded cbind]. intro E. injection E as <- <- <-. split.
    + exists d. split; [|exact Hd]. repeat split; cbn [m_type m_class m_detail m_id m_token m_ops m_payload]; try assumption; apply G5.
    + left. repeat split; assumption.
Qed.

(** ** Servers *)

Section Servers.
Context {St : Type} (copen : St -> list N -> list N -> St * res unit) (cclose : St -> St) (exch : St -> msg -> St * res msg).

Definition cosend (p : msg * res msg) : cobs := CoSend (fst p) (snd p).

Lemma connected_app l l' : connected (l ++ l') = fold_left link_after l' (connected l).
Proof. apply fold_left_app. Qed.
Lemma connected_sends l h : connected (l ++ map cosend h) = connected l.
Proof. rewrite connected_app. induction h as [|p h IH]; [reflexivity|exact IH]. Qed.
Lemma sends_app l l' : sends (l ++ l') = sends l ++ sends l'.
Proof. induction l as [|[] l IH]; cbn [List.app sends]; [reflexivity|exact IH|exact IH|]. rewrite IH. reflexivity. Qed.
Lemma sends_sends h : sends (map cosend h) = h.
Proof. induction h as [|[m r] h IH]; [reflexivity|]. cbn. rewrite IH. reflexivity. Qed.

Lemma w_exch_log w m w' r : w_exch exch w m = (w', r) -> snd w' = snd w ++ map cosend [(m, r)].
Proof. unfold w_exch. destruct (exch (fst w) m) as [s x]. intro H. injection H as <- <-. reflexivity. Qed.
Lemma performed_log w h w' : performed (w_exch exch) w h w' -> snd w' = snd w ++ map cosend h.
Proof.
  induction 1 as [w|w m w1 r h w' E H IH]; [symmetry; apply app_nil_r|]. rewrite IH, (w_exch_log _ _ _ _ E), <- app_assoc. reflexivity.
Qed.

Lemma blockwise_performed fuel w req have size1 size2 buf w' buf' r : exchange_blockwise (w_exch exch) fuel w req have size1 size2 buf = (w', buf', r) ->
  exists h, performed (w_exch exch) w h w'.
Proof.
  intro E. pose proof (exchange_blockwise_sim (w_exch exch) w fuel [] req have size1 size2 buf (logged_nil _ _)) as (_ & _ & E3 & E4).
  cbn [replay fold_left] in E3. rewrite E in E3. cbn [fst] in E3. unfold logged in E4. rewrite <- E3 in E4. eexists. exact E4.
Qed.

Lemma con_blockwise_log fuel w k req have size1 size2 n w' k' r : con_blockwise exch fuel w k req have size1 size2 n = (w', k', r) ->
  (exists h, performed (w_exch exch) w h w') /\ k_client k' = k_client k.
Proof.
  unfold con_blockwise. destruct (_ <? n); [intro X; injection X as <- <- <-; split; [eexists; constructor|reflexivity]|]. destruct (exchange_blockwise _ _ _ _ _ _ _ _) as [[w1 buf] r1] eqn:E. apply blockwise_performed in E.
  destruct r1 as [[num resp]| | |]; intro H; injection H as <- <- <-; auto.
Qed.

Lemma performed_one w m w' r : w_exch exch w m = (w', r) -> performed (w_exch exch) w [(m, r)] w'.
Proof. intro H. econstructor; [exact H|constructor]. Qed.
Lemma performed_app w h w' h' w'' : performed (w_exch exch) w h w' -> performed (w_exch exch) w' h' w'' -> performed (w_exch exch) w (h ++ h') w''.
Proof. induction 1; intro H'; [exact H'|]. cbn [List.app]. econstructor; [eassumption|]. auto. Qed.

Lemma coap_exchange_log fuel w k req w' k' r : connection_coap_exchange exch fuel w k req = (w', k', r) ->
  (exists h, performed (w_exch exch) w h w') /\ k_client k' = k_client k.
Proof.
  assert (S : forall k1 w1 h have size1 size2 n req, performed (w_exch exch) w h w1 -> k_client k1 = k_client k -> con_blockwise exch fuel w1 k1 req have size1 size2 n = (w', k', r) ->
    (exists h, performed (w_exch exch) w h w') /\ k_client k' = k_client k).
  { intros k1 w1 h have size1 size2 n req0 Hp Hk E. apply con_blockwise_log in E as [[h' H'] E]. split; [|congruence]. exists (h ++ h'). eapply performed_app; eassumption. }
  assert (W : forall w1 h r1 k1, performed (w_exch exch) w h w1 -> (w1, k1, r1) = (w', k', r) -> k_client k1 = k_client k -> (exists h, performed (w_exch exch) w h w') /\ k_client k' = k_client k).
  { intros w1 h r1 k1 Hp E Hk. injection E as <- <- <-. split; [exists h; exact Hp|exact Hk]. }
  unfold connection_coap_exchange, con_put. destruct (_ =? M_GET); [|destruct (_ || _); [destruct (0 <? k_end k)|]].
  - destruct (w_exch exch w req) as [w1 r1] eqn:E. apply performed_one in E. destruct r1 as [resp| | |]; try (intro X; eapply W; [exact E|exact X|reflexivity]).
    destruct (parse_block_op _ _) as [[b|]| | |]; try (intro X; eapply W; [exact E|exact X|reflexivity]).
    intro X. eapply S; [exact E| |exact X]. reflexivity.
  - intro X. eapply S; [constructor| |exact X]. reflexivity.
  - destruct (w_exch exch w req) as [w1 r1] eqn:E. apply performed_one in E. destruct r1 as [resp| | |]; try (intro X; eapply W; [exact E|exact X|reflexivity]).
    destruct (_ && _); [|intro X; eapply W; [exact E|exact X|reflexivity]].
    destruct (put _ _ _) as [body| | |]; try (intro X; eapply W; [exact E|exact X|reflexivity]).
    intro X. eapply S; [exact E| |exact X]. reflexivity.
  - intro X. eapply W; [constructor|exact X|reflexivity].
Qed.

(** Choosing a client sends nothing, and leaves it connected to the host and port of the URI. *)
Lemma create_log p w k u w' k' r : coap_client_create copen cclose p w k u = (w', k', r) -> connected (snd w) = None -> k_client k = None ->
  exists log, snd w' = snd w ++ log /\ sends log = [] /\ connected (snd w') = k_client k' /\
    (r = Ok tt -> exists h pt, u_host u = Some h /\ u_port u = Some pt /\ k_client k' = Some (h, pt)) /\
    (forall e, r = UB e -> exists s h pt, snd (copen s h pt) = UB e).
Proof.
  intros E Hc Hk. assert (Same : connected (snd w ++ []) = k_client k) by (rewrite app_nil_r, Hk; exact Hc). unfold coap_client_create in E.
  destruct (u_host u) as [h|]; [destruct (u_port u) as [pt|]|].
  2,3: injection E as <- <- <-; exists []; rewrite app_nil_r in *; repeat split; try discriminate; exact Same.
  unfold w_open in E. destruct (copen (fst w) h pt) as [s ro] eqn:Eo.
  destruct ro as [[]|e|ub|]; [destruct (p_host p); [destruct (p_port p)|]|..]; cbn [negb] in E; injection E as <- <- <-; cbn [snd w_close].
  - exists [CoOpen h pt]. rewrite connected_app. cbn. repeat split; try discriminate. intros _. exists h, pt. auto.
  - exists [CoOpen h pt; CoClose]. rewrite <- app_assoc, connected_app. cbn. repeat split; try discriminate. symmetry. exact Hk.
  - exists [CoOpen h pt; CoClose]. rewrite <- app_assoc, connected_app. cbn. repeat split; try discriminate. symmetry. exact Hk.
  - exists []. rewrite app_nil_r in *. repeat split; try discriminate; exact Same.
  - exists []. rewrite app_nil_r in *. repeat split; try discriminate; try exact Same. intros e X. injection X as ->. exists (fst w), h, pt. rewrite Eo. reflexivity.
  - exists []. rewrite app_nil_r in *. repeat split; try discriminate; exact Same.
Qed.

Lemma choose_log p w k u w' k' r : choose_client copen cclose p w k u = (w', k', r) -> connected (snd w) = k_client k ->
  exists log, snd w' = snd w ++ log /\ sends log = [] /\ connected (snd w') = k_client k' /\
    (r = Ok tt -> exists h h' pt, u_host u = Some h' /\ same_name h' h /\ u_port u = Some pt /\ k_client k' = Some (h, pt)) /\
    (forall e, r = UB e -> (e = NullDeref /\ (u_host u = None \/ u_port u = None)) \/ exists s h pt, snd (copen s h pt) = UB e).
Proof.
  intros E Hc. unfold choose_client in E. destruct (k_client k) as [[h pt]|] eqn:Ek.
  2:{ apply create_log in E as (log & H1 & H2 & H3 & H4 & H5); [|exact Hc|exact Ek]. exists log. split; [exact H1|]. split; [exact H2|]. split; [exact H3|]. split; [|auto].
      intro Hr. destruct (H4 Hr) as (h & pt & X1 & X2 & X3). exists h, h, pt. split; [exact X1|]. split; [reflexivity|]. auto. }
  assert (Same : exists log, snd w = snd w ++ log /\ sends log = [] /\ connected (snd w) = k_client k) by (exists []; rewrite app_nil_r, Ek; auto).
  assert (Ag : (let (w, k) := coap_client_destroy cclose w k in coap_client_create copen cclose p w k u) = (w', k', r) ->
    exists log, snd w' = snd w ++ log /\ sends log = [] /\ connected (snd w') = k_client k' /\
    (r = Ok tt -> exists h h' pt, u_host u = Some h' /\ same_name h' h /\ u_port u = Some pt /\ k_client k' = Some (h, pt)) /\
    (forall e, r = UB e -> (e = NullDeref /\ (u_host u = None \/ u_port u = None)) \/ exists s h pt, snd (copen s h pt) = UB e)).
  { unfold coap_client_destroy. intro X. apply create_log in X as (log & H1 & H2 & H3 & H4 & H5); [|unfold w_close; cbn [snd]; rewrite connected_app; reflexivity|reflexivity].
    exists (CoClose :: log). split; [rewrite H1; unfold w_close; cbn [snd]; rewrite <- app_assoc; reflexivity|]. split; [exact H2|]. split; [exact H3|]. split; [|auto].
    intro Hr. destruct (H4 Hr) as (h1 & pt1 & X1 & X2 & X3). exists h1, h1, pt1. split; [exact X1|]. split; [reflexivity|]. auto. }
  destruct Same as (log0 & S1 & S2 & S3).
  destruct (u_host u) as [h'|]; [|injection E as <- <- <-; exists log0; split; [exact S1|]; split; [exact S2|]; split; [exact S3|]; split; [discriminate|]; intros e X; injection X as <-; auto].
  destruct (same_word h' h) eqn:Es; cbn [negb] in E; [|apply Ag; exact E]. apply same_word_spec in Es.
  destruct (u_port u) as [pt'|]; [|injection E as <- <- <-; exists log0; split; [exact S1|]; split; [exact S2|]; split; [exact S3|]; split; [discriminate|]; intros e X; injection X as <-; auto].
  destruct (str_eq pt' pt) eqn:Ep; cbn [negb] in E; [|apply Ag; exact E]. apply str_eq_spec in Ep as ->.
  injection E as <- <- <-. exists log0. split; [exact S1|]. split; [exact S2|]. split; [exact S3|]. split; [|discriminate].
  intros _. exists h, h', pt. auto.
Qed.

Lemma split_sends (a b l : list cobs) m r h : l ++ map cosend h = a ++ CoSend m r :: b -> sends l = [] -> exists h1, a = l ++ map cosend h1.
Proof.
  intros E Hl. symmetry in E. apply split_at in E. destruct E as [(x & -> & Hx & E)|(a' & -> & E)].
  - exfalso. destruct x as [|y x]; [congruence|]. cbn [List.app] in E. injection E as <- _. rewrite sends_app in Hl. cbn [sends] in Hl. destruct (sends a); discriminate.
  - exists (firstn (length a') h). f_equal. apply (f_equal (firstn (length a'))) in E. rewrite firstn_map, firstn_app, firstn_all, Nat.sub_diag in E.
    cbn [firstn] in E. rewrite app_nil_r in E. symmetry. exact E.
Qed.

(** One request. *)
Definition serves (sg : signedness) (req : hmsg) (before log : list cobs) : Prop :=
  forall a m r b, log = a ++ CoSend m r :: b -> exists h p, connected (before ++ a) = Some (h, p) /\ names_server sg req h p.

Lemma serves_none sg req before : serves sg req before [].
Proof. intros [|x a] m r b H; discriminate. Qed.

Lemma process_log sg p fuel w k h w' k' r : connection_process copen cclose exch sg p fuel w k h = (w', k', r) -> connected (snd w) = k_client k ->
  exists log, snd w' = snd w ++ log /\ serves sg h (snd w) log /\ connected (snd w') = k_client k'.
Proof.
  intros E Hc. unfold connection_process in E. destruct (hm_start h) as [[ma ustr] mc] eqn:Es.
  assert (None : forall k0 r0, k_client k0 = k_client k -> (w, k0, r0) = (w', k', r) -> exists log, snd w' = snd w ++ log /\ serves sg h (snd w) log /\ connected (snd w') = k_client k').
  { intros k0 r0 Hk X. injection X as <- <- <-. exists []. split; [symmetry; apply app_nil_r|]. split; [apply serves_none|congruence]. }
  destruct (cross_req_http_to_coap _ _ _ _ _) as [[[req body] bend]|code e|u|]; try (eapply None; [|exact E]; reflexivity).
  destruct (uri_parse sg (p_uri p) ustr) as [u|e|ub|] eqn:Eu; try (eapply None; [|exact E]; reflexivity).
  destruct (choose_client copen cclose p w (with_body k body bend) u) as [[w1 k1] r1] eqn:Ec.
  apply choose_log in Ec as (l1 & L1 & L2 & L3 & L4 & _); [|exact Hc].
  destruct r1 as [[]|e|ub|].
  2-4: injection E as <- <- <-; exists l1; split; [exact L1|]; split; [|exact L3];
    intros a m r2 b X; exfalso; rewrite X, sends_app in L2; cbn [sends] in L2; destruct (sends a); discriminate.
  destruct (L4 eq_refl) as (ho & ho' & pt & U1 & U2 & U3 & U4).
  destruct (connection_coap_exchange exch fuel w1 k1 req) as [[w2 k2] r2] eqn:Ee. apply coap_exchange_log in Ee as [[hs Hs] Ek2].
  assert (W2 : w2 = w' /\ k2 = k').
  { destruct r2 as [resp|[]| |]; try (injection E as <- <- <-; auto). destruct (cross_resp_coap_to_http _ _ _) as [[hr [[code e]|]]| | |]; injection E as <- <- <-; auto. }
  destruct W2 as [<- <-]. apply performed_log in Hs. exists (l1 ++ map cosend hs). rewrite Hs, L1, <- !app_assoc. split; [reflexivity|]. split.
  - intros a m r3 b X. apply split_sends in X as [h1 ->]; [|exact L2]. exists ho, pt. split.
    + rewrite app_assoc, connected_sends, <- L1, L3. exact U4.
    + unfold names_server. rewrite Es. exists (p_uri p), u, ho'. auto.
  - rewrite app_assoc, connected_sends, <- L1, L3. congruence.
Qed.

Lemma exchange_log sg fuel t w evs wire k w' x' r : connection_exchange copen cclose exch sg fuel t w (evs, wire, k) = (w', x', r) -> connected (snd w) = k_client k ->
  connected (snd w') = k_client (snd x') /\ exists log, snd w' = snd w ++ log /\
  (log = [] \/ exists evs2 wire2 b2 req, connection_recv fuel evs wire (k_recv k) = (evs2, wire2, b2, KOk req) /\ serves sg req (snd w) log).
Proof.
  intros E Hc. unfold connection_exchange in E. change (k_recv (with_body k (repeat 0 (N.to_nat CONNECTION_BODY_LEN)) 0)) with (k_recv k) in E.
  destruct (connection_recv _ _ _ _) as [[[evs1 wire1] b1] r1].
  destruct r1 as [req| | | | | |]; try (injection E as <- <- <-; split; [exact Hc|]; exists []; split; [symmetry; apply app_nil_r|left; reflexivity]).
  destruct (connection_process _ _ _ _ _ _ _ _ _) as [[w2 k2] r2] eqn:Ep. apply process_log in Ep as (log & L1 & L2 & L3); [|exact Hc].
  assert (D : log = [] \/ exists evs2 wire2 b2 req', (evs1, wire1, b1, KOk req) = (evs2, wire2, b2, KOk req') /\ serves sg req' (snd w) log) by (right; do 4 eexists; split; [reflexivity|exact L2]).
  destruct r2 as [resp|e|u|]; [destruct (connection_send _ _ _ _ _) as [b2 r3]| | |]; injection E as <- <- <-; (split; [exact L3|]; exists log; split; [exact L1|exact D]).
Qed.

Lemma thread_connected sg fuel ts : forall w x w' x' ds r, connection_thread copen cclose exch sg fuel ts w x = (w', x', ds, r) -> connected (snd w) = k_client (snd x) ->
  connected (snd w') = k_client (snd x').
Proof.
  induction ts as [|t ts IH]; intros w x w' x' ds r E Hc; cbn [connection_thread] in E.
  - injection E as <- <- <- <-. exact Hc.
  - destruct (connection_exchange _ _ _ _ _ _ _ _) as [[w1 x1] r1] eqn:Ex. destruct x as [[evs wire] k]. cbn [snd] in Hc.
    apply exchange_log in Ex as (C1 & _); [|exact Hc].
    destruct r1 as [[[req resp] bytes]| | | | | |]; try (injection E as <- <- <- <-; exact C1).
    destruct (connection_thread _ _ _ _ _ ts w1 x1) as [[[w2 x2] ds2] r2] eqn:Et. injection E as <- <- <- <-. exact (IH _ _ _ _ _ _ Et C1).
Qed.

(** ** What is sent *)

Lemma blockwise2_performed fuel w req have buf size2 w' buf' r : blockwise2 (w_exch exch) fuel w req have buf size2 = (w', buf', r) ->
  exists h, performed (w_exch exch) w h w'.
Proof.
  intro E. pose proof (blockwise2_sim (w_exch exch) w fuel [] req have buf size2 (logged_nil _ _)) as (_ & _ & E3 & E4).
  cbn [replay fold_left] in E3. rewrite E in E3. cbn [fst] in E3. unfold logged in E4. rewrite <- E3 in E4. eexists. exact E4.
Qed.
Lemma loop1_performed fuel w req body size size2 szx start w' r : blockwise1_loop (w_exch exch) fuel w req body size size2 szx start = (w', r) ->
  exists h, performed (w_exch exch) w h w'.
Proof.
  intro E. pose proof (blockwise1_loop_sim (w_exch exch) w fuel [] req body size size2 szx start (logged_nil _ _)) as (_ & E3 & E4).
  cbn [replay fold_left] in E3. rewrite E in E3. cbn [fst] in E3. unfold logged in E4. rewrite <- E3 in E4. eexists. exact E4.
Qed.

Lemma same_refl req : same_request req req.
Proof. repeat split. Qed.

(** The first message of an upload. *)
Lemma upload_first fuel w req body w' r : copied req -> with_num OP_BLOCK1 (m_ops req) = [] -> (0 < fuel)%nat -> 32 < lenN body < two64 - 32 ->
  blockwise1 (w_exch exch) fuel w req body 32 32 = (w', r) ->
  exists m rm h, performed (w_exch exch) w ((m, rm) :: h) w' /\ same_request req m /\ m_payload m = firstn 32 body /\ has_block OP_BLOCK1 m 0 true.
Proof.
  intros Hc Hn Hf Hl E. change (blockwise1 (w_exch exch) fuel w req body 32 32) with (blockwise1_loop (w_exch exch) fuel w req body 32 32 1 0) in E.
  destruct fuel as [|fuel]; [lia|]. cbn [blockwise1_loop] in E. change (add64 0 32) with 32 in E. destruct (N.leb_spec (lenN body) 32); [lia|]. cbn [negb] in E.
  destruct (block1_msg_spec req body 0 32 32 1 true 32 Hc ltac:(lia)) as [(m & Em & Hs & Hp & Hb)|Em].
  2:{ exfalso. unfold block1_msg in Em. rewrite (proj1 Hc) in Em. cbn [bind] in Em.
      assert (Ef : format_block_val 3 (N.shiftr 0 (1 + 4) mod two32) true 32 = Ok [0; 0; 9]) by (vm_compute; reflexivity). rewrite Ef in Em. cbn [bind add_op] in Em.
      unfold adv, rdn in Em. destruct (N.leb_spec 0 (lenN body)); [|lia]. change (N.to_nat 0) with 0%nat in Em. cbn [bind skipn] in Em. destruct (N.leb_spec 32 (lenN body)); [discriminate|lia]. }
  rewrite Em in E. destruct (w_exch exch w m) as [w1 rm] eqn:Ex.
  assert (Rest : exists h, performed (w_exch exch) w1 h w').
  { destruct rm as [resp| | |]; try (injection E as <- <-; eexists; constructor). destruct (negb _); [injection E as <- <-; eexists; constructor|].
    destruct (_ && _ && _); [injection E as <- <-; eexists; constructor|]. destruct (parse_block_op _ _) as [[b|]| | |]; try (injection E as <- <-; eexists; constructor).
    destruct (negb _); [injection E as <- <-; eexists; constructor|]. destruct (calc_block_szx _); try (injection E as <- <-; eexists; constructor).
    destruct (lenN body <=? add64 0 32); [injection E as <- <-; eexists; constructor|]. exact (loop1_performed _ _ _ _ _ _ _ _ _ _ E). }
  destruct Rest as [h Hh]. exists m, rm, h. split; [econstructor; eassumption|]. split; [exact Hs|]. split; [exact Hp|].
  apply Hb; [exact Hn|lia|reflexivity|reflexivity|reflexivity].
Qed.

Lemma exchange_first fuel w k req d pl w' k' r : fresh d pl req -> d = 1 \/ d = 2 \/ d = 3 -> (0 < fuel)%nat -> k_end k = 0 \/ (32 < k_end k <= lenN (k_body k) /\ lenN (k_body k) < two64 - 32) ->
  connection_coap_exchange exch fuel w k req = (w', k', r) ->
  exists m rm h, performed (w_exch exch) w ((m, rm) :: h) w' /\ same_request req m /\
    (d = 1 \/ k_end k = 0 -> m = req) /\
    (d <> 1 -> k_end k <> 0 -> m_payload m = firstn 32 (k_body k) /\ has_block OP_BLOCK1 m 0 true).
Proof.
  intros Hr Hd Hf Hk E. assert (Hc : copied req) by (apply (fresh_copied d pl); [lia|exact Hr]). pose proof Hr as (_ & _ & (Ed & _) & _ & _ & _ & Hn).
  assert (One : d = 1 \/ k_end k = 0 -> (exists w1 rm h, w_exch exch w req = (w1, rm) /\ performed (w_exch exch) w1 h w') ->
    exists m rm h, performed (w_exch exch) w ((m, rm) :: h) w' /\ same_request req m /\ (d = 1 \/ k_end k = 0 -> m = req) /\
    (d <> 1 -> k_end k <> 0 -> m_payload m = firstn 32 (k_body k) /\ has_block OP_BLOCK1 m 0 true)).
  { intros Ho (w1 & rm & h & E1 & E2). exists req, rm, h. split; [econstructor; eassumption|]. split; [apply same_refl|]. split; [reflexivity|]. intros. lia. }
  unfold connection_coap_exchange in E. rewrite Ed in E. destruct (N.eqb_spec d M_GET) as [->|Hg].
  - apply One; [left; reflexivity|]. destruct (w_exch exch w req) as [w1 rm] eqn:Ex. exists w1, rm.
    destruct rm as [resp| | |]; try (injection E as <- <- <-; eexists; split; [reflexivity|constructor]).
    destruct (parse_block_op _ _) as [[b|]| | |]; try (injection E as <- <- <-; eexists; split; [reflexivity|constructor]).
    apply con_blockwise_log in E as [[h Hh] _]. exists h. auto.
  - replace ((d =? M_PUT) || (d =? M_POST)) with true in E by (unfold M_GET, M_PUT, M_POST in *; destruct (N.eqb_spec d 3), (N.eqb_spec d 2); try reflexivity; lia).
    unfold con_put in E. destruct (N.ltb_spec 0 (k_end k)) as [H0|H0].
    + destruct Hk as [Hk|[Hk1 Hk2]]; [lia|]. unfold con_blockwise in E. destruct (N.ltb_spec (lenN (k_body k)) (k_end k)); [lia|]. set (body := firstn (N.to_nat (k_end k)) (k_body k)) in *.
      assert (Lb : lenN body = k_end k) by (unfold body, lenN in *; rewrite firstn_length; lia).
      destruct (exchange_blockwise _ _ _ _ _ _ _ _) as [[w2 buf] r2] eqn:Eb.
      assert (w2 = w') as -> by (destruct r2 as [[num resp]| | |]; injection E as <- <- <-; reflexivity).
      clear E. unfold exchange_blockwise in Eb. rewrite Ed in Eb. destruct (N.eqb_spec d M_GET); [contradiction|].
      replace ((d =? M_PUT) || (d =? M_POST)) with true in Eb by (unfold M_GET, M_PUT, M_POST in *; destruct (N.eqb_spec d 3), (N.eqb_spec d 2); try reflexivity; lia).
      unfold CONNECTION_COAP_BLOCK1_SIZE, CONNECTION_COAP_BLOCK2_SIZE in Eb.
      destruct (blockwise1 (w_exch exch) fuel w req body 32 32) as [w1 r1] eqn:E1.
      apply upload_first in E1 as (m & rm & h & H1 & H2 & H3 & H4); [|exact Hc|exact Hn|exact Hf|rewrite Lb; lia].
      assert (Rest : exists h, performed (w_exch exch) w1 h w').
      { destruct r1 as [[nu resp]| | |]; try (injection Eb as <- <- <-; eexists; constructor). destruct (nu =? 0); [injection Eb as <- <- <-; eexists; constructor|].
        destruct (_ =? 0); [injection Eb as <- <- <-; eexists; constructor|]. exact (blockwise2_performed _ _ _ _ _ _ _ _ _ Eb). }
      destruct Rest as [h2 Hh2]. exists m, rm, (h ++ h2). split; [exact (performed_app _ _ _ _ _ H1 Hh2)|]. split; [exact H2|]. split; [unfold M_GET in *; lia|].
      intros _ _. split; [|exact H4]. rewrite H3. unfold body. rewrite firstn_firstn. f_equal. lia.
    + apply One; [right; lia|]. destruct (w_exch exch w req) as [w1 rm] eqn:Ex. exists w1, rm.
      destruct rm as [resp| | |]; try (injection E as <- <- <-; eexists; split; [reflexivity|constructor]).
      destruct (_ && _); [|injection E as <- <- <-; eexists; split; [reflexivity|constructor]].
      destruct (put _ _ _) as [body| | |]; try (injection E as <- <- <-; eexists; split; [reflexivity|constructor]).
      apply con_blockwise_log in E as [[h Hh] _]. exists h. auto.
Qed.

Lemma no_body_len : lenN no_body = 8192.
Proof. unfold no_body. rewrite lenN_repeat. reflexivity. Qed.

Lemma exchange_forwards sg fuel t w evs wire k w' x' h resp bytes req body' bend' : (0 < fuel)%nat -> connection_exchange copen cclose exch sg fuel t w (evs, wire, k) = (w', x', KOk (h, resp, bytes)) ->
  connected (snd w) = k_client k ->
  cross_req_http_to_coap sg (p_x (t_mem t)) h no_body 0 = COk (req, body', bend') -> m_detail req <> 4 ->
  exists m rm new, sends (snd w') = sends (snd w) ++ (m, rm) :: new /\ same_request req m /\
    (m_detail req = 1 \/ lenN (body_of h) <= 1024 -> m = req) /\
    (m_detail req <> 1 -> 1024 < lenN (body_of h) -> m_payload m = firstn 32 (body_of h) /\ has_block OP_BLOCK1 m 0 true).
Proof.
  intros Hf E Hcon Ec Hd. destruct (cross_req_fresh _ _ _ _ _ _ _ _ Ec) as ((d & Hr & Hd4) & Hb). assert (Ed : m_detail req = d) by apply Hr.
  unfold connection_exchange in E. change (repeat 0 (N.to_nat CONNECTION_BODY_LEN)) with no_body in E.
  destruct (connection_recv _ _ _ _) as [[[evs1 wire1] b1] r1]. destruct r1 as [h0| | | | | |]; try discriminate.
  set (k0 := mkcon _ _ _ _ _) in E.
  destruct (connection_process _ _ _ _ _ _ _ _ _) as [[w2 k2] r2] eqn:Ep. destruct r2 as [resp0|e|u|]; try (cbn in E; discriminate).
  destruct (connection_send _ _ _ _ _) as [b2 r3]. destruct r3 as [bytes0| | | | | |]; try discriminate. injection E as <- <- -> -> ->.
  unfold connection_process in Ep. destruct (hm_start h) as [[ma ustr] mc]. change (k_body k0) with no_body in Ep. change (k_end k0) with 0 in Ep. rewrite Ec in Ep.
  destruct (uri_parse sg _ ustr) as [u|e|ub|]; try discriminate.
  destruct (choose_client copen cclose (t_mem t) w (with_body k0 body' bend') u) as [[w1 k1] rc] eqn:Ech. destruct rc as [[]|e|ub|]; try discriminate.
  assert (Kb : k_body k1 = body' /\ k_end k1 = bend').
  { clear Ep. unfold choose_client, coap_client_destroy, coap_client_create in Ech.
    repeat match type of Ech with
    | context [match ?x with _ => _ end] => destruct x; try discriminate
    end; injection Ech as <- <-; auto. }
  apply choose_log in Ech as (l1 & L1 & L2 & L3 & L4 & _); [|exact Hcon].
  destruct (connection_coap_exchange exch fuel w1 k1 req) as [[w3 k3] r3] eqn:Ee.
  assert (w3 = w2) as ->.
  { destruct r3 as [resp0|[]| |]; try (injection Ep as <- <- <-; reflexivity); try discriminate. destruct (cross_resp_coap_to_http _ _ _) as [[hr [[code e]|]]| | |]; try discriminate; injection Ep as <- <- <-; reflexivity. }
  destruct Kb as [Kb1 Kb2]. apply (exchange_first fuel w1 k1 req d (m_payload req)) in Ee as (m & rm & hs & P1 & P2 & P3 & P4); [|exact Hr|lia|exact Hf|].
  2:{ rewrite Kb1, Kb2. destruct Hb as [(B1 & B2 & -> & ->)|(B1 & B2 & -> & ->)]; [left; reflexivity|right]. rewrite lenN_app, lenN_skipn, no_body_len in *. unfold two64. lia. }
  exists m, rm, hs. split.
  - apply performed_log in P1. rewrite P1, L1, !sends_app, L2, sends_sends, app_nil_r. reflexivity.
  - split; [exact P2|]. rewrite Ed, Kb2 in *. split.
    + intro H. apply P3. destruct H as [H|H]; [left; exact H|right]. destruct Hb as [(_ & _ & _ & X)|(X & _)]; lia.
    + intros H1 H2. destruct Hb as [(X & _)|(B1 & B2 & B3 & B4)]; [lia|]. destruct P4 as [P4 P5]; [exact H1|lia|]. split; [|exact P5]. rewrite P4, Kb1, B4, firstn_app.
      replace (32 - length (body_of h))%nat with 0%nat by (unfold lenN in *; lia). cbn [firstn]. apply app_nil_r.
Qed.

(** ** What is received *)

Definition got (w : world) (resp : msg) (w' : world) : Prop := exists h m, performed (w_exch exch) w (h ++ [(m, Ok resp)]) w'.
Lemma got_one w m w' resp : w_exch exch w m = (w', Ok resp) -> got w resp w'.
Proof. intro H. exists [], m. apply performed_one. exact H. Qed.
Lemma got_after w h w1 resp w' : performed (w_exch exch) w h w1 -> got w1 resp w' -> got w resp w'.
Proof. intros H (h' & m & H'). exists (h ++ h'), m. rewrite <- app_assoc. eapply performed_app; eassumption. Qed.

Lemma loop1_got req body size2 : forall fuel w size szx start w' n resp, blockwise1_loop (w_exch exch) fuel w req body size size2 szx start = (w', Ok (n, resp)) -> got w resp w'.
Proof.
  induction fuel as [|fuel IH]; intros w size szx start w' n resp E; cbn [blockwise1_loop] in E; [discriminate|].
  destruct (block1_msg _ _ _ _ _ _ _ _) as [m| | |]; try discriminate. destruct (w_exch exch w m) as [w1 r] eqn:Ex. destruct r as [resp1| | |]; try discriminate.
  assert (Here : forall n0, (w1, Ok (n0, resp1)) = (w', Ok (n, resp)) -> got w resp w') by (intros n0 X; injection X as <- _ <-; exact (got_one _ _ _ _ Ex)).
  destruct (negb _); [exact (Here _ E)|]. destruct (_ && _ && _); [exact (Here _ E)|]. destruct (parse_block_op _ _) as [[b|]| | |]; try discriminate.
  destruct (negb _); [discriminate|]. destruct (calc_block_szx _); try discriminate. destruct (_ <=? _); [exact (Here _ E)|].
  eapply got_after; [apply performed_one; exact Ex|exact (IH _ _ _ _ _ _ _ E)].
Qed.
Lemma block2_resp_got req resp buf size start buf' n r : block2_resp req resp buf size start = B2Stop buf' (Ok (n, r)) -> r = resp.
Proof.
  unfold block2_resp. destruct (negb _); [intro H; injection H as _ _ <-; reflexivity|].
  destruct (if _ =? _ then _ else _); [intro H; injection H as _ _ <-; reflexivity|].
  destruct (parse_block_op _ _) as [[b|]| | |]; try discriminate. destruct (negb _); [discriminate|]. destruct (calc_block_szx _); try discriminate.
  destruct (_ <? _ mod _); [discriminate|]. destruct (_ && _); [discriminate|]. destruct (_ <? add64 _ _); [discriminate|]. destruct (put _ _ _); try discriminate.
  destruct (b_more b); [discriminate|]. intro H. injection H as _ _ <-. reflexivity.
Qed.
Lemma loop2_got req : forall fuel w buf size szx start w' buf' n resp, blockwise2_loop (w_exch exch) fuel w req buf size szx start = (w', buf', Ok (n, resp)) -> got w resp w'.
Proof.
  induction fuel as [|fuel IH]; intros w buf size szx start w' buf' n resp E; cbn [blockwise2_loop] in E; [discriminate|].
  destruct (block2_msg _ _ _ _) as [m| | |]; try discriminate. destruct (w_exch exch w m) as [w1 r] eqn:Ex. destruct r as [resp1| | |]; try discriminate.
  destruct (block2_resp _ _ _ _ _) as [b2 r2|b2 s2 x2 t2] eqn:Eb.
  - injection E as <- <- ->. apply block2_resp_got in Eb as ->. exact (got_one _ _ _ _ Ex).
  - eapply got_after; [apply performed_one; exact Ex|exact (IH _ _ _ _ _ _ _ _ _ E)].
Qed.
Lemma blockwise2_got fuel w req have buf size2 w' buf' n resp : blockwise2 (w_exch exch) fuel w req have buf size2 = (w', buf', Ok (n, resp)) ->
  (have = Some resp /\ w' = w) \/ got w resp w'.
Proof.
  unfold blockwise2. destruct (_ =? _); [discriminate|]. destruct (calc_block_szx _); try discriminate. destruct have as [r0|]; [|intro E; right; exact (loop2_got _ _ _ _ _ _ _ _ _ _ _ E)].
  destruct (block2_resp _ _ _ _ _) as [b2 r2|b2 s2 x2 t2] eqn:Eb; [|intro E; right; exact (loop2_got _ _ _ _ _ _ _ _ _ _ _ E)].
  intro E. injection E as <- <- ->. apply block2_resp_got in Eb as ->. left. auto.
Qed.
Lemma transfer_got fuel w req have size1 size2 buf w' buf' n resp : exchange_blockwise (w_exch exch) fuel w req have size1 size2 buf = (w', buf', Ok (n, resp)) ->
  (have = Some resp /\ w' = w) \/ got w resp w'.
Proof.
  unfold exchange_blockwise. destruct (_ =? M_GET); [apply blockwise2_got|]. destruct (_ || _); [|discriminate].
  destruct (blockwise1 _ _ _ _ _ _ _) as [w1 r1] eqn:E1. destruct r1 as [[n1 resp1]| | |]; try discriminate.
  assert (G1 : got w resp1 w1).
  { unfold blockwise1 in E1. destruct (_ || _); [discriminate|]. destruct (calc_block_szx size1); try discriminate. destruct (calc_block_szx size2); try discriminate.
    exact (loop1_got _ _ _ _ _ _ _ _ _ _ _ E1). }
  destruct (n1 =? 0); [intro E; injection E as <- <- <- <-; auto|]. destruct (_ =? 0); [intro E; injection E as <- <- <- <-; auto|].
  intro E. apply blockwise2_got in E as [[E ->]|E]; [injection E as <-; auto|]. right. destruct G1 as (h & m & G1). exact (got_after _ _ _ _ _ G1 E).
Qed.

Lemma performed_unique w h h' w' : performed (w_exch exch) w h w' -> performed (w_exch exch) w h' w' -> h = h'.
Proof.
  intros H H'. apply performed_log in H. apply performed_log in H'. rewrite H in H'. apply app_inv_head in H'.
  apply (f_equal sends) in H'. rewrite !sends_sends in H'. exact H'.
Qed.
Lemma responses_app h h' : responses (h ++ h') = responses h ++ responses h'.
Proof. induction h as [|[m []] h IH]; cbn [List.app responses]; [reflexivity|rewrite IH; reflexivity|exact IH..]. Qed.

Context (Hex : forall s m resp, snd (exch s m) = Ok resp -> resp_ok resp).
Lemma w_exch_ok w m : True /\ forall resp, snd (w_exch exch w m) = Ok resp -> resp_ok resp.
Proof. split; [exact I|]. intro resp. unfold w_exch. pose proof (Hex (fst w) m resp) as H. destruct (exch (fst w) m) as [s r]. exact H. Qed.

(** A transfer that counts nothing. *)
Definition answers (req : msg) : list N := if m_detail req =? M_GET then [5; 31] else [1; 4; 31].
Lemma block2_resp_zero req resp buf size start buf' r : block2_resp req resp buf size start = B2Stop buf' (Ok (0, r)) -> start <= lenN buf -> lenN buf < 9223372036854775808 -> resp_ok resp ->
  whole (answers req) resp.
Proof.
  unfold block2_resp. intros E Hs Hl [_ Hp]. destruct (N.eqb_spec (m_class resp) CL_SUCCESS) as [Ec|Ec]; cbn [negb] in E; [|left; intros [X _]; exact (Ec X)].
  destruct (if _ =? _ then _ else _) eqn:Ed.
  { left. intros [_ X]. revert X Ed. unfold answers, CONTINUE, CONTENT, CREATED, CHANGED. destruct (m_detail req =? M_GET); cbn [In]; intros X Ed; repeat (destruct X as [X|X]; [rewrite <- X in Ed; vm_compute in Ed; discriminate Ed|]); exact X. }
  clear Ed. destruct (parse_block_op _ _) as [[b|]| | |]; try discriminate. destruct (negb _); [discriminate|]. destruct (calc_block_szx _); try discriminate.
  destruct (_ <? _ mod _); [discriminate|]. destruct (_ && _); [discriminate|]. destruct (lenN buf <? add64 _ _); [discriminate|]. destruct (put _ _ _); try discriminate.
  destruct (b_more b); [discriminate|]. injection E as _ E _. right. right. rewrite N.mod_small in E by exact Hp. rewrite add64_ok in E by (unfold two64, two32 in *; lia).
  apply length_zero_iff_nil. unfold lenN in *. lia.
Qed.
Lemma block2_resp_next req resp buf size start buf' s' x' t' : block2_resp req resp buf size start = B2Next buf' s' x' t' -> t' <= lenN buf' /\ lenN buf' = lenN buf.
Proof.
  unfold block2_resp. destruct (negb _); [discriminate|]. destruct (if _ =? _ then _ else _); [discriminate|].
  destruct (parse_block_op _ _) as [[b|]| | |]; try discriminate. destruct (negb _); [discriminate|]. destruct (calc_block_szx _); try discriminate.
  destruct (_ <? _ mod _); [discriminate|]. destruct (_ && _); [discriminate|]. destruct (N.ltb_spec (lenN buf) (add64 start (lenN (m_payload resp) mod two32))); [discriminate|].
  unfold put. set (pl := firstn _ _). destruct (N.leb_spec (start + lenN pl) (lenN buf)); [|discriminate].
  destruct (b_more b); [|discriminate]. intro E. injection E as <- <- <- <-.
  assert (L : lenN (firstn (N.to_nat start) buf ++ pl ++ skipn (N.to_nat (start + lenN pl)) buf) = lenN buf) by (rewrite !lenN_app, lenN_firstn, lenN_skipn; lia).
  rewrite L. auto.
Qed.
Lemma loop2_zero req : forall fuel w buf size szx start w' buf' resp, start <= lenN buf -> lenN buf < 9223372036854775808 ->
  blockwise2_loop (w_exch exch) fuel w req buf size szx start = (w', buf', Ok (0, resp)) -> whole (answers req) resp.
Proof.
  induction fuel as [|fuel IH]; intros w buf size szx start w' buf' resp Hs Hl E; cbn [blockwise2_loop] in E; [discriminate|].
  destruct (block2_msg _ _ _ _) as [m| | |]; try discriminate. destruct (w_exch exch w m) as [w1 r] eqn:Ex. destruct r as [resp1| | |]; try discriminate.
  assert (Ro : resp_ok resp1) by (apply (proj2 (w_exch_ok w m)); rewrite Ex; reflexivity).
  destruct (block2_resp _ _ _ _ _) as [b2 r2|b2 s2 x2 t2] eqn:Eb.
  - injection E as <- <- ->. pose proof Eb as Eb'. apply block2_resp_got in Eb' as ->. exact (block2_resp_zero _ _ _ _ _ _ _ Eb Hs Hl Ro).
  - destruct (block2_resp_next _ _ _ _ _ _ _ _ _ Eb) as [N1 N2]. eapply IH; [exact N1|lia|exact E].
Qed.
Lemma blockwise2_zero fuel w req have buf size2 w' buf' resp : (forall r, have = Some r -> resp_ok r) -> lenN buf < 9223372036854775808 ->
  blockwise2 (w_exch exch) fuel w req have buf size2 = (w', buf', Ok (0, resp)) -> whole (answers req) resp.
Proof.
  intros Hh Hl. unfold blockwise2. destruct (_ =? _); [discriminate|]. destruct (calc_block_szx _); try discriminate. destruct have as [r0|]; [|apply loop2_zero; lia].
  destruct (block2_resp _ _ _ _ _) as [b2 r2|b2 s2 x2 t2] eqn:Eb.
  - intro E. injection E as <- <- ->. pose proof Eb as Eb'. apply block2_resp_got in Eb' as ->. apply (block2_resp_zero _ _ _ _ _ _ _ Eb); [lia|exact Hl|apply Hh; reflexivity].
  - destruct (block2_resp_next _ _ _ _ _ _ _ _ _ Eb) as [N1 N2]. apply loop2_zero; lia.
Qed.
Lemma loop1_zero req body size2 : forall fuel w size szx start w' n resp, 0 < lenN body ->
  blockwise1_loop (w_exch exch) fuel w req body size size2 szx start = (w', Ok (n, resp)) -> n = 0 -> ~ (m_class resp = 2 /\ In (m_detail resp) [1; 4; 31]).
Proof.
  induction fuel as [|fuel IH]; intros w size szx start w' n resp Hl E Hn; cbn [blockwise1_loop] in E; [discriminate|].
  destruct (block1_msg _ _ _ _ _ _ _ _) as [m| | |]; try discriminate. destruct (w_exch exch w m) as [w1 r] eqn:Ex. destruct r as [resp1| | |]; try discriminate.
  destruct (N.eqb_spec (m_class resp1) CL_SUCCESS) as [Ec|Ec]; cbn [negb] in E; [|injection E as <- <- <-; intros [X _]; exact (Ec X)].
  destruct (_ && _ && _) eqn:Ed.
  { injection E as <- <- <-. intros [_ X]. cbn [In] in X. unfold CONTINUE, CREATED, CHANGED in Ed. repeat (destruct X as [X|X]; [rewrite <- X in Ed; vm_compute in Ed; discriminate Ed|]); exact X. }
  clear Ed. destruct (parse_block_op _ _) as [[b|]| | |]; try discriminate.
  destruct (negb _); [discriminate|]. destruct (calc_block_szx _); try discriminate. destruct (N.leb_spec (lenN body) (add64 start (if lenN body <=? add64 start size then (sub64 (lenN body) start) mod two32 else size))).
  - injection E as <- <- <-. lia.
  - exact (IH _ _ _ _ _ _ _ Hl E Hn).
Qed.
(** A transfer of a request with a body. *)
Lemma transfer_uploads fuel w req have size1 size2 buf w' buf' n resp : copied req -> with_num OP_BLOCK1 (m_ops req) = [] -> 0 < lenN buf < 9223372036854775808 -> m_detail req <> 1 ->
  exchange_blockwise (w_exch exch) fuel w req have size1 size2 buf = (w', buf', Ok (n, resp)) ->
  (n = 0 -> whole [1; 4; 31] resp) /\ exists h, performed (w_exch exch) w h w' /\ uploads req buf h.
Proof.
  intros Hc Hn [Hl Hl'] Hd. unfold exchange_blockwise. destruct (N.eqb_spec (m_detail req) M_GET) as [X|X]; [contradiction|]. destruct (_ || _); [|discriminate].
  destruct (upload_any (w_exch exch) w (fun _ => True) I (fun w m _ => w_exch_ok w m) fuel req buf size1 size2 Hc Hl' Hn) as (h1 & w1 & r1 & E1 & P1 & _ & U1 & _).
  rewrite E1. destruct r1 as [[n1 resp1]| | |]; try discriminate.
  assert (An : answers req = [1; 4; 31]) by (unfold answers; destruct (N.eqb_spec (m_detail req) M_GET); [contradiction|reflexivity]).
  destruct (N.eqb_spec n1 0) as [->|Hn1].
  - intro E. injection E as <- <- <- <-. unfold blockwise1 in E1. destruct (_ || _); [discriminate|]. destruct (calc_block_szx size1); try discriminate. destruct (calc_block_szx size2); try discriminate.
    pose proof (loop1_zero _ _ _ _ _ _ _ _ _ _ _ Hl E1 eq_refl) as Z. split; [intros _; left; exact Z|]. exists h1. split; [exact P1|]. right.
    apply loop1_got in E1 as (h & m & P). exists h, m, resp1. split; [exact (performed_unique _ _ _ _ P1 P)|exact Z].
  - destruct (U1 n1 resp1 eq_refl Hn1) as (_ & V1 & V2 & V3 & _ & V4). change (N.to_nat 0) with 0%nat in V1. cbn [skipn] in V1.
    assert (Up : forall h2 w2, performed (w_exch exch) w1 h2 w2 -> exists h, performed (w_exch exch) w h w2 /\ uploads req buf h).
    { intros h2 w2 P2. exists (h1 ++ h2). split; [exact (performed_app _ _ _ _ _ P1 P2)|]. left. exists h1, h2. auto. }
    destruct (N.eqb_spec (lenN (m_payload resp1)) 0) as [Ep|Ep].
    + intro E. injection E as <- <- <- <-. split; [intros _; right; right; apply length_zero_iff_nil; unfold lenN in Ep; lia|]. apply (Up [] w1). constructor.
    + intro E. split; [intros ->; rewrite <- An; eapply blockwise2_zero; [|exact Hl'|exact E]; intros r X'; injection X' as <-; exact V4|].
      destruct (blockwise2_performed _ _ _ _ _ _ _ _ _ E) as [h2 P2]. exact (Up _ _ P2).
Qed.

(** The body that a block-wise transfer leaves. *)
Definition body_got (w : world) (k : con) (resp : msg) (w' : world) : Prop :=
  exists h m, performed (w_exch exch) w (h ++ [(m, Ok resp)]) w' /\
  k_end k <= lenN (k_body k) /\
  (k_end k = 0 \/
   exists size rs0 rs, responses (h ++ [(m, Ok resp)]) = rs0 ++ rs /\ rs <> [] /\ download_from 0 size rs /\ firstn (N.to_nat (k_end k)) (k_body k) = concat (map m_payload rs)).

Lemma con_blockwise_body fuel w k req have size1 size2 n w' k' resp hb w0 :
  copied req -> with_num OP_BLOCK1 (m_ops req) = [] -> n <= lenN (k_body k) -> lenN (k_body k) < 9223372036854775808 -> (forall r, have = Some r -> resp_ok r) ->
  performed (w_exch exch) w0 hb w -> (forall r, have = Some r -> exists h m, hb = h ++ [(m, Ok r)]) ->
  con_blockwise exch fuel w k req have size1 size2 n = (w', k', Ok resp) -> body_got w0 k' resp w'.
Proof.
  intros Hc Hn Hk Hl Hh H0 Hhb E. unfold con_blockwise in E. destruct (N.ltb_spec (lenN (k_body k)) n); [lia|]. set (buf := firstn (N.to_nat n) (k_body k)) in *.
  assert (Lb : lenN buf = n) by (unfold buf, lenN in *; rewrite firstn_length; lia).
  destruct (transfer_any (w_exch exch) w (fun _ => True) I (fun w m _ => w_exch_ok w m) fuel req have size1 size2 buf Hh Hc ltac:(lia) Hn) as (h & w1 & buf' & r & T1 & T2 & T3).
  rewrite T1 in E. destruct r as [[num resp1]| | |]; try discriminate. injection E as <- <- <-.
  destruct T3 as (_ & T4 & _ & _ & T5). rename resp1 into resp.
  assert (G : exists h1 m1, performed (w_exch exch) w0 (h1 ++ [(m1, Ok resp)]) w1).
  { apply transfer_got in T1 as [[E ->]|(h1 & m1 & T1)].
    - destruct (Hhb _ E) as (h1 & m1 & ->). exists h1, m1. exact H0.
    - exists (hb ++ h1), m1. rewrite <- app_assoc. exact (performed_app _ _ _ _ _ H0 T1). }
  destruct G as (h1 & m1 & G). exists h1, m1. split; [exact G|]. unfold with_body. cbn [k_end k_body].
  pose proof (performed_app _ _ _ _ _ H0 T2) as G'. rewrite (performed_unique _ _ _ _ G G').
  destruct (N.eq_dec num 0) as [->|Hnum]; [split; [lia|left; reflexivity]|].
  destruct (T5 num resp eq_refl Hnum) as (up & down & rs & Eh & Hrs & L1 & B1 & B2 & D & (rs0 & Er)).
  split; [rewrite lenN_app; lia|]. right.
  assert (Rs : exists r0, responses (hb ++ h) = r0 ++ rs).
  { rewrite Eh, !responses_app. destruct Hrs as [(_ & -> & ->)|(_ & r0 & (_ & _ & _ & _ & (h0 & m & ->) & _) & ->)].
    - cbn [responses List.app download_responses]. destruct have as [r|]; [|eexists; reflexivity]. destruct (Hhb r eq_refl) as (h2 & m2 & ->).
      rewrite responses_app. cbn [responses]. rewrite <- app_assoc. eexists. reflexivity.
    - cbn [download_responses]. rewrite responses_app. cbn [responses]. exists (responses hb ++ responses h0). rewrite <- !app_assoc. reflexivity. }
  destruct Rs as [r0 Rs]. exists size2, r0, rs. split; [exact Rs|]. split; [rewrite Er; destruct rs0; discriminate|]. split; [exact D|].
  rewrite firstn_app. replace (N.to_nat num - length buf')%nat with 0%nat by (unfold lenN in *; lia). cbn [firstn]. rewrite app_nil_r. exact B1.
Qed.

Lemma exchange_body fuel w k req d pl w' k' resp : fresh d pl req -> d = 1 \/ d = 2 \/ d = 3 -> k_end k <= lenN (k_body k) -> lenN (k_body k) = 8192 -> lenN pl <= 1024 -> (d = 1 -> k_end k = 0) ->
  connection_coap_exchange exch fuel w k req = (w', k', Ok resp) -> body_got w k' resp w'.
Proof.
  intros Hr Hd Hk Hl Hpl Hg E. assert (Hc : copied req) by (apply (fresh_copied d pl); [lia|exact Hr]). pose proof Hr as (F1 & F2 & (Ed & Ep) & F4 & F5 & F6 & Hn).
  assert (Plain : forall m0, w_exch exch w m0 = (w', Ok resp) -> k_end k = 0 -> k' = k -> body_got w k' resp w').
  { intros m0 Ex H0 ->. exists [], m0. split; [exact (performed_one _ _ _ _ Ex)|]. split; [exact Hk|left; exact H0]. }
  unfold connection_coap_exchange in E. rewrite Ed in E. destruct (N.eqb_spec d M_GET) as [->|Hg'].
  - destruct (w_exch exch w req) as [w1 r1] eqn:Ex. destruct r1 as [resp1| | |]; try discriminate.
    destruct (parse_block_op _ _) as [[b|]| | |]; try discriminate.
    + eapply con_blockwise_body with (have := Some resp1); [exact Hc|exact Hn| | | |apply performed_one; exact Ex| |exact E].
      * lia.
      * lia.
      * intros r X. injection X as <-. apply (proj2 (w_exch_ok w req)). rewrite Ex. reflexivity.
      * intros r X. injection X as <-. exists [], req. reflexivity.
    + injection E as <- <- <-. eapply Plain; [exact Ex|apply Hg; reflexivity|reflexivity].
  - replace ((d =? M_PUT) || (d =? M_POST)) with true in E by (unfold M_GET, M_PUT, M_POST in *; destruct (N.eqb_spec d 3), (N.eqb_spec d 2); try reflexivity; lia).
    unfold con_put in E. destruct (N.ltb_spec 0 (k_end k)) as [H0|H0].
    + eapply con_blockwise_body with (have := None); [exact Hc|exact Hn|exact Hk|lia|intros r X; discriminate X|constructor|intros r X; discriminate X|exact E].
    + destruct (w_exch exch w req) as [w1 r1] eqn:Ex. destruct r1 as [resp1| | |]; try discriminate.
      destruct (_ && _); [|injection E as <- <- <-; eapply Plain; [exact Ex|lia|reflexivity]].
      rewrite Ep in E. unfold put in E. destruct (N.leb_spec (0 + lenN pl) (lenN (k_body k))); [|lia].
      set (req' := mkmsg _ _ _ _ _ _ _ _) in E. assert (Fr : fresh d [] req') by (repeat split; assumption).
      eapply con_blockwise_body with (have := None); [apply (fresh_copied d []); [lia|exact Fr]|exact Hn| | |intros r X; discriminate X|apply performed_one; exact Ex|intros r X; discriminate X|exact E].
      * cbn [k_body with_body]. rewrite !lenN_app. unfold lenN in *. rewrite firstn_length, skipn_length. lia.
      * cbn [k_body with_body]. rewrite !lenN_app. unfold lenN in *. rewrite firstn_length, skipn_length. lia.
Qed.

Lemma pbo_none ops : parse_block_op ops OP_BLOCK2 = Ok None -> with_num 23 ops = [].
Proof.
  induction ops as [|o ops IH]; cbn [parse_block_op]; [reflexivity|]. unfold with_num in *. cbn [filter]. change (OP_BLOCK2 =? OP_BLOCK1) with false. change (OP_BLOCK2 =? OP_BLOCK2) with true.
  rewrite andb_false_r, andb_true_r. cbn [orb]. unfold OP_BLOCK2 at 1. destruct (o_num o =? 23); [|exact IH]. destruct (parse_block_val _ _); discriminate.
Qed.
Lemma exchange_whole fuel w k req d pl w' k' resp : fresh d pl req -> d = 1 \/ d = 2 \/ d = 3 -> k_end k <= lenN (k_body k) -> lenN (k_body k) = 8192 ->
  connection_coap_exchange exch fuel w k req = (w', k', Ok resp) -> k_end k' = 0 ->
  (d = 1 -> whole [5; 31] resp) /\ (d <> 1 -> k_end k <> 0 -> whole [1; 4; 31] resp).
Proof.
  intros Hr Hd Hk Hl E Hz. assert (Hc : copied req) by (apply (fresh_copied d pl); [lia|exact Hr]). pose proof Hr as (F1 & F2 & (Ed & Ep) & F4 & F5 & F6 & Hn).
  unfold connection_coap_exchange in E. rewrite Ed in E. destruct (N.eqb_spec d M_GET) as [->|Hg'].
  - split; [intros _|intros X; destruct (X eq_refl)]. destruct (w_exch exch w req) as [w1 r1] eqn:Ex. destruct r1 as [resp1| | |]; try discriminate.
    destruct (parse_block_op _ _) as [[b|]| | |] eqn:Eb; try discriminate.
    + unfold con_blockwise in E. destruct (_ <? _) in E; [discriminate|]. destruct (exchange_blockwise _ _ _ _ _ _ _ _) as [[w2 buf] r2] eqn:Et. destruct r2 as [[num resp2]| | |]; try discriminate. injection E as <- <- <-. cbn [with_body k_end] in Hz. subst num.
      unfold exchange_blockwise in Et. rewrite Ed, N.eqb_refl in Et. replace [5; 31] with (answers req) by (unfold answers; rewrite Ed; reflexivity).
      eapply blockwise2_zero; [|  |exact Et].
      * intros r X. injection X as <-. apply (proj2 (w_exch_ok w req)). rewrite Ex. reflexivity.
      * rewrite firstn_all2 by (unfold lenN; lia). lia.
    + injection E as <- <- <-. right. left. exact (pbo_none _ Eb).
  - replace ((d =? M_PUT) || (d =? M_POST)) with true in E by (unfold M_GET, M_PUT, M_POST in *; destruct (N.eqb_spec d 3), (N.eqb_spec d 2); try reflexivity; lia).
    split; [intros X; contradiction|]. intros _ H0. unfold con_put in E. destruct (N.ltb_spec 0 (k_end k)) as [H1|H1]; [|lia].
    unfold con_blockwise in E. destruct (_ <? _) in E; [discriminate|]. destruct (exchange_blockwise _ _ _ _ _ _ _ _) as [[w2 buf] r2] eqn:Et. destruct r2 as [[num resp2]| | |]; try discriminate. injection E as <- <- <-. cbn [with_body k_end] in Hz. subst num.
    apply transfer_uploads in Et as [Z _]; [exact (Z eq_refl)|exact Hc|exact Hn| |rewrite Ed; exact Hg']. rewrite lenN_firstn. lia.
Qed.

Lemma exchange_uploads fuel w k req d pl w' k' resp : fresh d pl req -> d = 2 \/ d = 3 -> k_end k <= lenN (k_body k) -> lenN (k_body k) = 8192 -> lenN pl <= 1024 ->
  connection_coap_exchange exch fuel w k req = (w', k', Ok resp) ->
  exists h, performed (w_exch exch) w h w' /\ (k_end k <> 0 -> uploads req (firstn (N.to_nat (k_end k)) (k_body k)) h) /\
    (k_end k = 0 -> pl <> [] -> forall m r0 h', h = (m, Ok r0) :: h' -> m_class r0 = 4 -> m_detail r0 = 13 -> uploads req pl h').
Proof.
  intros Hr Hd Hk Hl Hpl E. assert (Hc : copied req) by (apply (fresh_copied d pl); [lia|exact Hr]). pose proof Hr as (F1 & F2 & (Ed & Ep) & F4 & F5 & F6 & Hn).
  unfold connection_coap_exchange in E. rewrite Ed in E. destruct (N.eqb_spec d M_GET) as [->|Hg']; [unfold M_GET in *; lia|].
  replace ((d =? M_PUT) || (d =? M_POST)) with true in E by (unfold M_GET, M_PUT, M_POST in *; destruct (N.eqb_spec d 3), (N.eqb_spec d 2); try reflexivity; lia).
  unfold con_put in E. destruct (N.ltb_spec 0 (k_end k)) as [H0|H0].
  - unfold con_blockwise in E. destruct (_ <? _) in E; [discriminate|]. destruct (exchange_blockwise _ _ _ _ _ _ _ _) as [[w2 buf] r2] eqn:Et. destruct r2 as [[num resp2]| | |]; try discriminate. injection E as <- <- <-.
    apply transfer_uploads in Et as (_ & h & P & U); [|exact Hc|exact Hn|rewrite lenN_firstn; lia|rewrite Ed; exact Hg'].
    exists h. split; [exact P|]. split; [intros _; exact U|lia].
  - destruct (w_exch exch w req) as [w1 r1] eqn:Ex. destruct r1 as [resp1| | |]; try discriminate.
    destruct (N.eqb_spec (m_class resp1) CL_CLIENT_ERR) as [C1|C1], (N.eqb_spec (m_detail resp1) 13) as [C2|C2]; cbn [andb] in E.
    2-4: injection E as <- <- <-; exists [(req, Ok resp1)]; split; [exact (performed_one _ _ _ _ Ex)|]; split; [lia|]; intros _ _ m r0 h' X Y Z; injection X as <- <- <-; contradiction.
    rewrite Ep in E. unfold put in E. destruct (N.leb_spec (0 + lenN pl) (lenN (k_body k))); [|lia].
    set (req' := mkmsg _ _ _ _ _ _ _ _) in E. assert (Fr : fresh d [] req') by (repeat split; assumption).
    unfold con_blockwise in E. destruct (_ <? _) in E; [discriminate|]. destruct (exchange_blockwise _ _ _ _ _ _ _ _) as [[w2 buf] r2] eqn:Et. destruct r2 as [[num resp2]| | |]; try discriminate. injection E as <- <- <-.
    cbn [with_body k_body] in Et. change (firstn (N.to_nat 0) (k_body k)) with (@nil N) in Et. cbn [List.app] in Et. rewrite firstn_app in Et.
    replace (N.to_nat (lenN pl) - length pl)%nat with 0%nat in Et by (unfold lenN; lia). rewrite firstn_all2 in Et by (unfold lenN; lia). cbn [firstn] in Et. rewrite app_nil_r in Et.
    destruct (list_eq_dec N.eq_dec pl []) as [Hp|Hp].
    { eapply transfer_got in Et as [[X _]|(h & m & P)]; [discriminate|]. exists ((req, Ok resp1) :: h ++ [(m, Ok resp2)]). split; [econstructor; eassumption|]. split; [lia|]. intros _ X. contradiction. }
    apply transfer_uploads in Et as (_ & h & P & U); [|apply (fresh_copied d []); [lia|exact Fr]|exact Hn| |exact Hg' || (change (m_detail req') with (m_detail req); rewrite Ed; exact Hg')].
    2:{ destruct pl; [contradiction|]. unfold lenN in *. cbn [length] in *. lia. }
    exists ((req, Ok resp1) :: h). split; [econstructor; eassumption|]. split; [lia|]. intros _ _ m r0 h' X _ _. injection X as <- <- <-. exact U.
Qed.
End Servers.
