(** Lemmas about memory safety and the answers of the model of connection.c. *)
From Verif Require Import Base BaseLemmas BufModel BufSpec BufLemmas UriModel UriSpec UriLemmas HttpModel HttpSpec HttpLemmas HttpSafeLemmas MsgModel MsgSpec MsgFormatLemmas ClientModel ClientSpec ClientBlockLemmas CrossModel CrossSpec CrossLemmas ConModel ConSpec ConLemmas.

(** ** Reading *)

Lemma wild_more s t : wild s -> wild (s ++ t).
Proof.
  intros [w t' Hw|w sign prefix ds t' H1 H2 H3 H4 H5].
  - rewrite <- app_assoc. cbn [List.app]. apply wild_minus. exact Hw.
  - rewrite <- !app_assoc. apply (wild_long w sign prefix ds (t' ++ t)); assumption.
Qed.
Lemma calm_less s t : calm (s ++ t) -> calm s.
Proof. intros H x y E Hx W. apply (H x (y ++ t)); [rewrite E, app_assoc; reflexivity|exact Hx|apply wild_more; exact W]. Qed.
Lemma tame_part a b c : tame (a ++ b ++ c) -> tame b.
Proof.
  intros [H|H]; [left|right].
  - intros x y z E. apply (H (a ++ x) y (z ++ c)). rewrite E, <- !app_assoc. reflexivity.
  - intros h x E. apply (calm_less x c). apply (H (a ++ h)). rewrite E, <- !app_assoc. reflexivity.
Qed.
Lemma tame_parse fuel s : tame s -> lenN s <= 32768 -> 32768 < N.of_nat fuel -> safe (fun _ => True) (http_msg_parse fuel s).
Proof.
  intros [H|H] Hl Hf; [apply parse_plain_safe; exact H|]. apply parse_calm_safe; [exact H|lia|]. unfold lenN in Hl. lia.
Qed.
Lemma parse_start_bytes fuel s m num a b c : http_msg_parse fuel s = Ok (m, num) -> hm_start m = (a, b, c) -> bytes_ok s -> bytes_ok b /\ lenN b <= lenN s.
Proof.
  intros E Es Hs. unfold http_msg_parse in E. destruct (http_parse_start (s ++ [0])) as [[[[[a' b'] c'] m1] r1]| | |] eqn:E1; try discriminate. cbn [bind] in E.
  destruct (http_parse_headers _ _) as [[[hs m2] r2]| | |]; try discriminate. cbn [bind] in E. destruct (http_parse_body _ _ _ _) as [[[ts body] k]| | |]; try discriminate. cbn [bind] in E.
  injection E as <- _. cbn [hm_start] in Es. injection Es as -> -> ->. unfold http_parse_start in E1.
  destruct (find_crlf (s ++ [0])) as [[[line rest]|]| | |] eqn:Ef; try discriminate. cbn [bind] in E1. apply find_sound in Ef as [Ef _].
  destruct (str_cut 32 line) as [[x l]|] eqn:C1; [|discriminate]. destruct (lenN x =? 0); [discriminate|]. destruct (str_cut 32 l) as [[y z]|] eqn:C2; [|discriminate].
  destruct (lenN y =? 0); [discriminate|]. destruct (lenN z =? 0); [discriminate|]. injection E1 as -> -> -> _ _.
  apply cut_sound in C1, C2. subst line l.
  assert (Hb : bytes_ok (s ++ [0])) by (apply bytes_ok_app; split; [exact Hs|repeat constructor]). rewrite Ef in Hb. split.
  - rewrite <- app_assoc in Hb. cbn [List.app] in Hb. apply bytes_ok_app in Hb. destruct Hb as [_ Hb]. inversion Hb as [|? ? _ Hb']; subst. rewrite <- app_assoc in Hb'. apply bytes_ok_app in Hb'. tauto.
  - apply (f_equal (@lenN N)) in Ef. rewrite !lenN_app, !lenN_cons, !lenN_app, !lenN_cons, (@lenN_nil N) in Ef. lia.
Qed.

Definition sizes (size : N) : Prop := size = 4096 \/ size = 8192 \/ size = 16384 \/ size = 32768.
Lemma recv_safe fuel : 32768 < N.of_nat fuel -> forall evs wire b q size, holds b q size 32768 -> sizes size -> tame (q ++ wire) -> bytes_ok (q ++ wire) ->
  exists evs' wire' b' r q' size' pre, connection_recv fuel evs wire b = (evs', wire', b', r) /\ holds b' q' size' 32768 /\ sizes size' /\
    q ++ wire = pre ++ q' ++ wire' /\ (forall u, r <> KUB u) /\ r <> KFuel /\
    (forall m, r = KOk m -> let '(_, str, _) := hm_start m in bytes_ok str /\ lenN str <= 32768).
Proof.
  intro Hf. induction evs as [|e evs IH]; intros wire b q size Hh Hs Ht Hb; cbn [connection_recv].
  { do 4 eexists. exists q, size, []. split; [reflexivity|]. split; [exact Hh|]. split; [exact Hs|]. split; [reflexivity|]. repeat split; discriminate. }
  destruct e as [|er| |n mem]; try (do 4 eexists; exists q, size, []; split; [reflexivity|]; split; [exact Hh|]; split; [exact Hs|]; split; [reflexivity|]; repeat split; discriminate).
  rewrite (holds_space _ _ _ Hh). set (k := N.to_nat (N.min n (size - lenN q))). assert (Hk : N.of_nat k <= size - lenN q) by (unfold k; lia). clearbody k.
  assert (Hq : lenN q <= size) by apply Hh.
  assert (Lg : lenN (firstn k wire) <= size - lenN q) by (unfold lenN at 1; rewrite firstn_length; lia).
  destruct (recv_holds _ _ _ _ (firstn k wire) max_small Hh ltac:(lia)) as (b1 & Er & Hh1).
  assert (E1 : q ++ wire = (q ++ firstn k wire) ++ skipn k wire) by (rewrite <- app_assoc, firstn_skipn; reflexivity).
  destruct (firstn k wire) as [|g0 gs] eqn:Eg.
  { do 4 eexists. exists q, size, []. split; [reflexivity|]. split; [exact Hh|]. split; [exact Hs|]. split; [|repeat split; discriminate].
    rewrite E1, app_nil_r. reflexivity. }
  rewrite <- Eg in *. rewrite Er, (cells_holds _ _ _ _ Hh1). set (q1 := q ++ firstn k wire) in *.
  assert (L1 : lenN q1 <= size) by (unfold q1; rewrite lenN_app; lia). clearbody q1. set (wire1 := skipn k wire) in *. clearbody wire1. rewrite E1 in *.
  assert (Hsz : size <= 32768) by (unfold sizes in Hs; lia).
  assert (Again : exists evs' wire' b' r q' size' pre,
    (if data_buf_get_space b1 <? CONNECTION_DATA_BUF_MIN_SPACE
          then match data_buf_expand b1 mem with
               | Ok b => connection_recv fuel evs wire1 b
               | r => (evs, wire1, b1, kfail r)
               end
          else connection_recv fuel evs wire1 b1) = (evs', wire', b', r) /\ holds b' q' size' 32768 /\ sizes size' /\
    q1 ++ wire1 = pre ++ q' ++ wire' /\ (forall u, r <> KUB u) /\ r <> KFuel /\
    (forall m, r = KOk m -> let '(_, str, _) := hm_start m in bytes_ok str /\ lenN str <= 32768)).
  { destruct (_ <? _); [|exact (IH wire1 b1 q1 size Hh1 Hs Ht Hb)].
    pose proof (expand_holds _ _ _ _ mem max_small Hh1) as X. destruct (data_buf_expand b1 mem) as [b2|er| |].
    - destruct X as (X1 & _ & X2). apply (IH wire1 b2 q1 (2 * size) X2); [unfold sizes in *; lia|exact Ht|exact Hb].
    - do 4 eexists. exists q1, size, []. split; [reflexivity|]. split; [exact Hh1|]. split; [exact Hs|]. split; [reflexivity|]. repeat split; discriminate.
    - contradiction.
    - contradiction. }
  assert (Hb1 : bytes_ok q1) by (apply bytes_ok_app in Hb; tauto).
  pose proof (tame_parse fuel q1 (tame_part [] q1 wire1 Ht) ltac:(lia) Hf) as P.
  destruct (http_msg_parse fuel q1) as [[m num]|er|u|] eqn:Ep; cbn [safe] in P; try contradiction.
  - assert (Hm : let '(_, str, _) := hm_start m in bytes_ok str /\ lenN str <= 32768).
    { destruct (hm_start m) as [[a0 b0] c0] eqn:Es. destruct (parse_start_bytes _ _ _ _ _ _ _ Ep Es Hb1). split; [assumption|lia]. }
    destruct (0 <? num)%Z.
    + destruct (consume_holds _ _ _ _ (Z.to_N num) max_small Hh1) as (b2 & Ec & Hh2). rewrite Ec.
      do 4 eexists. exists (skipn (N.to_nat (Z.to_N num)) q1), size, (firstn (N.to_nat (Z.to_N num)) q1). split; [reflexivity|]. split; [exact Hh2|]. split; [exact Hs|].
      split; [rewrite app_assoc, firstn_skipn; reflexivity|]. split; [discriminate|]. split; [discriminate|]. intros m0 E. injection E as <-. exact Hm.
    + destruct (num =? -11)%Z; [exact Again|]. destruct (num =? 0)%Z; (do 4 eexists; exists q1, size, []; split; [reflexivity|]; split; [exact Hh1|]; split; [exact Hs|]; split; [reflexivity|]).
      * split; [discriminate|]. split; [discriminate|]. intros m0 E. injection E as <-. exact Hm.
      * repeat split; discriminate.
  - destruct er; try exact Again; (do 4 eexists; exists q1, size, []; split; [reflexivity|]; split; [exact Hh1|]; split; [exact Hs|]; split; [reflexivity|]; repeat split; discriminate).
Qed.

(** ** Exchanges *)

Lemma pbo_sound ops num u : (forall o, In o ops -> o_num o = 23 \/ o_num o = 27 -> o_val o <> []) -> parse_block_op ops num <> UB u.
Proof.
  induction ops as [|o ops IH]; intro H; cbn [parse_block_op]; [discriminate|].
  destruct ((o_num o =? OP_BLOCK1) && (num =? OP_BLOCK1) || (o_num o =? OP_BLOCK2) && (num =? OP_BLOCK2)) eqn:E; [|apply IH; intros; apply H; [right|]; assumption].
  assert (Hn : o_num o = 23 \/ o_num o = 27).
  { unfold OP_BLOCK1, OP_BLOCK2 in E. apply orb_prop in E. destruct E as [E|E]; apply andb_prop in E; destruct E as [E _]; apply N.eqb_eq in E; auto. }
  assert (R : forall v i, i < lenN v -> rd v i = Ok (nth (N.to_nat i) v 0)) by (intros v i Hi; unfold rd; destruct (N.ltb_spec i (lenN v)); [reflexivity|lia]).
  pose proof (H o (or_introl eq_refl) Hn) as Hv. unfold o_len. destruct (o_val o) as [|v0 [|v1 [|v2 v]]]; [congruence|..];
    unfold parse_block_val; rewrite ?lenN_cons, ?(@lenN_nil N).
  - destruct (N.eqb_spec (0 + 1) 1); [|lia]. rewrite R by (rewrite !lenN_cons; lia). cbn [bind]. destruct (_ <? _); discriminate.
  - destruct (N.eqb_spec (0 + 1 + 1) 1); [lia|]. destruct (N.eqb_spec (0 + 1 + 1) 2); [|lia]. rewrite !R by (rewrite !lenN_cons; lia). cbn [bind]. destruct (_ <? _); discriminate.
  - destruct (N.eqb_spec (lenN v + 1 + 1 + 1) 1); [lia|]. destruct (N.eqb_spec (lenN v + 1 + 1 + 1) 2); [lia|].
    rewrite !R by (rewrite !lenN_cons; lia). cbn [bind]. destruct (_ <? _); discriminate.
Qed.

(** ** Responses *)

Lemma cstr_good v : exists t, cstr (v ++ [0]) = Ok t /\ ~ In 0 t /\ lenN t <= lenN v.
Proof.
  induction v as [|c v (t & IH1 & IH2 & IH3)]; [exists []; repeat split; [intros []|rewrite (@lenN_nil N); lia]|]. cbn [List.app cstr].
  destruct (N.eqb_spec c 0); [exists []; repeat split; [intros []|rewrite (@lenN_nil N); lia]|]. rewrite IH1. exists (c :: t). repeat split.
  - intros [X|X]; [congruence|contradiction].
  - rewrite !lenN_cons. lia.
Qed.
Lemma dec_from_good fuel : forall n, lenN (dec_from fuel n) <= N.of_nat fuel /\ ~ In 0 (dec_from fuel n).
Proof.
  induction fuel as [|fuel IH]; intro n; cbn [dec_from]; [split; [rewrite (@lenN_nil N); lia|intros []]|].
  destruct (n <? 10); [split; [rewrite lenN_cons, (@lenN_nil N); lia|intros [X|[]]; lia]|]. destruct (IH (n / 10)) as [I1 I2]. split.
  - rewrite lenN_app, lenN_cons, (@lenN_nil N). lia.
  - rewrite in_app_iff. intros [X|[X|[]]]; [contradiction|lia].
Qed.
Definition good_header (h : list N * list N) : Prop := ~ In 0 (fst h) /\ ~ In 0 (snd h) /\ lenN (fst h) <= 255 /\ lenN (snd h) <= 255.
Lemma headers_good ops : let (hs, r) := cross_headers_coap_to_http ops in
  Forall good_header hs /\ lenN hs <= lenN ops /\ match r with Ok _ | Err _ => True | _ => False end.
Proof.
  induction ops as [|o ops IH]; cbn [cross_headers_coap_to_http]; [split; [apply Forall_nil|]; split; [rewrite !lenN_nil; lia|exact I]|].
  destruct (N.leb_spec 256 (o_len o)) as [Hl|Hl]; [split; [apply Forall_nil|]; split; [rewrite (@lenN_nil (list N * list N)); lia|exact I]|]. unfold o_len in Hl.
  rewrite tmp_str_in by exact Hl. destruct (cstr_good (o_val o)) as (t & -> & T1 & T2). set (h := if _ =? OP_ETAG then _ else _).
  assert (Hh : Forall good_header h /\ lenN h <= 1).
  { assert (One : forall x, good_header x -> Forall good_header [x] /\ lenN [x] <= 1) by (intros x Hx; split; [constructor; [exact Hx|constructor]|rewrite lenN_cons, (@lenN_nil (list N * list N)); lia]).
    assert (None : Forall good_header [] /\ lenN (@nil (list N * list N)) <= 1) by (split; [constructor|unfold lenN; cbn; lia]).
    unfold h. destruct (_ =? OP_ETAG).
    - apply One. split; [vm_compute; intuition discriminate|]. cbn [snd fst]. split; [exact T1|]. split; [vm_compute; discriminate|lia].
    - destruct (_ =? OP_MAX_AGE).
      + destruct (scan_dec t) as [v|]; [|exact None]. apply One. destruct (dec_from_good 20 v) as [D1 D2]. split; [vm_compute; intuition discriminate|]. cbn [snd fst]. unfold dec_text. split.
        * rewrite in_app_iff. intros [X|X]; [vm_compute in X; intuition discriminate|contradiction].
        * split; [vm_compute; discriminate|]. rewrite lenN_app. change (lenN s_max_age) with 8. lia.
      + destruct (_ =? OP_ACCEPT); [|exact None]. destruct (_ && _); [|exact None]. apply One. unfold good_header. cbn [fst snd]. split; [vm_compute; intuition discriminate|]. split; [vm_compute; intuition discriminate|]. split; vm_compute; discriminate. }
  clearbody h. destruct (cross_headers_coap_to_http ops) as [hs r]. destruct IH as (I1 & I2 & I3). split; [apply Forall_app; split; [apply Hh|exact I1]|]. split; [|exact I3].
  rewrite lenN_app, lenN_cons. destruct Hh. lia.
Qed.
Lemma headers_text_len hs : Forall good_header hs -> lenN (headers_text hs) <= 1024 * lenN hs.
Proof.
  induction 1 as [|h hs (_ & _ & H1 & H2) _ IH]; [unfold headers_text, lenN; cbn; lia|]. change (headers_text (h :: hs)) with (header_text h ++ headers_text hs). unfold header_text.
  rewrite !lenN_app, (lenN_cons _ hs). change (lenN [58; 32]) with 2. change (lenN crlf) with 2. lia.
Qed.

Definition small (h : hmsg) : Prop := no_nul h /\ lenN (http_text h) < two64.
Definition good_start (h : hmsg) : Prop := let '(a, b, c) := hm_start h in ~ In 0 a /\ ~ In 0 b /\ ~ In 0 c /\ lenN a <= 255 /\ lenN b <= 255 /\ lenN c <= 255.
Lemma small_ok h : good_start h -> Forall good_header (hm_headers h) -> lenN (hm_headers h) <= two32 -> lenN (body_of h) < two32 -> small h.
Proof.
  unfold small, good_start, no_nul, http_text, head_text. destruct (hm_start h) as [[a b] c]. intros (H1 & H2 & H3 & H4 & H5 & H6) Hh Hl Hb. split.
  - split; [exact H1|]. split; [exact H2|]. split; [exact H3|]. intros x Hx. rewrite Forall_forall in Hh. destruct (Hh x Hx) as (G1 & G2 & _). auto.
  - pose proof (headers_text_len _ Hh). rewrite !lenN_app. change (lenN [32]) with 1. change (lenN crlf) with 2. unfold two32, two64 in *. lia.
Qed.

Lemma status_good m st : cross_status m = Ok st -> let '(a, b, c) := st in ~ In 0 a /\ ~ In 0 b /\ ~ In 0 c /\ lenN a <= 255 /\ lenN b <= 255 /\ lenN c <= 255.
Proof.
  unfold cross_status. intro H.
  set (s := if m_class m =? CL_SUCCESS then status_success (m_detail m) else if m_class m =? CL_CLIENT_ERR then status_client (m_detail m) else
    if m_class m =? CL_SERVER_ERR then status_server (m_detail m) else None) in H.
  assert (T : forall x, s = Some x -> In x texts).
  { intros x E. unfold s in E. destruct (_ =? CL_SUCCESS); [apply (success_texts _ _ E)|]. destruct (_ =? CL_CLIENT_ERR); [apply (client_texts _ _ E)|].
    destruct (_ =? CL_SERVER_ERR); [apply (server_texts _ _ E)|]. discriminate. }
  destruct s as [[b c]|]; [|discriminate]. injection H as <-. specialize (T _ eq_refl).
  assert (G : forallb (fun x : list N * list N => let (b, c) := x in forallb (fun y => negb (y =? 0)) (b ++ c) && (lenN b <=? 255) && (lenN c <=? 255)) texts = true) by (vm_compute; reflexivity).
  rewrite forallb_forall in G. specialize (G _ T). cbv beta iota in G. apply andb_prop in G. destruct G as [G G3]. apply andb_prop in G. destruct G as [G1 G2].
  apply N.leb_le in G2, G3. rewrite forallb_forall in G1.
  split; [vm_compute; intuition discriminate|]. split; [intro X; specialize (G1 0 (in_or_app b c 0 (or_introl X))); discriminate|].
  split; [intro X; specialize (G1 0 (in_or_app b c 0 (or_intror X))); discriminate|]. split; [vm_compute; discriminate|auto].
Qed.

Lemma error_start h code : code < two64 -> good_start (gen_error_resp h code).
Proof.
  intro Hc. unfold good_start, gen_error_resp. cbn [hm_start]. destruct (dec_from_good 20 code) as [D1 D2].
  assert (G : ~ In 0 (cross_http_resp_code_to_str code) /\ lenN (cross_http_resp_code_to_str code) <= 255).
  { unfold cross_http_resp_code_to_str. repeat (destruct (code =? _); [split; [cbn; intuition discriminate|vm_compute; discriminate]|]). split; [cbn; intuition discriminate|vm_compute; discriminate]. }
  split; [vm_compute; intuition discriminate|]. split; [exact D2|]. split; [apply G|]. split; [vm_compute; discriminate|]. split; [unfold dec_text; lia|apply G].
Qed.

(** The translation of a response. *)
Lemma resp_good m body n : sound_response m -> n <= lenN body -> lenN body = 8192 ->
  exists h r, cross_resp_coap_to_http m body n = Ok (h, r) /\
    match r with
    | None => small h /\ ((0 < n /\ body_of h = firstn (N.to_nat n) body) \/ (n = 0 /\ body_of h = m_payload m))
    | Some (code, _) => code = 502 /\ small (gen_error_resp h code) /\ body_of h = []
    end.
Proof.
  intros ((_ & Hp) & Ho & _) Hn Hb. unfold cross_resp_coap_to_http.
  assert (Hpl : m_payload m = [] \/ 0 < lenN (m_payload m)) by (destruct (m_payload m); [left; reflexivity|right; rewrite lenN_cons; lia]).
  assert (Err502 : forall st hs, Forall good_header hs -> lenN hs <= two32 -> small (gen_error_resp (mkhmsg st hs None) 502)).
  { intros st hs H1 H2. apply small_ok; [apply error_start; reflexivity|exact H1|exact H2|]. unfold body_of. cbn. reflexivity. }
  destruct (cross_status m) as [st|e|u|] eqn:Es; [|..].
  2:{ do 2 eexists. split; [reflexivity|]. split; [reflexivity|]. split; [apply Err502; [constructor|unfold lenN; cbn; lia]|reflexivity]. }
  2,3: exfalso; unfold cross_status in Es; repeat (match type of Es with context [match ?x with _ => _ end] => destruct x end; try discriminate).
  pose proof (status_good _ _ Es) as Hst. pose proof (headers_good (m_ops m)) as Hh. destruct (cross_headers_coap_to_http (m_ops m)) as [hs r]. destruct Hh as (H1 & H2 & H3).
  destruct r as [u|e|u|]; try contradiction.
  2:{ do 2 eexists. split; [reflexivity|]. split; [reflexivity|]. split; [apply Err502; [exact H1|unfold two32 in *; lia]|reflexivity]. }
  assert (S1 : forall b, lenN b < two32 -> small (mkhmsg st (hs ++ [(s_content_length, dec_text (lenN b))]) (Some b))).
  { intros b Lb. apply small_ok; [exact Hst| | |exact Lb]; cbn [hm_headers].
    - apply Forall_app. split; [exact H1|]. constructor; [|constructor]. destruct (dec_from_good 20 (lenN b)) as [D1 D2]. split; [vm_compute; intuition discriminate|]. cbn [fst snd]. split; [exact D2|]. split; [vm_compute; discriminate|unfold dec_text; lia].
    - rewrite lenN_app, lenN_cons, lenN_nil. unfold two32 in *; lia. }
  destruct (N.ltb_spec 0 n) as [H0|H0].
  - destruct (N.ltb_spec (lenN body) n); [lia|]. cbn [bind]. do 2 eexists. split; [reflexivity|]. split; [apply S1; unfold lenN in *; rewrite firstn_length; unfold two32; lia|]. left. split; [exact H0|reflexivity].
  - destruct (N.ltb_spec 0 (lenN (m_payload m))); cbn [bind]; do 2 eexists; (split; [reflexivity|]).
    + split; [apply S1; exact Hp|]. right. split; [lia|reflexivity].
    + split; [apply small_ok; [exact Hst|exact H1|unfold two32 in *; cbn [hm_headers]; lia|reflexivity]|]. right. split; [lia|]. destruct Hpl as [->|]; [reflexivity|lia].
Qed.

Section Servers.
Context {St : Type} (copen : St -> list N -> list N -> St * res unit) (cclose : St -> St) (exch : St -> msg -> St * res msg).
Context (Hex : forall s m, sound_result (snd (exch s m))).

Lemma resp_oks : forall s m resp, snd (exch s m) = Ok resp -> resp_ok resp.
Proof. intros s m resp E. pose proof (Hex s m) as H. rewrite E in H. apply H. Qed.

Lemma performed_sound w h w' : performed (w_exch exch) w h w' -> Forall (fun p => sound_result (snd p)) h.
Proof.
  induction 1 as [|w m w1 r h w' E H IH]; constructor; [|exact IH]. cbn [snd]. unfold w_exch in E. pose proof (Hex (fst w) m) as X. destruct (exch (fst w) m) as [s r0]. injection E as _ <-. exact X.
Qed.
Lemma sound_responses h x : Forall (fun p : msg * res msg => sound_result (snd p)) h -> In x (responses h) -> sound_response x.
Proof.
  induction 1 as [|[m r] h H Hh IH]; [intros []|]. destruct r as [y| | |]; cbn [responses snd sound_result] in *; try exact IH. intros [<-|X]; auto.
Qed.
Lemma sound_last h m r : Forall (fun p : msg * res msg => sound_result (snd p)) (h ++ [(m, r)]) -> sound_result r.
Proof. intro H. apply Forall_app in H as [_ H]. inversion H. assumption. Qed.
Lemma blame_sound have h u : Forall (fun p : msg * res msg => sound_result (snd p)) h -> (forall x, have = Some x -> sound_response x) -> ~ blame have h u.
Proof.
  intros Hh Hv [(h0 & m & ->)|(x & Hx & num & _ & E)]; [exact (sound_last _ _ _ Hh)|].
  assert (S : sound_response x) by (destruct Hx as [Hx|Hx]; [auto|eapply sound_responses; eassumption]). destruct S as (_ & _ & S). exact (pbo_sound _ _ _ S E).
Qed.

Definition ends_ok (k : con) (r : res msg) : Prop :=
  match r with Ok m => sound_response m /\ k_end k <= lenN (k_body k) | Err _ => True | UB _ | OutOfFuel => False end.

Lemma con_blockwise_safe fuel w k req have size1 size2 n w' k' r :
  copied req -> with_num OP_BLOCK1 (m_ops req) = [] -> n <= lenN (k_body k) -> lenN (k_body k) = 8192 -> 512 < N.of_nat fuel -> (forall x, have = Some x -> sound_response x) ->
  con_blockwise exch fuel w k req have size1 size2 n = (w', k', r) -> lenN (k_body k') = 8192 /\ ends_ok k' r.
Proof.
  intros Hc Hn Hk Hl Hf Hh E. unfold con_blockwise in E. destruct (N.ltb_spec (lenN (k_body k)) n); [lia|]. set (buf := firstn (N.to_nat n) (k_body k)) in *.
  assert (Lb : lenN buf = n) by (unfold buf, lenN in *; rewrite firstn_length; lia).
  destruct (transfer_any (w_exch exch) w (fun _ => True) I (fun w m _ => w_exch_ok exch resp_oks w m) fuel req have size1 size2 buf (fun x Hx => proj1 (Hh x Hx)) Hc ltac:(lia) Hn) as (h & w1 & buf' & r0 & T1 & T2 & T3).
  rewrite T1 in E. destruct T3 as (_ & T4 & T5 & T6 & T7). pose proof (performed_sound _ _ _ T2) as Hs.
  assert (Lk : lenN (buf' ++ skipn (N.to_nat n) (k_body k)) = 8192) by (unfold lenN in *; rewrite app_length, skipn_length; lia).
  destruct r0 as [[num resp]|e|u|]; injection E as <- <- <-; cbn [with_body k_body k_end ends_ok]; (split; [exact Lk|]); try exact I.
  - split.
    + apply transfer_got in T1 as [[E _]|(h1 & m1 & T1)]; [auto|]. exact (sound_last _ _ _ (performed_sound _ _ _ T1)).
    + rewrite Lk. destruct (N.eq_dec num 0) as [->|Hnum]; [lia|]. destruct (T7 num resp eq_refl Hnum) as (_ & _ & _ & _ & _ & L & _). lia.
  - exact (blame_sound _ _ _ Hs Hh (T6 u eq_refl)).
  - assert (lenN buf / 16 < N.of_nat fuel) as Hd by (apply N.div_lt_upper_bound; lia). destruct (T5 Hd eq_refl) as (h0 & m0 & ->). exact (sound_last _ _ _ Hs).
Qed.

Lemma created_sound : sound_response msg_create.
Proof. split; [split; [constructor|reflexivity]|]. split; [reflexivity|]. intros o []. Qed.

Lemma exchange_safe fuel w k req d pl w' k' r : fresh d pl req -> d <= 31 -> lenN pl <= 1024 -> k_end k <= lenN (k_body k) -> lenN (k_body k) = 8192 -> 512 < N.of_nat fuel ->
  connection_coap_exchange exch fuel w k req = (w', k', r) -> lenN (k_body k') = 8192 /\ ends_ok k' r.
Proof.
  intros Hr Hd Hpl Hk Hl Hf E. assert (Hc : copied req) by (apply (fresh_copied d pl); [lia|exact Hr]). pose proof Hr as (F1 & F2 & (Ed & Ep) & F4 & F5 & F6 & Hn).
  assert (Plain : forall m0 w1 r1, w_exch exch w m0 = (w1, r1) -> ends_ok k r1).
  { intros m0 w1 r1 Ex. apply performed_one in Ex. pose proof (sound_last [] _ _ (performed_sound _ _ _ Ex)) as S. destruct r1; cbn in *; auto. }
  unfold connection_coap_exchange in E. destruct (m_detail req =? M_GET).
  - destruct (w_exch exch w req) as [w1 r1] eqn:Ex. pose proof (Plain _ _ _ Ex) as P.
    destruct r1 as [resp1| | |]; try (injection E as <- <- <-; auto; fail).
    pose proof (fun u => pbo_sound (m_ops resp1) OP_BLOCK2 u (proj2 (proj2 (proj1 P)))) as Pb. pose proof (proj1 (pbo_no_fuel (m_ops resp1) OP_BLOCK2)) as Pf.
    destruct (parse_block_op _ _) as [[b|]| |u|].
    + eapply con_blockwise_safe in E; [exact E|exact Hc|exact Hn|lia|exact Hl|exact Hf|]. intros x X. injection X as <-. apply P.
    + injection E as <- <- <-. auto.
    + injection E as <- <- <-. cbn. auto.
    + destruct (Pb u eq_refl).
    + congruence.
  - destruct (_ || _); [|injection E as <- <- <-; split; [exact Hl|]; split; [exact created_sound|exact Hk]].
    unfold con_put in E. destruct (N.ltb_spec 0 (k_end k)) as [H0|H0].
    + eapply con_blockwise_safe in E; [exact E|exact Hc|exact Hn|exact Hk|exact Hl|exact Hf|intros x X; discriminate X].
    + destruct (w_exch exch w req) as [w1 r1] eqn:Ex. pose proof (Plain _ _ _ Ex) as P.
      destruct r1 as [resp1| | |]; try (injection E as <- <- <-; auto; fail).
      destruct (_ && _); [|injection E as <- <- <-; auto]. rewrite Ep in E. unfold put in E. destruct (N.leb_spec (0 + lenN pl) (lenN (k_body k))); [|lia].
      set (req' := mkmsg _ _ _ _ _ _ _ _) in E. assert (Fr : fresh d [] req') by (repeat split; assumption).
      eapply con_blockwise_safe in E; [exact E|apply (fresh_copied d []); [lia|exact Fr]|exact Hn| | |exact Hf|intros x X; discriminate X];
        (cbn [k_body with_body]; rewrite !lenN_app; unfold lenN in *; rewrite firstn_length, skipn_length; lia).
Qed.

(** ** A request *)

Context (Hopen : forall s h p, match snd (copen s h p) with Ok _ | Err _ => True | UB _ | OutOfFuel => False end).

(** Why there may be no client. *)
Definition no_client (p : pmem) (u : uri) (e : errno) : Prop :=
  nameless u \/ p_host p = false \/ p_port p = false \/ exists s h pt, snd (copen s h pt) = Err e.
Definition same_rest (k k' : con) : Prop := k_recv k' = k_recv k /\ k_send k' = k_send k.
Definition same_body (k k' : con) : Prop := k_body k' = k_body k /\ k_end k' = k_end k /\ same_rest k k'.

Lemma create_safe p w k u w' k' r : coap_client_create copen cclose p w k u = (w', k', r) ->
  same_body k k' /\ match r with Ok _ => True | Err e => no_client p u e | UB _ | OutOfFuel => False end.
Proof.
  unfold coap_client_create. intro E. destruct (u_host u) as [h|] eqn:Eh; [destruct (u_port u) as [pt|] eqn:Ep|].
  2,3: injection E as <- <- <-; split; [repeat split; reflexivity|]; unfold no_client, nameless; rewrite ?Eh, ?Ep; auto.
  unfold w_open in E. pose proof (Hopen (fst w) h pt) as Ho. destruct (copen (fst w) h pt) as [s ro] eqn:Eo. cbn [snd] in Ho.
  destruct ro as [[]|e|ub|]; try contradiction.
  - destruct (p_host p) eqn:E1; [destruct (p_port p) eqn:E2|]; cbn [negb] in E; injection E as <- <- <-; (split; [repeat split; reflexivity|]); unfold no_client; auto.
  - injection E as <- <- <-. split; [repeat split; reflexivity|]. unfold no_client. right. right. right. exists (fst w), h, pt. rewrite Eo. reflexivity.
Qed.
Lemma choose_safe p w k u w' k' r : choose_client copen cclose p w k u = (w', k', r) ->
  same_body k k' /\ match r with Ok _ => True | Err e => no_client p u e | UB x => x = NullDeref /\ nameless u | OutOfFuel => False end.
Proof.
  unfold choose_client. destruct (k_client k) as [[h pt]|].
  - assert (Ag : (let (w, k) := coap_client_destroy cclose w k in coap_client_create copen cclose p w k u) = (w', k', r) ->
      same_body k k' /\ match r with Ok _ => True | Err e => no_client p u e | UB x => x = NullDeref /\ nameless u | OutOfFuel => False end).
    { unfold coap_client_destroy. intro E. apply create_safe in E as [E1 E2]. split; [exact E1|]. destruct r; auto; contradiction. }
    destruct (u_host u) as [h'|] eqn:Eh; [|intro E; injection E as <- <- <-; split; [repeat split; reflexivity|]; unfold nameless; auto].
    destruct (negb (same_word _ _)); [exact Ag|].
    destruct (u_port u) as [pt'|] eqn:Ep; [|intro E; injection E as <- <- <-; split; [repeat split; reflexivity|]; unfold nameless; auto].
    destruct (negb (str_eq _ _)); [exact Ag|]. intro E. injection E as <- <- <-. split; [repeat split; reflexivity|exact I].
  - intro E. apply create_safe in E as [E1 E2]. split; [exact E1|]. destruct r; auto; contradiction.
Qed.

Lemma blockwise_rest fuel w k req have size1 size2 n w' k' r : con_blockwise exch fuel w k req have size1 size2 n = (w', k', r) -> same_rest k k'.
Proof.
  unfold con_blockwise. destruct (_ <? n); [intro X; injection X as <- <- <-; split; reflexivity|]. destruct (exchange_blockwise _ _ _ _ _ _ _ _) as [[w1 buf] r1]. destruct r1 as [[num resp]| | |]; intro E; injection E as <- <- <-; split; reflexivity.
Qed.
Lemma exchange_rest fuel w k req w' k' r : connection_coap_exchange exch fuel w k req = (w', k', r) -> same_rest k k'.
Proof.
  assert (Same : forall w1 r1, (w1, k, r1) = (w', k', r) -> same_rest k k') by (intros w1 r1 E; injection E as <- <- <-; split; reflexivity).
  unfold connection_coap_exchange, con_put. destruct (_ =? M_GET); [|destruct (_ || _); [destruct (0 <? k_end k)|]].
  - destruct (w_exch exch w req) as [w1 r1]. destruct r1 as [resp| | |]; try apply Same. destruct (parse_block_op _ _) as [[b|]| | |]; try apply Same. apply blockwise_rest.
  - apply blockwise_rest.
  - destruct (w_exch exch w req) as [w1 r1]. destruct r1 as [resp| | |]; try apply Same. destruct (_ && _); [|apply Same]. destruct (put _ _ _); try apply Same.
    intro E. apply blockwise_rest in E as [E1 E2]. split; [exact E1|exact E2].
  - apply Same.
Qed.

Lemma error_resp h code : http_error code -> body_of h = [] -> error_answer (gen_error_resp h code).
Proof.
  intros Hc Hb. exists code. split; [|split; [exact Hc|exact Hb]]. unfold http_error in Hc. assert (D : decimal (dec_text code) code) by (apply dec_of_decimal, dec_text_of; unfold two64; lia). apply D.
Qed.
Lemma error_small code : http_error code -> small (gen_error_resp no_resp code).
Proof. intro Hc. apply small_ok; [apply error_start; unfold http_error, two64 in *; lia|constructor|unfold lenN; cbn; unfold two32; lia|reflexivity]. Qed.

Lemma process_spec sg p fuel w k h w' k' r a b c : hm_start h = (a, b, c) -> bytes_ok b -> lenN b < two32 - 1 -> k_body k = no_body -> k_end k = 0 -> 512 < N.of_nat fuel ->
  connected (snd w) = k_client k ->
  connection_process copen cclose exch sg p fuel w k h = (w', k', r) ->
  same_rest k k' /\
  match r with
  | Ok resp => small resp /\ (a = s_GET -> lenN (body_of h) <= 1024 ->
      error_answer resp \/ exists new, sends (snd w') = sends (snd w) ++ new /\ body_from h (body_of resp) new) /\
      (a <> s_GET -> error_answer resp \/ exists new, sends (snd w') = sends (snd w) ++ new /\ body_from h (body_of resp) new)
  | Err e => (exists m, cross_req_http_to_coap sg (p_x p) h no_body 0 = COk m) /\
      (uri_parse sg (p_uri p) b = Err e \/ exists u, uri_parse sg (p_uri p) b = Ok u /\ no_client p u e)
  | UB x => x = NullDeref /\ exists u, uri_parse sg (p_uri p) b = Ok u /\ nameless u
  | OutOfFuel => False
  end.
Proof.
  intros Es Hb Lb Kb Ke Hf Hcon E. unfold connection_process in E. rewrite Es, Kb, Ke in E.
  destruct (req_faithful sg (p_x p) h no_body 0 a b c Es Hb Lb) as [R1 R2].
  destruct (cross_req_http_to_coap sg (p_x p) h no_body 0) as [[[req body'] bend']|code e|u|] eqn:Ec; try contradiction.
  2:{ injection E as <- <- <-. split; [split; reflexivity|]. cbn [cres_safe] in R1. split; [apply error_small; exact R1|]. split; intros; left; apply error_resp; try exact R1; reflexivity. }
  destruct (R2 _ _ _ eq_refl) as (_ & _ & Hmc & _). clear R1 R2. destruct (cross_req_fresh _ _ _ _ _ _ _ _ Ec) as ((d & Hr & Hd4) & Hbody). assert (Ed : m_detail req = d) by apply Hr.
  assert (B1 : bend' <= lenN body' /\ lenN body' = 8192 /\ lenN (m_payload req) <= 1024 /\ (lenN (body_of h) <= 1024 -> bend' = 0)).
  { destruct Hbody as [(H1 & H2 & -> & ->)|(H1 & H2 & H3 & H4)]; [rewrite no_body_len, H2; repeat split; lia|]. rewrite H4, lenN_app, lenN_skipn, H3, H2, no_body_len in *. change (lenN (@nil N)) with 0. lia. }
  destruct B1 as (B1 & B2 & B3 & B4).
  pose proof (parse_safe sg (p_uri p) b Hb ltac:(unfold two32, two64 in *; lia)) as Ps.
  destruct (uri_parse sg (p_uri p) b) as [u|e|ub|]; cbn [safe] in Ps; try contradiction.
  2:{ injection E as <- <- <-. split; [split; reflexivity|]. split; [eauto|left; reflexivity]. }
  destruct (choose_client copen cclose p w (with_body k body' bend') u) as [[w1 k1] rc] eqn:Ech. pose proof Ech as Ech'. apply choose_safe in Ech as ((C1 & C2 & C3 & C4) & C5).
  apply choose_log in Ech' as (l1 & L1 & L2 & _); [|exact Hcon]. cbn [with_body k_body k_end k_recv k_send] in *.
  destruct rc as [[]|e|ub|]; try contradiction.
  2:{ injection E as <- <- <-. split; [split; assumption|]. split; [eauto|]. right. exists u. auto. }
  2:{ injection E as <- <- <-. split; [split; assumption|]. destruct C5 as [-> C5]. split; [reflexivity|]. exists u. auto. }
  destruct (connection_coap_exchange exch fuel w1 k1 req) as [[w2 k2] r2] eqn:Ee.
  pose proof (exchange_rest _ _ _ _ _ _ _ Ee) as [Q1 Q2]. assert (Rest : same_rest k k2) by (split; congruence).
  pose proof (exchange_safe fuel w1 k1 req d (m_payload req) w2 k2 r2 Hr ltac:(lia) B3 ltac:(rewrite C1, C2; exact B1) ltac:(rewrite C1; exact B2) Hf Ee) as [S1 S2].
  destruct r2 as [resp|e|ub|]; try contradiction.
  2:{ assert (F : forall code, http_error code -> (w2, k2, Ok (gen_error_resp no_resp code)) = (w', k', r) -> same_rest k k' /\
       match r with
  | Ok resp => small resp /\ (a = s_GET -> lenN (body_of h) <= 1024 ->
      error_answer resp \/ exists new, sends (snd w') = sends (snd w) ++ new /\ body_from h (body_of resp) new) /\
      (a <> s_GET -> error_answer resp \/ exists new, sends (snd w') = sends (snd w) ++ new /\ body_from h (body_of resp) new)
  | Err e => (exists m, COk (req, body', bend') = COk m) /\ (Ok u = Err e \/ exists u0, Ok u = Ok u0 /\ no_client p u0 e)
  | UB x => x = NullDeref /\ exists u0, Ok u = Ok u0 /\ nameless u0
  | OutOfFuel => False
  end).
    { intros code Hc X. injection X as <- <- <-. split; [exact Rest|]. split; [apply error_small; exact Hc|]. split; intros; left; apply error_resp; try exact Hc; reflexivity. }
    destruct e; (eapply F; [|exact E]); unfold http_error; lia. }
  cbn [ends_ok] in S2. destruct S2 as [S2 S3].
  destruct (resp_good resp (k_body k2) (k_end k2) S2 S3 S1) as (hr & rr & Er & Hrr). rewrite Er in E.
  destruct rr as [[code e]|]; injection E as <- <- <-; (split; [exact Rest|]).
  { destruct Hrr as (-> & H1 & H2). split; [exact H1|]. split; intros; left; apply error_resp; unfold http_error; try lia; exact H2. }
  destruct Hrr as [H1 H2]. split; [exact H1|].
  assert (Body : d <> 4 -> (d = 1 -> bend' = 0) -> exists new, sends (snd w2) = sends (snd w) ++ new /\ body_from h (body_of hr) new).
  { intros Hd1 Hd2. assert (Ee' := Ee). eapply (exchange_body copen exch (resp_oks)) in Ee as (hs & m & P1 & P2 & P3); [|exact Hr|lia|rewrite C1, C2; exact B1|rewrite C1; exact B2|exact B3|rewrite C2; exact Hd2].
    exists (hs ++ [(m, Ok resp)]). split; [apply performed_log in P1; rewrite P1, L1, !sends_app, L2, sends_sends, app_nil_r; reflexivity|].
    destruct H2 as [[H2 H3]|[H2 H3]].
    - destruct P3 as [P3|(size & rs0 & rs & P4 & P5 & P6 & P7)]; [lia|]. right. exists hs, m, resp, size, rs0, rs. split; [reflexivity|]. split; [exact P4|]. split; [exact P5|]. split; [exact P6|]. rewrite H3. exact P7.
    - left. exists hs, m, resp. split; [reflexivity|]. split; [exact H3|]. rewrite Es. cbn [fst].
      destruct (exchange_whole copen exch (resp_oks) fuel w1 k1 req d (m_payload req) w2 k2 resp Hr ltac:(lia) ltac:(rewrite C1, C2; exact B1) ltac:(rewrite C1; exact B2) Ee' H2) as [W1 W2].
      split; [intro Ha; apply W1; rewrite Ed, Ha in Hmc; destruct Hmc as [[_ Y]|[[Y _]|[[Y _]|[Y _]]]]; try discriminate; lia|].
      intros Ha Hlen. apply W2; [intro X; apply Ha; rewrite Ed, X in Hmc; destruct Hmc as [[-> _]|[[_ Y]|[[_ Y]|[_ Y]]]]; try discriminate; reflexivity|]. rewrite C2. destruct Hbody as [(Y & _)|(Y & _ & -> & _)]; lia. }
  assert (Hget : d = 1 -> a = s_GET) by (intro X; rewrite Ed, X in Hmc; destruct Hmc as [[-> _]|[[_ Y]|[[_ Y]|[_ Y]]]]; try discriminate; reflexivity).
  split.
  - intros Ha Hl. right. apply Body.
    + intro X. rewrite Ed, X, Ha in Hmc. destruct Hmc as [[_ Y]|[[Y _]|[[Y _]|[Y _]]]]; discriminate.
    + intros _. exact (B4 Hl).
  - intro Ha. destruct (N.eq_dec d 4) as [X|X]; [|right; apply Body; [exact X|intro Y; destruct (Ha (Hget Y))]]. exfalso.
    unfold connection_coap_exchange in Ee. rewrite Ed, X in Ee. change (4 =? M_GET) with false in Ee. change ((4 =? M_PUT) || (4 =? M_POST)) with false in Ee. cbv iota in Ee.
    injection Ee as <- <- <-. revert Er. unfold cross_resp_coap_to_http. change (cross_status msg_create) with (Err EBADMSG : res (list N * list N * list N)). discriminate.
Qed.

Lemma process_uploads sg p fuel w k h w' k' resp req body' bend' : k_body k = no_body -> k_end k = 0 -> connected (snd w) = k_client k ->
  connection_process copen cclose exch sg p fuel w k h = (w', k', Ok resp) ->
  cross_req_http_to_coap sg (p_x p) h no_body 0 = COk (req, body', bend') -> m_detail req = 2 \/ m_detail req = 3 ->
  error_answer resp \/ exists new, sends (snd w') = sends (snd w) ++ new /\ (1024 < lenN (body_of h) -> uploads req (body_of h) new) /\
    (lenN (body_of h) <= 1024 -> body_of h <> [] -> forall m r0 new', new = (m, Ok r0) :: new' -> m_class r0 = 4 -> m_detail r0 = 13 -> uploads req (body_of h) new').
Proof.
  intros Kb Ke Hcon E Ec Hd. unfold connection_process in E. destruct (hm_start h) as [[a b] c]. rewrite Kb, Ke, Ec in E.
  destruct (cross_req_fresh _ _ _ _ _ _ _ _ Ec) as ((d & Hr & _) & Hbody). assert (Ed : m_detail req = d) by apply Hr.
  destruct (uri_parse sg (p_uri p) b) as [u|e|ub|]; try discriminate.
  destruct (choose_client copen cclose p w (with_body k body' bend') u) as [[w1 k1] rc] eqn:Ech. pose proof Ech as Ech'. apply choose_safe in Ech as ((C1 & C2 & _) & _).
  apply choose_log in Ech' as (l1 & L1 & L2 & _); [|exact Hcon]. cbn [with_body k_body k_end] in *. destruct rc as [[]|e|ub|]; try discriminate.
  destruct (connection_coap_exchange exch fuel w1 k1 req) as [[w2 k2] r2] eqn:Ee. destruct r2 as [resp1|e|ub|]; try discriminate.
  2:{ left. destruct e; injection E as <- <- <-; apply error_resp; try reflexivity; unfold http_error; lia. }
  assert (w2 = w') as ->.
  { destruct (cross_resp_coap_to_http _ _ _) as [[hr [[code e]|]]| | |]; try discriminate; injection E as <- <- <-; reflexivity. }
  assert (B : bend' <= lenN body' /\ lenN body' = 8192 /\ lenN (m_payload req) <= 1024).
  { destruct Hbody as [(H1 & H2 & -> & ->)|(H1 & H2 & H3 & H4)]; [rewrite no_body_len, H2; repeat split; lia|]. rewrite H4, lenN_app, lenN_skipn, H3, H2, no_body_len in *. change (lenN (@nil N)) with 0. lia. }
  destruct B as (B1 & B2 & B3).
  destruct (exchange_uploads copen exch resp_oks fuel w1 k1 req d (m_payload req) w' k2 resp1 Hr ltac:(lia) ltac:(rewrite C1, C2; exact B1) ltac:(rewrite C1; exact B2) B3 Ee) as (new & P & U1 & U2).
  right. exists new. split; [apply performed_log in P; rewrite P, L1, !sends_app, L2, sends_sends, app_nil_r; reflexivity|]. rewrite C1, C2 in *.
  destruct Hbody as [(H1 & H2 & -> & ->)|(H1 & H2 & H3 & H4)].
  - split; [lia|]. intros _ Hn. rewrite <- H2 in *. exact (U2 eq_refl Hn).
  - split; [|lia]. intros _. assert (F : firstn (N.to_nat bend') body' = body_of h).
    { rewrite H4, firstn_app, H3. replace (N.to_nat (lenN (body_of h)) - length (body_of h))%nat with 0%nat by (unfold lenN; lia). cbn [firstn]. rewrite app_nil_r. apply firstn_all2. unfold lenN. lia. }
    rewrite F in U1. apply U1. lia.
Qed.

(** ** The thread *)

Definition healthy (w : St * list cobs) (x : hside) : Prop :=
  let '(evs, wire, k) := x in
  exists q size, holds (k_recv k) q size 32768 /\ sizes size /\ tame (q ++ wire) /\ bytes_ok (q ++ wire) /\ buffer (k_send k) [] /\ connected (snd w) = k_client k.

Lemma pow_fuel size fuel : sizes size -> 32768 < N.of_nat fuel -> 32768 < size * 2 ^ N.of_nat fuel.
Proof.
  intros Hs Hf. assert (16 <= 2 ^ N.of_nat fuel) by (change 16 with (2 ^ 4); apply N.pow_le_mono_r; lia). unfold sizes in Hs. nia.
Qed.

Lemma turn_safe sg fuel t w x w' x' r : 32768 < N.of_nat fuel -> healthy w x -> connection_exchange copen cclose exch sg fuel t w x = (w', x', r) ->
  healthy w' x' /\ r <> KFuel /\ forall u, r = KUB u -> u = NullDeref /\ let '(evs, wire, k) := x in
    exists evs1 wire1 b1 h, connection_recv fuel evs wire (k_recv k) = (evs1, wire1, b1, KOk h) /\ nameless_request sg h.
Proof.
  intros Hf Hx E. destruct x as [[evs wire] k]. destruct Hx as (q & size & Hq & Hsz & Ht & Hb & Hs & Hcon).
  assert (Hcon' : connected (snd w') = k_client (snd x')) by (apply exchange_log in E as [E _]; [exact E|exact Hcon]).
  unfold connection_exchange in E. change (repeat 0 (N.to_nat CONNECTION_BODY_LEN)) with no_body in E. cbn [with_body k_recv k_client k_body k_end k_send] in E.
  destruct (recv_safe fuel Hf evs wire (k_recv k) q size Hq Hsz Ht Hb) as (evs1 & wire1 & b1 & r1 & q1 & size1 & pre & Er & Hq1 & Hsz1 & Eq & U1 & U2 & U3).
  rewrite Er in E. assert (Ht1 : tame (q1 ++ wire1)) by (rewrite Eq in Ht; rewrite <- (app_nil_r (q1 ++ wire1)) in Ht; exact (tame_part _ _ _ Ht)).
  assert (Hb1 : bytes_ok (q1 ++ wire1)) by (rewrite Eq in Hb; apply bytes_ok_app in Hb; tauto).
  destruct r1 as [h| | |e|u| |]; try (injection E as <- <- <-; split; [exists q1, size1; repeat (split; [assumption|]); exact Hcon'|]; split; [discriminate|discriminate]).
  2:{ destruct (U1 u eq_refl). }
  2:{ congruence. }
  specialize (U3 h eq_refl). destruct (hm_start h) as [[a b] c] eqn:Es. destruct U3 as [U3 U4].
  destruct (connection_process _ _ _ _ _ _ _ _ _) as [[w2 k2] r2] eqn:Ep.
  destruct (process_spec sg (t_mem t) fuel w (mkcon (k_client k) no_body 0 b1 (k_send k)) h w2 k2 r2 a b c Es U3 ltac:(unfold two32; lia) eq_refl eq_refl ltac:(lia) Hcon Ep) as [[P1 P2] P3]. cbn [k_recv k_send] in P1, P2.
  assert (Hh : forall b2, buffer b2 [] -> connected (snd w') = k_client k2 -> w2 = w' -> healthy w' (evs1, wire1, mkcon (k_client k2) (k_body k2) (k_end k2) (k_recv k2) b2)).
  { intros b2 Hb2 Hc2 _. exists q1, size1. cbn [k_recv k_send k_client]. rewrite P1. auto 10. }
  destruct r2 as [resp|e|u|].
  - destruct P3 as [[N1 N2] _].
    destruct (send_spec resp (t_write t) (t_send t) N1 N2 fuel (k_send k2)) as (b2 & r3 & S1 & S2 & S3 & S4).
    { rewrite P2. exact Hs. }
    { rewrite P2. apply pow_fuel; [apply Hs|exact Hf]. }
    rewrite S1 in E. injection E as <- <- <-. split; [apply Hh; [exact S2|exact Hcon'|reflexivity]|].
    destruct S4 as [[_ ->]|[[_ ->]|(_ & _ & ->)]]; [destruct (t_write t)|..]; (split; [discriminate|intros u X; discriminate X]).
  - injection E as <- <- <-. split; [|split; discriminate]. exists q1, size1. rewrite P1, P2. auto 10.
  - injection E as <- <- <-. split; [|split; [discriminate|]]. { exists q1, size1. rewrite P1, P2. auto 10. } intros u0 X. injection X as <-. destruct P3 as (P3 & u0 & P4 & P5). split; [exact P3|].
    exists evs1, wire1, b1, h. split; [exact Er|]. unfold nameless_request. rewrite Es. exists (p_uri (t_mem t)), u0. auto.
  - contradiction.
Qed.

Lemma thread_safe sg fuel ts : 32768 < N.of_nat fuel -> forall w x w' x' ds r, healthy w x -> connection_thread copen cclose exch sg fuel ts w x = (w', x', ds, r) ->
  r <> KFuel /\ forall u, r = KUB u -> u = NullDeref.
Proof.
  intro Hf. induction ts as [|t ts IH]; intros w x w' x' ds r Hx E; cbn [connection_thread] in E.
  - injection E as <- <- <- <-. split; discriminate.
  - destruct (connection_exchange _ _ _ _ _ _ _ _) as [[w1 x1] r1] eqn:Ex. destruct (turn_safe _ _ _ _ _ _ _ _ Hf Hx Ex) as (H1 & H2 & H3).
    destruct r1 as [d| | |e|u| |]; try (injection E as <- <- <- <-; split; discriminate).
    + destruct (connection_thread _ _ _ _ _ ts w1 x1) as [[[w2 x2] ds2] r2] eqn:Et. injection E as <- <- <- <-. exact (IH _ _ _ _ _ _ H1 Et).
    + injection E as <- <- <- <-. split; [discriminate|]. intros u0 X. injection X as <-. apply (H3 _ eq_refl).
    + congruence.
Qed.

Lemma new_healthy k s evs wire : connection_new = Ok k -> tame wire -> bytes_ok wire -> healthy (s, []) (evs, wire, k).
Proof.
  intros E Ht Hb. unfold connection_new in E. destruct (create_holds 4096 32768 ltac:(lia) max_small) as (b & Eb & Hh).
  unfold CONNECTION_DATA_BUF_SIZE, CONNECTION_DATA_BUF_MAX_SIZE in E. rewrite Eb in E. cbn [bind] in E. injection E as <-.
  exists [], 4096. cbn [k_recv k_send k_client]. split; [exact Hh|]. split; [left; reflexivity|]. split; [exact Ht|]. split; [exact Hb|]. split; [|reflexivity].
  apply (holds_buffer _ _ _ Hh); [unfold lenN; cbn; lia|auto].
Qed.

(** Every request is answered. *)
Lemma answered sg fuel t w evs wire k evs1 wire1 b1 h a b c w' x' r :
  connection_recv fuel evs wire (k_recv k) = (evs1, wire1, b1, KOk h) -> hm_start h = (a, b, c) -> bytes_ok b -> lenN b < two32 - 1 -> 512 < N.of_nat fuel ->
  connected (snd w) = k_client k -> buffer (k_send k) [] ->
  t_mem t = mkpmem x_all mem_all true true -> t_write t = WAll -> (forall n, t_send t n = true) -> (forall s h pt, exists x, snd (copen s h pt) = Ok x) ->
  (forall u, uri_parse sg mem_all b = Ok u -> u_host u <> None /\ u_port u <> None) ->
  connection_exchange copen cclose exch sg fuel t w (evs, wire, k) = (w', x', r) ->
  exists resp, (lenN (http_text resp) <= 32768 -> exists bytes, r = KOk (h, resp, bytes)) /\ (32768 < lenN (http_text resp) -> r = KErr EINVAL).
Proof.
  intros Er Es Hb Lb Hf Hcon Hs Tm Tw Ts Ho Hu E. unfold connection_exchange in E. change (repeat 0 (N.to_nat CONNECTION_BODY_LEN)) with no_body in E. cbn [with_body k_recv k_client k_body k_end k_send] in E.
  rewrite Er in E. destruct (connection_process _ _ _ _ _ _ _ _ _) as [[w2 k2] r2] eqn:Ep.
  destruct (process_spec sg (t_mem t) fuel w (mkcon (k_client k) no_body 0 b1 (k_send k)) h w2 k2 r2 a b c Es Hb Lb eq_refl eq_refl Hf Hcon Ep) as [[P1 P2] P3]. cbn [k_recv k_send] in P1, P2.
  assert (Hun : forall u, uri_parse sg (p_uri (t_mem t)) b = Ok u -> ~ nameless u) by (rewrite Tm; intros u X [Y|Y]; destruct (Hu u X); contradiction).
  destruct r2 as [resp|e|u|]; [|exfalso..].
  - destruct P3 as [[N1 N2] _]. exists resp.
    destruct (send_spec resp (t_write t) (t_send t) N1 N2 fuel (k_send k2)) as (b2 & r3 & S1 & S2 & S3 & S4).
    { rewrite P2. exact Hs. }
    { rewrite P2. assert (16 <= 2 ^ N.of_nat fuel) by (change 16 with (2 ^ 4); apply N.pow_le_mono_r; lia). assert (Hz : sizes (d_size (k_send k))) by apply Hs. unfold sizes in Hz. nia. }
    rewrite S1 in E. injection E as <- <- <-. assert (Hz : d_size b2 <= 32768) by (assert (Hz : sizes (d_size b2)) by apply S2; unfold sizes in Hz; lia). rewrite Tw in S4.
    destruct S4 as [[S4 ->]|[[S4 ->]|(S4 & S5 & ->)]]; [split; [intros _; eexists; reflexivity|lia]|split; [lia|reflexivity]|]. rewrite Ts in S5. discriminate.
  - destruct P3 as [[m Hm] P3]. rewrite Tm in *. cbn [p_uri p_x] in *. destruct m as [[req body'] bend'].
    destruct (req_faithful sg x_all h no_body 0 a b c Es Hb Lb) as [_ R2]. destruct (R2 _ _ _ Hm) as (_ & _ & _ & _ & (u & Eu & _) & _). change (x_uri x_all) with mem_all in Eu.
    destruct P3 as [P3|(u0 & P3 & [P4|[P4|[P4|(s & h0 & pt & P4)]]])]; [congruence|apply (Hun _ P3 P4)|discriminate|discriminate|]. destruct (Ho s h0 pt) as [x Hx]. congruence.
  - destruct P3 as (_ & u0 & P3 & P4). exact (Hun _ P3 P4).
  - exact P3.
Qed.

Lemma thread_healthy sg fuel ts : 32768 < N.of_nat fuel -> forall w x w' x' ds r, healthy w x -> connection_thread copen cclose exch sg fuel ts w x = (w', x', ds, r) -> healthy w' x'.
Proof.
  intro Hf. induction ts as [|t ts IH]; intros w x w' x' ds r Hx E; cbn [connection_thread] in E; [injection E as <- <- <- <-; exact Hx|].
  destruct (connection_exchange _ _ _ _ _ _ _ _) as [[w1 x1] r1] eqn:Ex. destruct (turn_safe _ _ _ _ _ _ _ _ Hf Hx Ex) as (H1 & H2 & H3).
  destruct r1 as [d| | |e|u| |]; try (injection E as <- <- <- <-; exact H1).
  destruct (connection_thread _ _ _ _ _ ts w1 x1) as [[[w2 x2] ds2] r2] eqn:Et. injection E as <- <- <- <-. exact (IH _ _ _ _ _ _ H1 Et).
Qed.

Lemma healthy_answered sg fuel t w evs wire k evs1 wire1 b1 h a b c w' x' r : 32768 < N.of_nat fuel -> healthy w (evs, wire, k) ->
  connection_recv fuel evs wire (k_recv k) = (evs1, wire1, b1, KOk h) -> hm_start h = (a, b, c) ->
  t_mem t = mkpmem x_all mem_all true true -> t_write t = WAll -> (forall n, t_send t n = true) -> (forall s h pt, exists x, snd (copen s h pt) = Ok x) ->
  (forall u, uri_parse sg mem_all b = Ok u -> u_host u <> None /\ u_port u <> None) ->
  connection_exchange copen cclose exch sg fuel t w (evs, wire, k) = (w', x', r) ->
  exists resp, (lenN (http_text resp) <= 32768 -> exists bytes, r = KOk (h, resp, bytes)) /\ (32768 < lenN (http_text resp) -> r = KErr EINVAL).
Proof.
  intros Hf (q & size & Hq & Hsz & Ht & Hb & Hs & Hcon) Er Es.
  destruct (recv_safe fuel Hf evs wire (k_recv k) q size Hq Hsz Ht Hb) as (? & ? & ? & ? & ? & ? & ? & Er' & _ & _ & _ & _ & _ & U3). rewrite Er in Er'. injection Er' as <- <- <- <-.
  specialize (U3 h eq_refl). rewrite Es in U3. destruct U3 as [U3 U4].
  apply (answered sg fuel t w evs wire k evs1 wire1 b1 h a b c w' x' r Er Es U3); try assumption; [unfold two32; lia|lia].
Qed.

Lemma healthy_body sg fuel t w x w' x' h resp bytes a b c : 32768 < N.of_nat fuel -> healthy w x ->
  connection_exchange copen cclose exch sg fuel t w x = (w', x', KOk (h, resp, bytes)) -> hm_start h = (a, b, c) -> (a = s_GET -> lenN (body_of h) <= 1024) ->
  error_answer resp \/ exists new, sends (snd w') = sends (snd w) ++ new /\ body_from h (body_of resp) new.
Proof.
  intros Hf Hx E Es Hg. destruct x as [[evs wire] k]. destruct Hx as (q & size & Hq & Hsz & Ht & Hb & Hs & Hcon).
  destruct (recv_safe fuel Hf evs wire (k_recv k) q size Hq Hsz Ht Hb) as (evs1 & wire1 & b1 & r1 & q1 & size1 & pre & Er & Hq1 & Hsz1 & Eq & U1 & U2 & U3).
  unfold connection_exchange in E. change (repeat 0 (N.to_nat CONNECTION_BODY_LEN)) with no_body in E. cbn [with_body k_recv k_client k_body k_end k_send] in E. rewrite Er in E.
  destruct r1 as [h0| | |e|u| |]; try discriminate. specialize (U3 h0 eq_refl).
  destruct (connection_process _ _ _ _ _ _ _ _ _) as [[w2 k2] r2] eqn:Ep. destruct r2 as [resp0|e|u|]; try (cbn in E; discriminate).
  destruct (connection_send _ _ _ _ _) as [b2 r3]. destruct r3 as [bytes0| | | | | |]; try discriminate. injection E as <- <- -> -> ->.
  rewrite Es in U3. destruct U3 as [U3 U4].
  destruct (process_spec sg (t_mem t) fuel w (mkcon (k_client k) no_body 0 b1 (k_send k)) h w2 k2 (Ok resp) a b c Es U3 ltac:(unfold two32; lia) eq_refl eq_refl ltac:(lia) Hcon Ep) as [_ (_ & P1 & P2)].
  destruct (list_eq_dec N.eq_dec a s_GET) as [->|Ha]; [apply P1; auto|apply P2; exact Ha].
Qed.

Lemma healthy_uploads sg fuel t w x w' x' h resp bytes req body' bend' : healthy w x ->
  connection_exchange copen cclose exch sg fuel t w x = (w', x', KOk (h, resp, bytes)) ->
  cross_req_http_to_coap sg (p_x (t_mem t)) h no_body 0 = COk (req, body', bend') -> m_detail req = 2 \/ m_detail req = 3 ->
  error_answer resp \/ exists new, sends (snd w') = sends (snd w) ++ new /\ (1024 < lenN (body_of h) -> uploads req (body_of h) new) /\
    (lenN (body_of h) <= 1024 -> body_of h <> [] -> forall m r0 new', new = (m, Ok r0) :: new' -> m_class r0 = 4 -> m_detail r0 = 13 -> uploads req (body_of h) new').
Proof.
  intros Hx E Ec Hd. destruct x as [[evs wire] k]. destruct Hx as (q & size & Hq & Hsz & Ht & Hb & Hs & Hcon).
  unfold connection_exchange in E. change (repeat 0 (N.to_nat CONNECTION_BODY_LEN)) with no_body in E. cbn [with_body k_recv k_client k_body k_end k_send] in E.
  destruct (connection_recv _ _ _ _) as [[[evs1 wire1] b1] r1]. destruct r1 as [h0| | |e|u| |]; try discriminate.
  destruct (connection_process _ _ _ _ _ _ _ _ _) as [[w2 k2] r2] eqn:Ep. destruct r2 as [resp0|e|u|]; try (cbn in E; discriminate).
  destruct (connection_send _ _ _ _ _) as [b2 r3]. destruct r3 as [bytes0| | | | | |]; try discriminate. injection E as <- <- -> -> ->.
  exact (process_uploads sg (t_mem t) fuel w (mkcon (k_client k) no_body 0 b1 (k_send k)) h w2 k2 resp req body' bend' eq_refl eq_refl Hcon Ep Ec Hd).
Qed.
End Servers.
