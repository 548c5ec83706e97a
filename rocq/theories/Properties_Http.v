(** Property theorems for HTTP messages (C49 to C51, C66 to C68, C87, C88). *)
From Verif Require Import Base BaseLemmas BufModel UriModel UriSpec UriLemmas HttpModel HttpSpec HttpLemmas HttpSafeLemmas HttpChunkLemmas HttpHeadLemmas.

(** C49, full statement: http_msg_parse terminates on every input.  False: a chunk of size -6 ends
    where it begins.  On a message of 41 bytes the loop over the chunks makes 357913941 rounds without an
    end; the total of the sizes then leaves the range of int, after which the C
    language promises nothing. *)
Theorem C49_refuted :
  exists buf, lenN buf = 41 /\
    (forall fuel, N.of_nat fuel <= 357913941 -> http_msg_parse fuel buf = OutOfFuel) /\
    (forall fuel, http_msg_parse fuel buf = OutOfFuel \/ http_msg_parse fuel buf = UB BadArith).
Proof.
  exists loop_msg. split; [reflexivity|]. split; [intro fuel; apply loop_never|]. intro fuel.
  destruct (N.le_gt_cases (N.of_nat fuel) 357913941); [left|right]; apply loop_never; assumption.
Qed.
Print Assumptions C49_refuted.
Example C49_message :
  loop_msg = [97; 32; 98; 32; 99; 13; 10] ++
    [84; 114; 97; 110; 115; 102; 101; 114; 45; 69; 110; 99; 111; 100; 105; 110; 103; 58; 32; 99; 104; 117; 110; 107; 101; 100; 13; 10] ++
    [13; 10; 45; 54; 13; 10].
Proof. reflexivity. Qed.

(** C49, proved: it terminates on a message in which the word "chunked" does not occur, in as many
    rounds as one likes to allow; *)
Theorem C49_plain_partial : forall fuel buf, never_chunked buf -> http_msg_parse fuel buf <> OutOfFuel.
Proof. intros fuel buf H E. pose proof (parse_plain_safe fuel buf H) as S. rewrite E in S. exact S. Qed.
Print Assumptions C49_plain_partial.

(** and on a message of less than 2^30 bytes in which no line after a blank line begins with
    what reads as a negative size or one of eight digits or more.  It makes no more rounds than there are bytes. *)
Theorem C49_calm_partial :
  forall fuel buf, calm_body buf -> lenN buf < 1073741824 -> (length buf < fuel)%nat -> http_msg_parse fuel buf <> OutOfFuel.
Proof. intros fuel buf H H1 H2 E. pose proof (parse_calm_safe fuel buf H H1 H2) as S. rewrite E in S. exact S. Qed.
Print Assumptions C49_calm_partial.

(** A message with the chunk "abc" of size "3;x=y", a truncated one, and one that is not chunked. *)
Definition chunked1 : list N :=
  [97; 32; 98; 32; 99] ++ crlf ++ te_header ++ crlf ++ [51; 59; 120; 61; 121] ++ crlf ++ [97; 98; 99] ++ crlf ++ [48] ++ crlf ++ [116; 58; 117] ++ crlf ++ crlf.
Definition plain1 : list N :=
  [97; 32; 98; 32; 99] ++ crlf ++ content_length ++ [58; 32; 50] ++ crlf ++ crlf ++ [120; 121; 122].
Example C49_example :
  calm_body chunked1 /\ never_chunked plain1 /\
  http_msg_parse 2 chunked1 = Ok (mkhmsg ([97], [98], [99]) [(transfer_encoding, chunked); ([116], [117])] (Some [97; 98; 99]), lenZ chunked1) /\
  http_msg_parse 2 (firstn 45 chunked1) = Err EAGAIN /\
  http_msg_parse 0 plain1 = Ok (mkhmsg ([97], [98], [99]) [(content_length, [50])] (Some [120; 121]), (lenZ plain1 - 1)%Z).
Proof. split; [apply calm_bodyb_ok; vm_compute; reflexivity|]. split; [apply never_chunkedb_ok; vm_compute; reflexivity|]. vm_compute. auto. Qed.

(** C66, full statement: http_msg_parse has no undefined behaviour, whatever the input.  False: after
    the chunks "-2" and "1" the total is -1, and the body ends in front of the block; and with sizes -2 and 2
    memcpy is called with the size -2. *)
Definition chunk_message (body : list N) : list N := [97; 32; 98; 32; 99] ++ crlf ++ te_header ++ crlf ++ body.
Theorem C66_refuted :
  (exists buf, bytes_ok buf /\ http_msg_parse 10 buf = UB OobWrite /\
     buf = chunk_message [45; 50; 13; 10; 49; 13; 10; 120; 13; 10; 48; 13; 10; 13; 10]) /\
  (exists buf, bytes_ok buf /\ http_msg_parse 10 buf = UB OobWrite /\
     buf = chunk_message [45; 50; 13; 10; 50; 13; 10; 97; 98; 13; 10; 48; 13; 10; 13; 10]).
Proof. split; eexists; (split; [|split; [|reflexivity]]); [apply bytes_okb_spec; vm_compute; reflexivity|vm_compute; reflexivity|apply bytes_okb_spec; vm_compute; reflexivity|vm_compute; reflexivity]. Qed.
Print Assumptions C66_refuted.

(** C66, proved for the messages of C49. *)
Theorem C66_plain_partial : forall fuel buf u, never_chunked buf -> http_msg_parse fuel buf <> UB u.
Proof. intros fuel buf u H E. pose proof (parse_plain_safe fuel buf H) as S. rewrite E in S. exact S. Qed.
Print Assumptions C66_plain_partial.
Theorem C66_calm_partial :
  forall fuel buf u, calm_body buf -> lenN buf < 1073741824 -> (length buf < fuel)%nat -> http_msg_parse fuel buf <> UB u.
Proof. intros fuel buf u H H1 H2 E. pose proof (parse_calm_safe fuel buf H H1 H2) as S. rewrite E in S. exact S. Qed.
Print Assumptions C66_calm_partial.
Example C66_example :
  calm_body (chunk_message [51; 13; 10; 97; 98]) /\ http_msg_parse 60 (chunk_message [51; 13; 10; 97; 98]) = Err EAGAIN /\
  http_msg_parse 60 (chunk_message [122; 13; 10; 97; 98]) = Err EBADMSG.
Proof. split; [apply calm_bodyb_ok; vm_compute; reflexivity|]. vm_compute. auto. Qed.

(** C50, full statement: a message with a Content-Length body that http_msg_generate writes
    completely is read back as the same message, and consumed entirely.  False: the body may have a NUL,
    at which the parser takes the text to end. *)
Definition nul_message : hmsg := mkhmsg ([97], [98], [99]) [(content_length, [49])] (Some [0]).
Lemma one_word w : w <> [] -> existsb (fun c => (c =? 0) || ((9 <=? c) && (c <=? 13)) || (c =? 32)) w = false -> words w.
Proof.
  intros Hw H. apply words_one; [exact Hw|]. intros c Hc. assert (X : (c =? 0) || ((9 <=? c) && (c <=? 13)) || (c =? 32) = false).
  { destruct ((c =? 0) || ((9 <=? c) && (c <=? 13)) || (c =? 32)) eqn:E; [|reflexivity]. rewrite <- H. symmetry. apply existsb_exists. eauto. }
  apply orb_false_elim in X. destruct X as [X X3]. apply orb_false_elim in X. destruct X as [X1 X2]. apply N.eqb_neq in X1, X3. apply andb_false_iff in X2.
  split; [exact X1|]. unfold blank. destruct X2 as [X2|X2]; apply N.leb_gt in X2; lia.
Qed.
Lemma content_message_ok b n : b <> [] -> words n -> decimal n (lenN b) -> message_ok (mkhmsg ([97], [98], [99]) [(content_length, n)] (Some b)).
Proof.
  intros Hb Hn Hd. split; [|split].
  - unfold start_ok. cbn. repeat split; try discriminate; try (intuition discriminate); intuition (subst; discriminate).
  - constructor; [|constructor]. unfold header_ok. cbn [fst snd]. split; [right; apply one_word; [discriminate|reflexivity]|]. split; [cbn; intuition discriminate|right; exact Hn].
  - split; [intros h [<-|[]] [X _]; vm_compute in X; discriminate|]. cbn [hm_body]. split; [exact Hb|]. exists [], (content_length, n), []. cbn. repeat split; try apply Hd. intros h' [].
Qed.
Theorem C50_refuted :
  exists m b n, message_ok m /\ http_msg_generate m (repeat 7 64) 64 = Ok (b, n) /\ n < 64 /\
    http_msg_parse 10 (firstn (N.to_nat n) b) = Err EAGAIN.
Proof.
  exists nul_message. eexists. eexists. split; [apply content_message_ok; [discriminate|apply one_word; [discriminate|reflexivity]|split; [discriminate|reflexivity]]|].
  split; [vm_compute; reflexivity|]. split; [reflexivity|]. vm_compute. reflexivity.
Qed.
Print Assumptions C50_refuted.

(** C50, proved for bodies without NUL shorter than 2^31.  More text may follow. *)
Theorem C50_parse_generate_partial :
  forall m fuel buf len b n, message_ok m -> (forall b, hm_body m = Some b -> ~ In 0 b /\ lenN b < 2147483648) ->
  len <= lenN buf -> lenN buf < two64 -> lenN (http_text m) < two64 ->
  http_msg_generate m buf len = Ok (b, n) -> n < len ->
  forall more, http_msg_parse fuel (firstn (N.to_nat n) b ++ more) = Ok (m, Z.of_N n).
Proof. exact generate_parse. Qed.
Print Assumptions C50_parse_generate_partial.
Definition message2 : hmsg := mkhmsg ([97], [98], [99]) [(content_length, [48; 50])] (Some [120; 13]).
Example C50_example :
  message_ok message2 /\ (forall b, hm_body message2 = Some b -> ~ In 0 b /\ lenN b < 2147483648) /\
  exists b, http_msg_generate message2 (repeat 7 64) 64 = Ok (b, 31) /\
    http_msg_parse 0 (firstn 31 b ++ [1; 2]) = Ok (message2, 31%Z).
Proof.
  split; [apply content_message_ok; [discriminate|apply one_word; [discriminate|reflexivity]|split; [discriminate|reflexivity]]|].
  split; [intros b X; injection X as <-; cbn; split; [intuition discriminate|reflexivity]|]. eexists. split; [vm_compute; reflexivity|]. vm_compute. reflexivity.
Qed.

(** C67, full statement: http_msg_generate writes to the first [len] bytes of the block only, and returns the length of
    the whole text; what is written is a prefix of it, ended by a NUL.  False for [len] = 0 and a
    message with a body: [len] - 1 wraps around, and memcpy is called with a size of almost 2^64. *)
Theorem C67_refuted : exists m, no_nul m /\ lenN (http_text m) = 31 /\ http_msg_generate m (repeat 7 64) 0 = UB OobRead.
Proof.
  exists message2. split; [|split; lazy; reflexivity].
  unfold no_nul, message2. cbn [hm_start hm_headers]. repeat split; try (intros [|[]]; discriminate); destruct H as [<-|[]]; vm_compute; intuition discriminate.
Qed.
Print Assumptions C67_refuted.

(** C67, proved for [len] > 0. *)
Theorem C67_generate_partial :
  forall m buf len, no_nul m -> 0 < len -> len <= lenN buf -> lenN buf < two64 -> lenN (http_text m) < two64 ->
  http_msg_generate m buf len = Ok (written len (http_text m) (skipn (N.to_nat len) buf), lenN (http_text m)).
Proof. exact http_generate_ok. Qed.
Print Assumptions C67_generate_partial.
Example C67_example :
  no_nul nul_message /\ http_text nul_message = [97; 32; 98; 32; 99; 13; 10] ++ content_length ++ [58; 32; 49; 13; 10; 13; 10; 0] /\
  http_msg_generate nul_message (repeat 7 12) 10 = Ok ([97; 32; 98; 32; 99; 13; 10; 67; 111; 0; 7; 7], 29).
Proof.
  split; [|split; vm_compute; reflexivity].
  unfold no_nul, nul_message. cbn [hm_start hm_headers]. repeat split; try (intros [|[]]; discriminate); destruct H as [<-|[]]; vm_compute; intuition discriminate.
Qed.

(** C51, full statement: http_msg_generate_chunk(out, out_len, in, in_len) never writes at or beyond
    out[out_len].  False: if the line with the size fills the block, out_len - 1 wraps around, and all
    the data are copied behind it. *)
Theorem C51_refuted :
  exists out len data, len = lenN out /\ 0 < len /\ http_msg_generate_chunk out len data = UB OobWrite.
Proof. exists [7; 7; 7], 3, [97; 98]. vm_compute. auto. Qed.
Print Assumptions C51_refuted.

(** C51, proved for blocks longer than the line with the size: the first [len] bytes hold as much of
    the chunk as fits, and what follows is left as it was. *)
Theorem C51_chunk_partial :
  forall out len data h, hex_of (lenN data) h -> lenN h + 2 < len -> len <= lenN out -> lenN out < two64 ->
  lenN (h ++ crlf ++ data ++ crlf) < two64 ->
  http_msg_generate_chunk out len data =
    Ok (written len (h ++ crlf ++ data ++ crlf) (skipn (N.to_nat len) out), lenN (h ++ crlf ++ data ++ crlf)).
Proof. exact chunk_written. Qed.
Print Assumptions C51_chunk_partial.
Example C51_example :
  hex_of 31 [49; 102] /\
  http_msg_generate_chunk (repeat 7 9) 7 (repeat 97 31) = Ok ([49; 102; 13; 10; 97; 97; 0; 7; 7], 37) /\
  http_msg_generate_chunk (repeat 7 9) 8 [97; 98] = Ok ([50; 13; 10; 97; 98; 13; 10; 0; 7], 7).
Proof. split; [apply (hex_more 1 [49] 15); [lia|lia|apply (hex_one 1); lia]|]. vm_compute. auto. Qed.

(** C68, full statement: a message in chunked encoding is read as the one whose body are the data of its chunks,
    with the trailer fields added to the headers, and consumed entirely.  False if there is a NUL in the data. *)
Definition chunked_head : hmsg := mkhmsg ([97], [98], [99]) [(transfer_encoding, chunked)] None.
Lemma chunked_head_ok : start_ok chunked_head /\ Forall header_ok (hm_headers chunked_head) /\ is_chunked (hm_headers chunked_head).
Proof.
  split; [|split].
  - unfold start_ok. cbn. repeat split; try discriminate; try (intuition discriminate); intuition (subst; discriminate).
  - constructor; [|constructor]. unfold header_ok. cbn [fst snd]. split; [right; apply one_word; [discriminate|reflexivity]|]. split; [cbn; intuition discriminate|right; apply one_word; [discriminate|reflexivity]].
  - exists (transfer_encoding, chunked). split; [left; reflexivity|]. split; reflexivity.
Qed.
Theorem C68_refuted :
  exists m ds t, start_ok m /\ Forall header_ok (hm_headers m) /\ is_chunked (hm_headers m) /\ chunks_text ds t /\
    forall fuel, http_msg_parse (S fuel) (head_text m ++ t ++ crlf) = Err EAGAIN.
Proof.
  exists chunked_head, [[0]]. eexists. split; [apply chunked_head_ok|]. split; [apply chunked_head_ok|]. split; [apply chunked_head_ok|].
  split; [apply chunks_more; [discriminate|apply (hex_one 1); lia|apply chunks_last]|]. intro fuel. vm_compute. reflexivity.
Qed.
Print Assumptions C68_refuted.

(** C68, proved for data without NUL, less than 2^31 - 1 bytes of them.  More text may follow. *)
Theorem C68_chunks_partial :
  forall m fuel ds t trailers rest, start_ok m -> Forall header_ok (hm_headers m) -> is_chunked (hm_headers m) -> Forall header_ok trailers ->
  chunks_text ds t -> ~ In 0 (concat ds) -> lenN (concat ds) < 2147483647 -> (length ds < fuel)%nat ->
  http_msg_parse fuel (head_text m ++ t ++ headers_text trailers ++ crlf ++ rest) =
    Ok (mkhmsg (hm_start m) (hm_headers m ++ trailers) (Some (concat ds)), lenZ (head_text m ++ t ++ headers_text trailers ++ crlf)).
Proof. exact chunked_parse. Qed.
Print Assumptions C68_chunks_partial.
Example C68_example :
  chunks_text [[97; 98]; [45; 54; 13; 10]] [50; 13; 10; 97; 98; 13; 10; 52; 13; 10; 45; 54; 13; 10; 13; 10; 48; 13; 10] /\
  http_msg_parse 3 (head_text chunked_head ++ [50; 13; 10; 97; 98; 13; 10; 52; 13; 10; 45; 54; 13; 10; 13; 10; 48; 13; 10; 13; 10]) =
    Ok (mkhmsg ([97], [98], [99]) [(transfer_encoding, chunked)] (Some [97; 98; 45; 54; 13; 10]), 58%Z).
Proof.
  split; [|vm_compute; reflexivity]. apply (chunks_more [97; 98] _ [50]); [discriminate|apply (hex_one 2); lia|].
  apply (chunks_more [45; 54; 13; 10] _ [52]); [discriminate|apply (hex_one 4); lia|apply chunks_last].
Qed.

(** C87, full statement: as long as part of a message is missing, http_msg_parse says so (-EAGAIN).  False for
    a name continued on the next line, if what is there ends between the lines: the message is refused; *)
Definition plain_line (a : list N) : bool := forallb (fun c => negb ((c =? 0) || (c =? 13))) a.
Lemma plain_line_ok a : plain_line a = true -> line a.
Proof.
  intro H. unfold plain_line in H. rewrite forallb_forall in H. split; [intro X; apply H in X; discriminate|].
  intros x y ->. specialize (H 13 ltac:(apply in_or_app; right; left; reflexivity)). discriminate.
Qed.
Definition start1 : list N := [97; 32; 98; 32; 99; 13; 10].
Theorem C87_refuted :
  exists s a b c hs p r, head_of s a b c hs /\ framed (mkhmsg (a, b, c) hs None) /\ s = p ++ r /\ r <> [] /\
    forall fuel, http_msg_parse fuel p = Err EBADMSG.
Proof.
  exists (start1 ++ ([110; 13; 10; 32] ++ [58] ++ [118] ++ crlf ++ crlf)), [97], [98], [99], [(spaced [110; 13; 10; 32], spaced [118])], (start1 ++ [110; 13; 10]), [32; 58; 118; 13; 10; 13; 10].
  split.
  - unfold head_of. split; [discriminate|]. split; [discriminate|]. split; [discriminate|]. split; [cbn; intuition discriminate|]. split; [cbn; intuition discriminate|].
    split; [apply plain_line_ok; reflexivity|]. eexists. split; [reflexivity|]. apply fields_more.
    + apply (folded_more [110] 32 [58; 118]); [apply plain_line_ok; reflexivity|auto|apply folded_one, plain_line_ok; reflexivity].
    + cbn. intuition discriminate.
    + intros x X. discriminate.
    + intros c t X. injection X as <- _. split; discriminate.
    + constructor.
  - split; [split|split; [reflexivity|split; [discriminate|intro fuel; vm_compute; reflexivity]]].
    + intros h [<-|[]] [X _]. vm_compute in X. discriminate.
    + intros h [<-|[]] X. vm_compute in X. discriminate.
Qed.
Print Assumptions C87_refuted.

(** and for a body of 2^32 + 1 bytes: the first byte of it is taken for the whole. *)
Definition huge (k : nat) : hmsg :=
  mkhmsg ([97], [98], [99]) [(content_length, [52; 50; 57; 52; 57; 54; 55; 50; 57; 55])] (Some (repeat 120 (S k))).
Definition huge_part : list N := start1 ++ content_length ++ [58; 32; 52; 50; 57; 52; 57; 54; 55; 50; 57; 55; 13; 10; 13; 10; 120].
Lemma huge_ok k : lenN (repeat 120 (S k)) = 4294967297 -> message_ok (huge k).
Proof.
  intro H. unfold huge. apply content_message_ok; [discriminate|apply one_word; [discriminate|reflexivity]|]. rewrite H. split; [discriminate|reflexivity].
Qed.
Lemma huge_text k : http_text (huge k) = huge_part ++ repeat 120 k.
Proof. reflexivity. Qed.
Lemma huge_parse k fuel : http_msg_parse fuel huge_part = Ok (mkhmsg (hm_start (huge k)) (hm_headers (huge k)) (Some [120]), lenZ huge_part).
Proof. vm_compute. reflexivity. Qed.
Theorem C87_huge_refuted :
  exists m p r, message_ok m /\ http_text m = p ++ r /\ lenN r = 4294967296 /\ ~ In 0 (body_of m) /\
    forall fuel, http_msg_parse fuel p = Ok (mkhmsg (hm_start m) (hm_headers m) (Some [120]), lenZ p).
Proof.
  assert (K : exists k, N.of_nat k = 4294967296) by (exists (N.to_nat 4294967296); apply N2Nat.id). destruct K as [k K].
  exists (huge k), huge_part, (repeat 120 k). split; [|split; [|split; [|split]]].
  - apply huge_ok. unfold lenN. rewrite repeat_length, Nat2N.inj_succ, K. reflexivity.
  - apply huge_text.
  - unfold lenN. rewrite repeat_length. exact K.
  - unfold huge, body_of. cbn [hm_body]. intro Y. apply repeat_spec in Y. discriminate.
  - intro fuel. apply huge_parse.
Qed.
Print Assumptions C87_huge_refuted.

(** C87, proved for the messages of C50 and C68. *)
Theorem C87_length_partial :
  forall m fuel p r, message_ok m -> (forall b, hm_body m = Some b -> ~ In 0 b /\ lenN b < 2147483648) ->
  http_text m = p ++ r -> r <> [] -> http_msg_parse fuel p = Err EAGAIN.
Proof. exact message_part. Qed.
Print Assumptions C87_length_partial.
Theorem C87_chunks_partial :
  forall m fuel ds t trailers p r, start_ok m -> Forall header_ok (hm_headers m) -> is_chunked (hm_headers m) -> Forall header_ok trailers ->
  chunks_text ds t -> ~ In 0 (concat ds) -> lenN (concat ds) < 2147483647 -> (length ds < fuel)%nat ->
  head_text m ++ t ++ headers_text trailers ++ crlf = p ++ r -> r <> [] -> http_msg_parse fuel p = Err EAGAIN.
Proof. exact chunked_part. Qed.
Print Assumptions C87_chunks_partial.
Example C87_example :
  http_text message2 = (start1 ++ content_length ++ [58; 32; 48; 50; 13; 10; 13; 10; 120]) ++ [13] /\
  http_msg_parse 0 (start1 ++ content_length ++ [58; 32; 48; 50; 13; 10; 13; 10; 120]) = Err EAGAIN /\
  chunks_text [[97; 98]] [50; 13; 10; 97; 98; 13; 10; 48; 13; 10] /\
  http_msg_parse 2 (head_text chunked_head ++ [50; 13; 10; 97; 98; 13; 10; 48; 13; 10; 13]) = Err EAGAIN /\
  http_msg_parse 2 (head_text chunked_head ++ [50; 13; 10; 97; 98; 13]) = Err EAGAIN.
Proof.
  split; [reflexivity|]. split; [vm_compute; reflexivity|]. split; [|vm_compute; auto].
  apply (chunks_more [97; 98] _ [50]); [discriminate|apply (hex_one 2); lia|apply chunks_last].
Qed.

(** C88: http_msg_parse accepts only messages with a head in the form of RFC 7230: a start line of three
    fields, and headers, which may be continued; the white space in a header is reduced to single spaces.  It keeps the
    fields as they are there.  A message not in chunked encoding has no further headers, and its body is what
    follows the head. *)
Theorem C88_accepted :
  forall fuel buf m n, http_msg_parse fuel buf = Ok (m, n) ->
  exists s a b c hs ts rest, buf = s ++ rest /\ head_of s a b c hs /\ hm_start m = (a, b, c) /\ hm_headers m = hs ++ ts /\
    (not_chunked hs -> ts = [] /\
      match hm_body m with
      | None => n = lenZ s
      | Some body => body <> [] /\ n = lenZ (s ++ body) /\ exists more, rest = body ++ more
      end).
Proof. exact accepted. Qed.
Print Assumptions C88_accepted.

(** And it accepts all of these. *)
Theorem C88_accepts :
  forall s a b c hs body fuel rest, head_of s a b c hs -> framed (mkhmsg (a, b, c) hs body) ->
  (forall x, body = Some x -> ~ In 0 x /\ lenN x < 2147483648) ->
  http_msg_parse fuel (s ++ match body with Some x => x | None => [] end ++ rest) =
    Ok (mkhmsg (a, b, c) hs body, lenZ (s ++ match body with Some x => x | None => [] end)).
Proof. exact accepts. Qed.
Print Assumptions C88_accepts.

(** A header with the value "v w", the w on the next line after a tab, and spaces everywhere. *)
Definition folded1 : list N := [97; 32; 98; 32; 99; 32; 32; 13; 10; 32; 110; 32; 58; 32; 118; 32; 13; 10; 9; 119; 32; 13; 10; 13; 10].
Lemma folded1_head : head_of folded1 [97] [98] [99; 32; 32] [([110], [118; 32; 119])] /\ framed (mkhmsg ([97], [98], [99; 32; 32]) [([110], [118; 32; 119])] None).
Proof.
  split.
  - unfold head_of. split; [discriminate|]. split; [discriminate|]. split; [discriminate|]. split; [cbn; intuition discriminate|]. split; [cbn; intuition discriminate|].
    split; [apply plain_line_ok; reflexivity|]. eexists. split; [reflexivity|]. apply (fields_more [32; 110; 32] [32; 118; 32; 13; 10; 9; 119; 32] crlf []).
    + apply (folded_more [32; 110; 32; 58; 32; 118; 32] 9 [119; 32]); [apply plain_line_ok; reflexivity|auto|apply folded_one, plain_line_ok; reflexivity].
    + cbn. intuition discriminate.
    + intros x X. discriminate.
    + intros c t X. injection X as <- _. split; discriminate.
    + constructor.
  - split; [intros h [<-|[]] [X _]; vm_compute in X; discriminate|intros h [<-|[]] X; vm_compute in X; discriminate].
Qed.
Example C88_example :
  head_of folded1 [97] [98] [99; 32; 32] [([110], [118; 32; 119])] /\
  http_msg_parse 0 (folded1 ++ [1; 2]) = Ok (mkhmsg ([97], [98], [99; 32; 32]) [([110], [118; 32; 119])] None, 25%Z) /\
  http_msg_parse 0 [97; 32; 98; 13; 10; 13; 10] = Err EBADMSG /\ http_msg_parse 0 [97; 32; 32; 99; 13; 10; 13; 10] = Err EBADMSG.
Proof. split; [apply folded1_head|]. vm_compute. auto. Qed.
