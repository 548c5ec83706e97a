(** Properties of the configuration of the proxy: C53, C54, C80 to C84. *)
From Verif Require Import Base BaseLemmas UriModel HttpModel ClientModel CrossModel ConfigModel ConfigSpec ConfigLemmas.
From Coq Require Import String.

Definition plenty (n : N) : bool := true.
Definition nl : list N := [10].
Ltac each := match goal with |- Forall _ ?l => let x := eval vm_compute in l in change l with x end; repeat (apply Forall_cons; [unfold letter, digit; lia|]); apply Forall_nil.

(** ** C53: a lookup returns the value last set *)

(** False if memory runs out: config_set then frees the old value of the name. *)
Theorem C53_refuted : exists calls c rs s n, run_sets [] calls = (c, rs) /\ config_get c s n <> assigned (successful calls rs) s n.
Proof.
  exists [(true, true, (chars "s", chars "n", chars "1")); (true, false, (chars "s", chars "n", chars "2"))]%string. do 2 eexists. exists (chars "s")%string, (chars "n")%string.
  split; [vm_compute; reflexivity|]. vm_compute. discriminate.
Qed.
Print Assumptions C53_refuted.
(** Missing: names for which a call failed. *)
Theorem C53_partial : forall calls c rs s n, run_sets [] calls = (c, rs) ->
  (forall m1 m2 v r, In (m1, m2, (s, n, v), r) (combine calls rs) -> r = Ok tt) ->
  config_get c s n = assigned (successful calls rs) s n.
Proof.
  intros calls c rs s n E H. rewrite (run_sets_spec _ _ _ _ _ _ E H). unfold value_after. destruct (assigned (successful calls rs) s n); reflexivity.
Qed.
Print Assumptions C53_partial.
Example C53_example :
  exists c rs, run_sets [] [(true, true, (chars "s", chars "n", chars "1")); (true, true, (chars "t", chars "n", chars "2")); (true, true, (chars "s", chars "n", chars "3")); (true, false, (chars "s", chars "m", chars "4"))]%string = (c, rs) /\
  rs = [Ok tt; Ok tt; Ok tt; Err ENOMEM] /\ config_get c (chars "s"%string) (chars "n"%string) = Some (chars "3"%string) /\ config_get c (chars "s"%string) (chars "m"%string) = None.
Proof. do 2 eexists. split; [vm_compute; reflexivity|]. vm_compute. auto. Qed.

(** ** C54: reading stays inside the text *)

(** False: if the last line is an assignment or a section and has no end of line, the loop goes on behind the terminating NUL. *)
Theorem C54_refuted : exists mem fuel c text, ~ In 0 text /\ enough fuel text /\ snd (config_parse mem fuel c text) = UB OobRead.
Proof. exists plenty, 9%nat, [], (chars "a=b")%string. split; [vm_compute; intros [H|[H|[H|[]]]]; discriminate|]. split; [unfold enough; cbn; lia|]. vm_compute. reflexivity. Qed.
Print Assumptions C54_refuted.
(** Missing: these texts, and those of more than 2^31 characters. *)
Theorem C54_partial : forall mem fuel c text c' row col r, ~ In 0 text -> lenN text <= 2147483648 -> enough fuel text ->
  config_parse mem fuel c text = (c', row, col, r) ->
  r <> OutOfFuel /\ (forall u, r = UB u -> u = OobRead /\ unterminated text) /\
  (unterminated text -> (forall n, mem n = true) -> r = UB OobRead).
Proof.
  intros mem fuel c text c' row col r H0 HL Hf E.
  destruct (parse_cases _ _ _ _ _ _ _ _ H0 HL Hf E) as [(-> & is & R1 & R2)|[(-> & R)|[(e & is & a & u & rest & ex & -> & _ & R1 & R2 & R3 & _)|(-> & n & R)]]].
  - split; [discriminate|]. split; [discriminate|]. intro Hu. exfalso. exact (file_not_last _ _ R1 Hu).
  - split; [discriminate|]. split; [|reflexivity]. intros u H. injection H as <-. auto.
  - split; [discriminate|]. split; [discriminate|]. intro Hu. exfalso. exact (proj2 (not_bad _ _ _ _ R1 R2 (proj1 R3)) Hu).
  - split; [discriminate|]. split; [discriminate|]. intros _ Hm. rewrite Hm in R. discriminate.
Qed.
Print Assumptions C54_partial.
(** A text that ends with an end of line is read within bounds. *)
Theorem C54_newline_partial : forall mem fuel c text u, ~ In 0 text -> lenN text < 2147483648 -> enough fuel (text ++ [10]) ->
  snd (config_parse mem fuel c (text ++ [10])) <> UB u /\ snd (config_parse mem fuel c (text ++ [10])) <> OutOfFuel.
Proof.
  intros mem fuel c text u H0 HL Hf. destruct (config_parse mem fuel c (text ++ [10])) as [[[c' row] col] r] eqn:E. cbn [snd].
  assert (H0' : ~ In 0 (text ++ [10])) by (rewrite in_app_iff; intros [H|[H|[]]]; [contradiction|discriminate]).
  assert (HL' : lenN (text ++ [10]) <= 2147483648) by (rewrite lenN_app; change (lenN [10]) with 1; lia).
  destruct (parse_cases _ _ _ _ _ _ _ _ H0' HL' Hf E) as [(-> & _)|[(-> & (is & a & b & i & R1 & R2 & R3 & R4))|[(e & is & a & u' & rest & ex & -> & _)|(-> & _)]]]; try (split; discriminate).
  exfalso. destruct b as [|x b] using rev_ind.
  - destruct (stmtf_complete i [] [] R3) as [_ S]. destruct i; [congruence|discriminate|discriminate].
  - rewrite app_assoc in R1. apply app_inj_tail in R1 as [_ <-]. exact (line_last _ _ _ R3 eq_refl).
Qed.
Print Assumptions C54_newline_partial.
Example C54_example :
  let text := chars "[s] ; c"%string ++ nl ++ chars "n = "%string ++ [34] ++ chars "v w"%string ++ [34] in
  ~ In 0 text /\ lenN text < 2147483648 /\ enough 60 (text ++ nl) /\ snd (config_parse plenty 60 [] (text ++ nl)) = Ok tt /\ snd (config_parse plenty 60 [] text) = UB OobRead.
Proof.
  cbn zeta. split; [vm_compute; repeat (intros [H|H]; [discriminate H|revert H]); intros []|]. split; [vm_compute; reflexivity|]. split; [unfold enough; vm_compute; lia|]. split; vm_compute; reflexivity.
Qed.

(** ** C80: what is accepted, and what it means *)

(** False: the last line, if it lacks its end, is not accepted. *)
Theorem C80_refuted : exists text i, ~ In 0 text /\ line i text /\ forall fuel, enough fuel text -> snd (config_parse plenty fuel [] text) <> Ok tt.
Proof.
  exists (chars "a=b")%string, (IAssign (chars "a") (chars "b"))%string. split; [vm_compute; intros [H|[H|[H|[]]]]; discriminate|].
  assert (Hl : line (IAssign (chars "a") (chars "b"))%string (chars "a=b")%string).
  { exists [], [], [], (chars "b")%string, []. split; [reflexivity|]. split; [constructor|]. split; [exists 97, []; split; [reflexivity|]; split; [unfold letter; lia|constructor]|]. split; [constructor|]. split; [constructor|].
    split; [left; split; [exists 98, []; split; [reflexivity|]; split; [unfold letter; lia|constructor]|reflexivity]|left; constructor]. }
  split; [exact Hl|]. intros fuel Hf E. destruct (config_parse plenty fuel [] (chars "a=b")%string) as [[[c row] col] r] eqn:Ec. cbn [snd] in E.
  assert (H0 : ~ In 0 (chars "a=b")%string) by (vm_compute; intros [H|[H|[H|[]]]]; discriminate).
  destruct (C54_partial _ _ _ _ _ _ _ _ H0 ltac:(vm_compute; discriminate) Hf Ec) as (_ & _ & H).
  rewrite H in E; [discriminate| |reflexivity]. exists [], [], (chars "a=b")%string, (IAssign (chars "a") (chars "b"))%string. split; [reflexivity|]. split; [constructor|]. split; [exact Hl|discriminate].
Qed.
Print Assumptions C80_refuted.
(** Missing: such texts, and those of more than 2^31 characters. *)
Theorem C80_partial : forall mem fuel c text c' row col r, ~ In 0 text -> lenN text <= 2147483648 -> enough fuel text ->
  config_parse mem fuel c text = (c', row, col, r) ->
  (r = Ok tt -> exists l, file l text) /\
  (forall l, file l text -> (forall n, mem n = true) -> r = Ok tt) /\
  (forall l, file l text -> r = Ok tt -> forall s n, config_get c' s n = value_after c (assignments [] l) s n).
Proof.
  intros mem fuel c text c' row col r H0 HL Hf E.
  destruct (parse_cases _ _ _ _ _ _ _ _ H0 HL Hf E) as [(-> & is & R1 & R2)|[(-> & R)|[(e & is & a & u & rest & ex & -> & _ & R1 & R2 & R3 & _)|(-> & n & R)]]].
  - split; [eauto|]. split; [reflexivity|]. intros l Hl _. rewrite (file_unique _ _ _ Hl R1). exact R2.
  - split; [discriminate|]. split; [|discriminate]. intros l Hl. exfalso. exact (file_not_last _ _ Hl R).
  - split; [discriminate|]. split; [|discriminate]. intros l Hl. exfalso. exact (proj1 (not_bad _ _ _ _ R1 R2 (proj1 R3)) _ Hl).
  - split; [discriminate|]. split; [|discriminate]. intros l _ Hm. rewrite Hm in R. discriminate.
Qed.
Print Assumptions C80_partial.
Example C80_example :
  let text := chars "port = 5683 ; c"%string ++ nl ++ nl ++ chars "[s]"%string ++ nl ++ chars "port=x_1"%string ++ nl in
  let l := [IAssign (chars "port") (chars "5683"); INone; ISection (chars "s"); IAssign (chars "port") (chars "x_1")]%string in
  file l text /\ snd (config_parse plenty 60 [] text) = Ok tt /\ assignments [] l = [([], chars "port", chars "5683"); (chars "s", chars "port", chars "x_1")]%string.
Proof.
  cbn zeta. split; [|split; vm_compute; reflexivity].
  assert (Hp : name (chars "port"%string)) by (exists 112, [111; 114; 116]; split; [reflexivity|]; split; [unfold letter; lia|]; repeat (apply Forall_cons; [unfold letter, digit; lia|]); apply Forall_nil).
  exists (chars "port = 5683 ; c"%string ++ nl ++ nl ++ chars "[s]"%string ++ nl ++ chars "port=x_1"%string ++ nl), []. split; [rewrite app_nil_r; reflexivity|]. split; [|left; constructor].
  apply (lines_more _ (chars "port = 5683 ; c"%string)).
  { exists [], [32], [32], (chars "5683"%string), (chars " ; c"%string). split; [reflexivity|]. split; [constructor|]. split; [exact Hp|].
    split; [constructor; [right; reflexivity|constructor]|]. split; [constructor; [right; reflexivity|constructor]|].
    split; [right; left; split; [|reflexivity]; split; [discriminate|]; each|].
    right. exists [32], (chars " c"%string). split; [reflexivity|]. split; [constructor; [right; reflexivity|constructor]|]. intros [H|[H|[]]]; discriminate. }
  apply (lines_more _ []); [left; constructor|].
  apply (lines_more _ (chars "[s]"%string)).
  { exists [], [], [], []. split; [reflexivity|]. split; [constructor|]. split; [constructor|]. split; [exists 115, []; split; [reflexivity|]; split; [unfold letter; lia|constructor]|]. split; [constructor|left; constructor]. }
  apply (lines_more _ (chars "port=x_1"%string)); [|constructor].
  exists [], [], [], (chars "x_1"%string), []. split; [reflexivity|]. split; [constructor|]. split; [exact Hp|]. split; [constructor|]. split; [constructor|]. split; [|left; constructor].
  left. split; [|reflexivity]. exists 120, [95; 49]. split; [reflexivity|]. split; [unfold letter; lia|]. repeat (apply Forall_cons; [unfold letter, digit; lia|]); apply Forall_nil.
Qed.

(** ** C81: the position of an error *)

Theorem C81_error_position : forall mem fuel c text c' row col e, ~ In 0 text -> 4 * lenN text + 8 < 4294967296 -> enough fuel text ->
  config_parse mem fuel c text = (c', row, col, Err e) -> e <> ENOMEM ->
  exists l before used rest ex, text = before ++ used ++ rest /\ lines l before /\ offends e used rest /\
    (row, col) = (fst (position (before ++ used)), snd (position (before ++ used)) + 1) /\
    (ex = [] \/ exists n v, ex = [IAssign n v] /\ line (IAssign n v) used) /\
    forall s n, config_get c' s n = value_after c (assignments [] (l ++ ex)) s n.
Proof.
  intros mem fuel c text c' row col e H0 HL Hf E Hm. assert (HL' : lenN text <= 2147483648) by lia.
  destruct (parse_cases _ _ _ _ _ _ _ _ H0 HL' Hf E) as [(R & _)|[(R & _)|[(e' & is & a & u & rest & ex & R & _ & R1 & R2 & R3 & R4 & R5 & R6)|(R & _)]]]; [discriminate|discriminate| |injection R as ->; congruence].
  injection R as <-. exists is, a, u, rest, ex. split; [exact R1|]. split; [exact R2|]. split; [exact R3|]. split; [|split; [exact R4|exact R6]].
  assert (Hl : 4 * lenN (a ++ u) + 8 < two32) by (unfold two32; rewrite R1, !lenN_app in HL; rewrite lenN_app; lia).
  destruct (posn_position _ Hl) as (Ep & B1 & B2). rewrite R5. unfold start_of. rewrite Ep. f_equal. unfold add32. apply N.mod_small. unfold two32 in *. lia.
Qed.
Print Assumptions C81_error_position.
Example C81_example :
  let text := chars "a=1"%string ++ nl ++ chars "b ="%string ++ [9] ++ chars "= 2"%string ++ nl in
  4 * lenN text + 8 < 4294967296 /\ enough 60 text /\
  exists c', config_parse plenty 60 [] text = (c', 2, 5, Err EPROTO) /\ config_get c' [] (chars "a"%string) = Some (chars "1"%string).
Proof. cbn zeta. split; [vm_compute; reflexivity|]. split; [unfold enough; vm_compute; lia|]. eexists. split; vm_compute; reflexivity. Qed.
Example C81_quote_example :
  exists c', config_parse plenty 60 [] (chars "a = "%string ++ [34] ++ chars "x"%string ++ nl) = (c', 1, 5, Err EBADMSG).
Proof. eexists. vm_compute. reflexivity. Qed.

(** ** C82: a failed assignment changes nothing *)

(** False: the old value is lost. *)
Theorem C82_refuted : exists m1 m2 c s n v c' e, config_set m1 m2 c s n v = (c', Err e) /\ config_get c' s n <> config_get c s n.
Proof.
  exists true, false, [(chars "s", [(chars "n", Some (chars "1"))])]%string, (chars "s")%string, (chars "n")%string, (chars "2")%string. do 2 eexists. split; [vm_compute; reflexivity|]. vm_compute. discriminate.
Qed.
Print Assumptions C82_refuted.
(** Other values are unchanged, and this one is never the new one or any other. *)
Theorem C82_partial : forall m1 m2 c s n v c' e, config_set m1 m2 c s n v = (c', Err e) ->
  (forall s' n', (s', n') <> (s, n) -> config_get c' s' n' = config_get c s' n') /\
  (config_get c' s n = config_get c s n \/ config_get c' s n = None).
Proof. intros m1 m2 c s n v c' e E. destruct (set_get _ _ _ _ _ _ _ _ E) as (G1 & _ & _ & G2). auto. Qed.
Print Assumptions C82_partial.
Example C82_example :
  let c := [(chars "s", [(chars "n", Some (chars "1")); (chars "m", Some (chars "3"))])]%string in
  exists c', config_set true false c (chars "s"%string) (chars "n"%string) (chars "2"%string) = (c', Err ENOMEM) /\ config_get c' (chars "s"%string) (chars "m"%string) = Some (chars "3"%string).
Proof. cbn zeta. eexists. split; [vm_compute; reflexivity|]. vm_compute. reflexivity. Qed.

(** ** C83: the parameters of the proxy *)

(** False: a file that does not end with an end of line. *)
Theorem C83_refuted : exists f l, ~ In 0 f /\ file l (f ++ [10]) /\ parameters l <> None /\
  forall p, param_create plenty 20 plenty (Some f) <> Ok p.
Proof.
  exists (chars "port=1")%string, [IAssign (chars "port") (chars "1")]%string. split; [vm_compute; repeat (intros [H|H]; [discriminate H|revert H]); intros []|]. split.
  - exists (chars "port=1"%string ++ [10]), []. split; [rewrite app_nil_r; reflexivity|]. split; [|left; constructor]. apply (lines_more _ (chars "port=1"%string)); [|constructor].
    exists [], [], [], (chars "1"%string), []. split; [reflexivity|]. split; [constructor|].
    split; [exists 112, [111; 114; 116]; split; [reflexivity|]; split; [unfold letter; lia|]; each|].
    split; [constructor|]. split; [constructor|]. split; [|left; constructor]. right. left. split; [|reflexivity]. split; [discriminate|]. each.
  - split; [vm_compute; discriminate|]. intro p. vm_compute. discriminate.
Qed.
Print Assumptions C83_refuted.
(** Missing: such files, and those of more than 2^31 characters. *)
Theorem C83_partial : forall mem fuel pm f t, text_of f t -> lenN t <= 2147483648 -> enough fuel t ->
  (forall p, param_create mem fuel pm (Some f) = Ok p -> exists l, file l t /\ parameters l = Some p) /\
  (forall l, file l t -> (forall n, mem n = true) -> (forall n, pm n = true) ->
    param_create mem fuel pm (Some f) = match parameters l with Some p => Ok p | None => Err EOTHER end).
Proof.
  intros mem fuel pm f t Ht HL Hf. split.
  - intros p. exact (param_only _ _ _ _ _ _ Ht HL Hf).
  - intros l Hl Hm Hp. exact (param_all _ _ _ _ _ _ Ht HL Hf Hl Hm Hp).
Qed.
Print Assumptions C83_partial.
Example C83_example :
  let f := chars "log_level = debug"%string ++ nl ++ chars "[coap_client]"%string ++ nl ++ chars "key_file="%string ++ [34] ++ chars "k.pem"%string ++ [34; 10; 0; 91] in
  text_of f (removelast (removelast f)) /\ enough 80 f /\
  exists p, param_create plenty 80 plenty (Some f) = Ok p /\ pa_port p = chars "4430"%string /\ pa_level p = LogDebug /\ pa_coap_key p = chars "k.pem"%string.
Proof.
  cbn zeta. split; [|split; [unfold enough; vm_compute; lia|eexists; split; [vm_compute; reflexivity|]; vm_compute; auto]].
  split; [vm_compute; repeat (intros [H|H]; [discriminate H|revert H]); intros []|]. right. exists [91]. vm_compute. reflexivity.
Qed.

(** ** C84: the description of an error *)

(** False: the list of descriptions has one that the list of errors lacks, so that a lexical error is described as an input/output error. *)
Theorem C84_refuted : exists e x, stands_for e = Some x /\ config_strerr e <> Ok x.
Proof. exists (-3)%Z, XLexical. split; [reflexivity|]. vm_compute. discriminate. Qed.
Print Assumptions C84_refuted.
(** Missing: lexical and syntax errors, and INT_MIN. *)
Theorem C84_partial :
  (forall e x, stands_for e = Some x -> (-2 <= e)%Z -> config_strerr e = Ok x) /\
  (forall e, (-2147483648 < e <= 2147483647)%Z -> exists x, config_strerr e = Ok x).
Proof.
  split.
  - intros e x H He. destruct e as [|e|e]; cbn [stands_for] in H; [injection H as <-; reflexivity|discriminate|].
    destruct e as [e|e|]; [lia|destruct e; [lia|lia|injection H as <-; reflexivity]|injection H as <-; reflexivity].
  - intros e He. unfold config_strerr. destruct (Z.eqb_spec e (-2147483648)); [lia|]. destruct (Z.ltb_spec (- e) 0); cbn [orb]; [eauto|]. destruct (Z.ltb_spec 6 (- e)); [eauto|].
    assert (C : (- e = 0 \/ - e = 1 \/ - e = 2 \/ - e = 3 \/ - e = 4 \/ - e = 5 \/ - e = 6)%Z) by lia. destruct C as [->|[->|[->|[->|[->|[->| ->]]]]]]; eexists; reflexivity.
Qed.
Print Assumptions C84_partial.
Example C84_example : stands_for (-2) = Some XMemory /\ config_strerr (-2) = Ok XMemory /\ config_strerr (-4) = Ok XLexical /\ config_strerr (-2147483648) = UB BadArith.
Proof. repeat split. Qed.
