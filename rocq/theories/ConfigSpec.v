(** Specification of configurations and of their text. *)
From Verif Require Import Base ConfigModel.

(** ** Values *)

(** Assignments: section, name and value.  The value of a name in a section is the last one assigned. *)
Definition assignment : Type := (list N * list N * list N)%type.
Fixpoint assigned (l : list assignment) (s n : list N) : option (list N) :=
  match l with
  | [] => None
  | (s', n', v) :: l =>
    match assigned l s n with
    | Some v => Some v
    | None => if list_eq_dec N.eq_dec s' s then if list_eq_dec N.eq_dec n' n then Some v else None else None
    end
  end.

(** ** The text *)

Definition space (c : N) : Prop := 9 <= c <= 13 /\ c <> 10 \/ c = 32.
Definition letter (c : N) : Prop := 65 <= c <= 90 \/ 97 <= c <= 122.
Definition digit (c : N) : Prop := 48 <= c <= 57.
(** A name: letters, digits and underscores, the first a letter. *)
Definition name (s : list N) : Prop :=
  exists c s', s = c :: s' /\ letter c /\ Forall (fun c => letter c \/ digit c \/ c = 95) s'.
(** A number. *)
Definition number (s : list N) : Prop := s <> [] /\ Forall digit s.
(** What may be in quotes: each quote and each end of line follows a backslash; the last character is not a backslash.  The
    backslashes belong to the value. *)
Definition quotable (s : list N) : Prop :=
  (forall a c b, s = a ++ c :: b -> c = 34 \/ c = 10 -> exists a', a = a' ++ [92]) /\ ~ exists a, s = a ++ [92].
Definition value_text (v t : list N) : Prop :=
  (name v /\ t = v) \/ (number v /\ t = v) \/ (quotable v /\ t = [34] ++ v ++ [34]).

(** The end of a line: white space, and perhaps a comment. *)
Definition line_end (t : list N) : Prop :=
  Forall space t \/ exists w c, t = w ++ [59] ++ c /\ Forall space w /\ ~ In 10 c.

(** A line is empty, or begins a section, or assigns a value to a name. *)
Inductive item := INone | ISection (s : list N) | IAssign (n v : list N).
Definition line (i : item) (t : list N) : Prop :=
  match i with
  | INone => line_end t
  | ISection s => exists w1 w2 w3 e, t = w1 ++ [91] ++ w2 ++ s ++ w3 ++ [93] ++ e /\ Forall space w1 /\ Forall space w2 /\ name s /\ Forall space w3 /\ line_end e
  | IAssign n v => exists w1 w2 w3 vt e, t = w1 ++ n ++ w2 ++ [61] ++ w3 ++ vt ++ e /\ Forall space w1 /\ name n /\ Forall space w2 /\ Forall space w3 /\ value_text v vt /\ line_end e
  end.
(** Lines, each with its end; and a whole text, the last line of which may lack its end if it is empty or a comment. *)
Inductive lines : list item -> list N -> Prop :=
| lines_none : lines [] []
| lines_more i t l ts : line i t -> lines l ts -> lines (i :: l) (t ++ [10] ++ ts).
Definition file (l : list item) (t : list N) : Prop := exists a b, t = a ++ b /\ lines l a /\ line_end b.
(** There is a line here. *)
Definition line_here (t : list N) : Prop := (exists i a b, t = a ++ [10] ++ b /\ line i a) \/ exists i, line i t.

(** What the lines assign, beginning in a section. *)
Fixpoint assignments (s : list N) (l : list item) : list assignment :=
  match l with
  | [] => []
  | INone :: l => assignments s l
  | ISection s :: l => assignments s l
  | IAssign n v :: l => (s, n, v) :: assignments s l
  end.

(** A token begins here, or the text ends. *)
Definition begins_token (t : list N) : Prop :=
  match t with
  | [] => True
  | c :: t => letter c \/ digit c \/ c = 10 \/ c = 59 \/ c = 61 \/ c = 91 \/ c = 93 \/ c = 34 /\ exists v r, t = v ++ [34] ++ r /\ quotable v
  end.

(** ** Positions *)

(** The position behind a text: line and column, with tab stops after every four columns. *)
Definition step_position (p : N * N) (c : N) : N * N :=
  let (l, k) := p in
  if c =? 10 then (l + 1, 0) else if c =? 9 then (l, (k / 4 + 1) * 4) else (l, k + 1).
Definition position (t : list N) : N * N := fold_left step_position t (1, 0).

(** ** What the reader of the configuration relies on *)

(** Values assigned, and otherwise those there before. *)
Definition value_after (c : config) (l : list assignment) (s n : list N) : option (list N) :=
  match assigned l s n with Some v => Some v | None => config_get c s n end.

(** A sequence of calls of config_set: for each, whether its allocations succeed, and the assignment.  Returns the results too. *)
Fixpoint run_sets (c : config) (calls : list (bool * bool * assignment)) : config * list (res unit) :=
  match calls with
  | [] => (c, [])
  | (m1, m2, (s, n, v)) :: calls =>
    let (c, r) := config_set m1 m2 c s n v in
    let (c, rs) := run_sets c calls in (c, r :: rs)
  end.
(** The assignments of the calls that return 0. *)
Fixpoint successful (calls : list (bool * bool * assignment)) (rs : list (res unit)) : list assignment :=
  match calls, rs with
  | (_, _, a) :: calls, Ok _ :: rs => a :: successful calls rs
  | _ :: calls, _ :: rs => successful calls rs
  | _, _ => []
  end.

(** The text consists of lines, but the last is a section or an assignment and has no end. *)
Definition unterminated (t : list N) : Prop := exists l a b i, t = a ++ b /\ lines l a /\ line i b /\ i <> INone.

(** A text with an error: [used] can be the beginning of a line, but no line continues it with what is there, or there is no token. *)
Definition offends (e : errno) (used rest : list N) : Prop :=
  ~ line_here (used ++ rest) /\
  match rest with [] => True | x :: _ => ~ space x end /\
  (exists more, line_here (used ++ more)) /\
  (forall x r, rest = x :: r -> (forall more, ~ line_here (used ++ x :: more)) \/ ~ begins_token rest) /\
  (e = EBADMSG /\ ~ begins_token rest \/ e = EPROTO /\ begins_token rest).

(** ** The parameters of the proxy *)

From Coq Require Import String Ascii.
Definition chars (s : string) : list N := map N_of_ascii (list_ascii_of_string s).
Definition level_of (v : list N) : option log_level :=
  if list_eq_dec N.eq_dec v (chars "error") then Some LogError else
  if list_eq_dec N.eq_dec v (chars "warning") then Some LogWarn else
  if list_eq_dec N.eq_dec v (chars "notice") then Some LogNotice else
  if list_eq_dec N.eq_dec v (chars "info") then Some LogInfo else
  if list_eq_dec N.eq_dec v (chars "debug") then Some LogDebug else None.
(** What the lines of the file say, with the defaults of the proxy. *)
Definition parameters (l : list item) : option param :=
  let value s n def := match assigned (assignments [] l) (chars s) (chars n) with Some v => v | None => chars def end in
  match level_of (value "" "log_level" "info")%string with
  | None => None
  | Some lv => Some (mkparam
      (value "" "port" "4430") lv
      (value "http_server" "key_file" "http_server_privkey.pem")
      (value "http_server" "cert_file" "http_server_cert.pem")
      (value "http_server" "trust_file" "http_server_trust.pem")
      (value "coap_client" "key_file" "coap_client_privkey.pem")
      (value "coap_client" "cert_file" "coap_client_cert.pem")
      (value "coap_client" "trust_file" "coap_client_trust.pem"))%string
  end.
(** The text of a file, up to the first NUL. *)
Definition text_of (f t : list N) : Prop := ~ In 0 t /\ (f = t \/ exists more, f = t ++ [0] ++ more).

(** config_error_t, config.h 45-53: what each number stands for. *)
Definition stands_for (e : Z) : option config_text :=
  match e with 0%Z => Some XOk | (-1)%Z => Some XInvalid | (-2)%Z => Some XMemory | (-3)%Z => Some XLexical | (-4)%Z => Some XSyntax | _ => None end.
