(** Specification of HTTP messages: RFC 7230, sections 3 and 4.1, as far as the proxy uses
    them.  The structure [hmsg] is that of the model. *)
From Verif Require Import Base UriModel HttpModel.

Definition crlf : list N := [13; 10].
Definition header_text (h : list N * list N) : list N := fst h ++ [58; 32] ++ snd h ++ crlf.
Definition headers_text (hs : list (list N * list N)) : list N := flat_map header_text hs.
Definition head_text (m : hmsg) : list N :=
  let '(a, b, c) := hm_start m in a ++ [32] ++ b ++ [32] ++ c ++ crlf ++ headers_text (hm_headers m) ++ crlf.
Definition body_of (m : hmsg) : list N := match hm_body m with Some b => b | None => [] end.
Definition http_text (m : hmsg) : list N := head_text m ++ body_of m.

(** Words of a header: no white space but single spaces between other characters. *)
Definition blank (c : N) : Prop := 9 <= c <= 13 \/ c = 32.
Inductive words : list N -> Prop :=
| words_one w : w <> [] -> (forall c, In c w -> c <> 0 /\ ~ blank c) -> words w
| words_more w s : w <> [] -> (forall c, In c w -> c <> 0 /\ ~ blank c) -> words s -> words (w ++ 32 :: s).
Definition header_ok (h : list N * list N) : Prop :=
  (fst h = [] \/ words (fst h)) /\ ~ In 58 (fst h) /\ (snd h = [] \/ words (snd h)).

(** Fields of the start line. *)
Definition start_ok (m : hmsg) : Prop :=
  let '(a, b, c) := hm_start m in
  a <> [] /\ b <> [] /\ c <> [] /\ ~ In 32 a /\ ~ In 32 b /\
  (forall x, In x a \/ In x b \/ In x c -> x <> 0 /\ x <> 13).

Definition upper (c : N) : N := if (97 <=? c) && (c <=? 122) then c - 32 else c.
Definition same_name (a b : list N) : Prop := map upper a = map upper b.
Definition content_length : list N := [67; 111; 110; 116; 101; 110; 116; 45; 76; 101; 110; 103; 116; 104].
Definition transfer_encoding : list N := [84; 114; 97; 110; 115; 102; 101; 114; 45; 69; 110; 99; 111; 100; 105; 110; 103].
Definition chunked : list N := [99; 104; 117; 110; 107; 101; 100].

(** A decimal number. *)
Fixpoint decimal_value (v : N) (s : list N) : option N :=
  match s with
  | [] => Some v
  | c :: s => if (48 <=? c) && (c <=? 57) then decimal_value (v * 10 + (c - 48)) s else None
  end.
Definition decimal (s : list N) (n : N) : Prop := s <> [] /\ decimal_value 0 s = Some n.

Definition not_chunked (hs : list (list N * list N)) : Prop :=
  forall h, In h hs -> ~ (same_name (fst h) transfer_encoding /\ same_name (snd h) chunked).
Definition is_chunked (hs : list (list N * list N)) : Prop :=
  exists h, In h hs /\ same_name (fst h) transfer_encoding /\ same_name (snd h) chunked.

(** The last Content-Length header, if there is one, is the length of the body; without it
    there is no body. *)
Definition framed (m : hmsg) : Prop :=
  not_chunked (hm_headers m) /\
  match hm_body m with
  | Some body =>
    body <> [] /\ exists hs1 h hs2, hm_headers m = hs1 ++ h :: hs2 /\ same_name (fst h) content_length /\
      decimal (snd h) (lenN body) /\ forall h', In h' hs2 -> ~ same_name (fst h') content_length
  | None => forall h, In h (hm_headers m) -> ~ same_name (fst h) content_length
  end.

Definition message_ok (m : hmsg) : Prop := start_ok m /\ Forall header_ok (hm_headers m) /\ framed m.

(** ** Blocks *)

(** A block of which the first [len] bytes hold as much of the text [t] as fits before a NUL, and
    NULs; [rest] follows. *)
Definition written (len : N) (t rest : list N) : list N :=
  let p := firstn (N.to_nat (len - 1)) t in p ++ repeat 0 (N.to_nat len - length p) ++ rest.

(** Start line and headers without NUL. *)
Definition no_nul (m : hmsg) : Prop :=
  let '(a, b, c) := hm_start m in ~ In 0 a /\ ~ In 0 b /\ ~ In 0 c /\ forall h, In h (hm_headers m) -> ~ In 0 (fst h) /\ ~ In 0 (snd h).

(** ** Chunks *)

(** Hexadecimal numbers in lower case, without leading zeros. *)
Inductive hex_of : N -> list N -> Prop :=
| hex_one d : d < 16 -> hex_of d [nth (N.to_nat d) [48;49;50;51;52;53;54;55;56;57;97;98;99;100;101;102] 0]
| hex_more n s d : 0 < n -> d < 16 -> hex_of n s ->
    hex_of (16 * n + d) (s ++ [nth (N.to_nat d) [48;49;50;51;52;53;54;55;56;57;97;98;99;100;101;102] 0]).

(** The text of chunks, and of the last one. *)
Inductive chunks_text : list (list N) -> list N -> Prop :=
| chunks_last : chunks_text [] ([48] ++ crlf)
| chunks_more d ds h t : d <> [] -> hex_of (lenN d) h -> chunks_text ds t -> chunks_text (d :: ds) (h ++ crlf ++ d ++ crlf ++ t).

(** ** Bytes that cannot make a chunk size negative *)
Definition hexadecimal (c : N) : bool :=
  ((48 <=? c) && (c <=? 57)) || ((65 <=? c) && (c <=? 70)) || ((97 <=? c) && (c <=? 102)).
(** A chunk size that does not fit in a positive int: one with a minus sign, or one with eight
    digits or more.  The parser skips white space in front of it, and makes a semicolon a space. *)
Definition skipped (c : N) : Prop := blank c \/ c = 59.
Inductive wild : list N -> Prop :=
| wild_minus w t : Forall skipped w -> wild (w ++ 45 :: t)
| wild_long w sign prefix ds t : Forall skipped w -> sign = [] \/ sign = [43] -> prefix = [] \/ prefix = [48; 120] \/ prefix = [48; 88] ->
    length ds = 8%nat -> forallb hexadecimal ds = true -> wild (w ++ sign ++ prefix ++ ds ++ t).
(** No line begins with one. *)
Definition calm (s : list N) : Prop :=
  forall x y, s = x ++ y -> x = [] \/ (exists x', x = x' ++ crlf) -> ~ wild y.
Definition calm_body (s : list N) : Prop := forall h b, s = h ++ crlf ++ crlf ++ b -> calm b.
(** No string "chunked", in any case. *)
Definition never_chunked (s : list N) : Prop :=
  forall a b c, s = a ++ b ++ c -> ~ same_name b chunked.

(** ** Heads *)

(** White space in a field: none at the ends, one space between the words. *)
Definition blankb (c : N) : bool := ((9 <=? c) && (c <=? 13)) || (c =? 32).
Fixpoint pieces (s : list N) : list (list N) :=
  match s with
  | [] => [[]]
  | c :: s =>
    if blankb c then [] :: pieces s else
    match pieces s with w :: ws => (c :: w) :: ws | [] => [[c]] end
  end.
Definition nonempty (w : list N) : bool := match w with [] => false | _ => true end.
Definition spaced (s : list N) : list N :=
  match filter nonempty (pieces s) with
  | [] => []
  | w :: ws => w ++ flat_map (fun w => 32 :: w) ws
  end.

(** A line, and a line continued on lines that begin with a space or a tab (RFC 7230, section 3.2.4). *)
Definition line (a : list N) : Prop := ~ In 0 a /\ forall x y, a <> x ++ crlf ++ y.
Inductive folded : list N -> Prop :=
| folded_one a : line a -> folded a
| folded_more a c l : line a -> c = 32 \/ c = 9 -> folded l -> folded (a ++ crlf ++ c :: l).

(** The header fields up to and including the blank line, and what they say.  The name ends at the first
    colon; a header does not begin on a blank line, nor with a space or a tab unless it is the first. *)
Inductive fields : list N -> list (list N * list N) -> Prop :=
| fields_none : fields crlf []
| fields_more name value t hs :
    folded (name ++ [58] ++ value) -> ~ In 58 name -> (forall x, name <> crlf ++ x) ->
    (forall c t', t = c :: t' -> c <> 32 /\ c <> 9) -> fields t hs ->
    fields (name ++ [58] ++ value ++ crlf ++ t) ((spaced name, spaced value) :: hs).

(** A head with the start line of the three fields [a], [b] and [c], and the headers [hs]. *)
Definition head_of (s a b c : list N) (hs : list (list N * list N)) : Prop :=
  a <> [] /\ b <> [] /\ c <> [] /\ ~ In 32 a /\ ~ In 32 b /\ line (a ++ [32] ++ b ++ [32] ++ c) /\
  exists f, s = a ++ [32] ++ b ++ [32] ++ c ++ crlf ++ f /\ fields f hs.
