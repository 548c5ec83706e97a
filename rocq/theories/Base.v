(** Base definitions shared by all models: bytes, fixed-width arithmetic and
    the result type.  These model C itself rather than a file of /repo:
    [unsigned] has 32 bits, [size_t] has 64 bits, [char] has 8 bits and its
    signedness is a parameter. *)
From Coq Require Export List NArith ZArith Bool.
Export ListNotations.
Open Scope N_scope.

(** ** Results *)

(** The errno values the modelled functions return (as [-E...] in C). *)
Inductive errno :=
| EINVAL | EBADMSG | ENOSPC | ENOMEM | EAGAIN | ETIMEDOUT | ECONNRESET
| EPROTO | EIO | EINTR | EOTHER.

(** Kinds of undefined behaviour. *)
Inductive ubkind :=
| OobRead        (* read outside an object *)
| OobWrite       (* write outside an object *)
| Uninit         (* use of an indeterminate value *)
| NullDeref      (* dereference of a null pointer *)
| UseAfterFree   (* access to an object whose lifetime has ended *)
| BadArith.      (* signed overflow, shift out of range *)

(** Outcome of a C function.  [OutOfFuel] marks a loop that did not finish
    within the fuel given to the model; it is not a value of the C function. *)
Inductive res (A : Type) :=
| Ok (a : A)
| Err (e : errno)
| UB (u : ubkind)
| OutOfFuel.
Arguments Ok {A} a.
Arguments Err {A} e.
Arguments UB {A} u.
Arguments OutOfFuel {A}.

Definition bind {A B} (r : res A) (f : A -> res B) : res B :=
  match r with
  | Ok a => f a
  | Err e => Err e
  | UB u => UB u
  | OutOfFuel => OutOfFuel
  end.
Notation "'let*' x ':=' r 'in' k" := (bind r (fun x => k))
  (at level 200, x pattern, r at level 100, k at level 200).

(** ** Bytes and memory *)

Definition byte_ok (b : N) : Prop := b < 256.
Definition bytes_ok (l : list N) : Prop := Forall byte_ok l.
Definition byte_okb (b : N) : bool := b <? 256.
Definition bytes_okb (l : list N) : bool := forallb byte_okb l.

(** Length of a list as a number. *)
Definition lenN {A} (l : list A) : N := N.of_nat (length l).

(** Read [p[i]], where [p] is the memory from the pointer to the end of the
    object it points into. *)
Definition rd (p : list N) (i : N) : res N :=
  if i <? lenN p then Ok (nth (N.to_nat i) p 0) else UB OobRead.

(** The first [n] bytes at [p] (source of a memcpy). *)
Definition rdn (p : list N) (n : N) : res (list N) :=
  if n <=? lenN p then Ok (firstn (N.to_nat n) p) else UB OobRead.

(** Advance a pointer by [n]; the result may be one past the end. *)
Definition adv (p : list N) (n : N) : res (list N) :=
  if n <=? lenN p then Ok (skipn (N.to_nat n) p) else UB OobRead.

(** ** Fixed-width arithmetic *)

Definition two8 : N := 256.
Definition two16 : N := 65536.
Definition two32 : N := 4294967296.
Definition two64 : N := 18446744073709551616.

Definition add32 (a b : N) : N := (a + b) mod two32.
Definition sub32 (a b : N) : N := (a + two32 - b mod two32) mod two32.
Definition add64 (a b : N) : N := (a + b) mod two64.
Definition sub64 (a b : N) : N := (a + two64 - b mod two64) mod two64.
Definition mul64 (a b : N) : N := (a * b) mod two64.

(** Signedness of plain [char]. *)
Inductive signedness := SignedChar | UnsignedChar.

(** Value of a [char] (given as its byte) converted to [unsigned]: integer
    promotion keeps the sign, conversion to unsigned is modulo 2^32. *)
Definition char_to_unsigned (sg : signedness) (b : N) : N :=
  match sg with
  | UnsignedChar => b
  | SignedChar => if b <? 128 then b else b + (two32 - 256)
  end.
