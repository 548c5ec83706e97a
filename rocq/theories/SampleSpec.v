(** Small specification for the sample applications.  No proofs in this file. *)
From Verif Require Import Base.

(** The contents of a file that held [file], after [bodies] have been written to it
    one after the other, each replacing the one before.  [F n] is the outcome of the
    [n]-th attempt: the file could not be opened, or up to so many bytes could be
    written. *)
Fixpoint saved (F : nat -> option N) (n : nat) (file : option (list N)) (bodies : list (list N)) : option (list N) :=
  match bodies with
  | [] => file
  | b :: bodies =>
    saved F (S n) (match F n with None => file | Some k => Some (firstn (N.to_nat k) b) end) bodies
  end.

(** The path "/client/transfer". *)
Definition transfer_uri : list N := [47; 99; 108; 105; 101; 110; 116; 47; 116; 114; 97; 110; 115; 102; 101; 114].
