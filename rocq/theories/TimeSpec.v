(** Small specification for the time server.  No proofs in this file. *)
From Verif Require Import Base MsgModel MsgSpec ServerSpec ServerBlockSpec.

(** The path "/time". *)
Definition time_uri : list N := [47; 116; 105; 109; 101].

(** The first line of a text: what is before a newline. *)
Fixpoint first_line (l : list N) : list N :=
  match l with [] => [] | x :: l => if x =? 10 then [] else x :: first_line l end.
