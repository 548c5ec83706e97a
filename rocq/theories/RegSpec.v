(** Small specification for the registration server.  No proofs in this file. *)
From Verif Require Import Base MsgModel MsgSpec TableModel TableSpec ServerModel ServerSpec ServerBlockSpec.

(** The requests passed to the application, with their clients. *)
Fixpoint handled (tr : list sobs) : list (N * msg) :=
  match tr with
  | [] => []
  | SHandle c m :: tr => (c, m) :: handled tr
  | _ :: tr => handled tr
  end.

(** The path "/client/id". *)
Definition id_uri : list N := [47; 99; 108; 105; 101; 110; 116; 47; 105; 100].

(** What a request registers: a POST to the path with a payload of 1 to 31 bytes
    registers the payload, up to a NUL, with the address of the client. *)
Definition registers (addr : N -> option (list N)) (x : N * msg) : option (list N * list N) :=
  let (c, m) := x in
  if (m_ver m =? 1) && (m_detail m =? 2) && (lenN (req_path m) <? 32) && key_eqb (until_nul (req_path m)) id_uri
     && (1 <=? lenN (m_payload m)) && (lenN (m_payload m) <=? 31)
  then match addr c with Some a => Some (until_nul (m_payload m), a) | None => None end
  else None.

(** The table after these requests.  A new identifier needs memory, which the [n]-th
    request gets or not. *)
Fixpoint directory (addr : N -> option (list N)) (mem : nat -> bool) (n : nat) (t : table) (reqs : list (N * msg)) : table :=
  match reqs with
  | [] => t
  | x :: reqs =>
    directory addr mem (S n)
      (match registers addr x with
       | Some (i, a) => if has_id i t || mem n then TableSpec.set_id i a t else t
       | None => t
       end) reqs
  end.
