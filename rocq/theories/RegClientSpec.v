(** Small specification for the registration client.  No proofs in this file. *)
From Verif Require Import Base MsgModel MsgSpec TableSpec ServerSpec ServerBlockSpec RegSpec.

(** A POST to "/client/id" with this payload, to be acknowledged. *)
Definition is_registration (payload : list N) (m : msg) : Prop :=
  m_ver m = 1 /\ m_type m = 0 /\ m_class m = 0 /\ m_detail m = 2 /\ until_nul (req_path m) = id_uri /\ m_payload m = payload.

(** A response that says that something has been registered: 2.01 or 2.04 with the path
    "/client/id" and a payload that fits [len] bytes with a NUL. *)
Definition says_registered (len : N) (m : msg) : bool :=
  (m_ver m =? 1) && (m_class m =? 2) && ((m_detail m =? 1) || (m_detail m =? 4)) &&
  (lenN (req_path m) <? 32) && key_eqb (until_nul (req_path m)) id_uri && (1 <=? lenN (m_payload m)) && (lenN (m_payload m) <? len).
