(** Small specification for the time client.  No proofs in this file. *)
From Verif Require Import Base MsgModel MsgSpec TableSpec ServerSpec ServerBlockSpec TimeSpec.

(** A GET for "/time", to be acknowledged, without payload. *)
Definition is_time_request (m : msg) : Prop :=
  m_ver m = 1 /\ m_type m = 0 /\ m_class m = 0 /\ m_detail m = 1 /\ until_nul (req_path m) = time_uri /\ m_payload m = [].

(** A response with the time: 2.05 with the path "/time" and a payload that fits [len]
    bytes with a NUL. *)
Definition has_time (len : N) (m : msg) : bool :=
  (m_ver m =? 1) && (m_class m =? 2) && (m_detail m =? 5) &&
  (lenN (req_path m) <? 32) && key_eqb (until_nul (req_path m)) time_uri && (lenN (m_payload m) <? len).
