(** Small specification for the transfers between the two libraries: what a request
    and the answering application have to look like.  No proofs in this file. *)
From Verif Require Import Base MsgModel MsgSpec ClientModel ClientSpec ServerModel ServerSpec ServerBlockSpec.

(** Options that fit into every message of a transfer: neither is a Block option,
    the numbers are at most 140 (so no build reads an extension byte as negative), and
    together with three bytes for each they take at most 100 bytes. *)
Definition room (l : list op) : N := fold_right (fun o n => 3 + o_len o + n) 0 l.
Definition plain (l : list op) : Prop :=
  Forall (fun o => o_num o <= 140 /\ o_num o <> OP_BLOCK1 /\ o_num o <> OP_BLOCK2) l /\ room l <= 100.

(** The message ID of a request whose first two random bytes are those at [n]; the
    exchange of a confirmable request takes seven random values: two for the message
    ID, four for the token and one for the timer. *)
Definition req_id (E : env) (n : nat) : N := 256 * (e_rand E (S n) mod 256) + e_rand E n mod 256.
Definition id_no (E : env) (n k : nat) : N := req_id E (n + 7 * k).

(** The sizes a Block option can say. *)
Definition block_size (s : N) : Prop := In s [16; 32; 64; 128; 256; 512; 1024].

(** Neither library meets a failure of the operating system. *)
Definition no_failures (Ec : env) (Es : senv) : Prop :=
  (forall n, e_send Ec n = None) /\
  (forall n, se_send Es n = None) /\ (forall n, se_create Es n = None) /\
  (forall n, se_copy Es n = true) /\ (forall n, se_large Es n = true).

(** No transfer with client [c] is under way. *)
Definition idle {A} (v : @srv A) (c : N) : Prop :=
  forall t, In t (v_tr v) -> t_active t = true -> t_client t = c -> t_type t = TRegular.

(** A request that the server answers itself, at once. *)
Definition direct (C : scfg) (req : msg) : Prop :=
  acceptable (sc_proxy C) req /\
  forall p, In p (sc_sep C) -> until_nul p <> until_nul (req_path req).

(** The parts of a request that an application looks at. *)
Definition asks (req m : msg) : Prop :=
  m_class m = m_class req /\ m_detail m = m_detail req /\ m_ver m = 1 /\
  forall n, n <> OP_BLOCK1 -> n <> OP_BLOCK2 -> with_num n (m_ops m) = with_num n (m_ops req).

(** The calls with which an application states that it has taken a body: they set a
    success code of those the client takes for one and leave the payload. *)
Definition accepts (l : list setter) : Prop :=
  forall m, let r := fold_left run_setter l m in
  m_class r = 2 /\ (m_detail r = 1 \/ m_detail r = 4) /\ m_payload r = m_payload m.

(** What the application does with an uploaded body: whenever its callback [rx] is
    given a large buffer that begins with [body], it makes the calls [l] on the response
    and leaves [rbody] at the beginning of the buffer as the body of the response. *)
Definition takes {A} (P : app A) (C : scfg) (req : msg) (a : A) (rx : N) (body : list N) (l : list setter) (rbody : list N) : Prop :=
  forall m buf, asks req m -> firstn (length body) buf = body -> lenN buf = sc_large C -> bytes_ok buf ->
  exists a' buf', ap_rx P rx a buf (lenN body) m = (a', RxDone l buf' (lenN rbody)) /\
    firstn (length rbody) buf' = rbody /\ lenN rbody <= lenN buf' /\ lenN buf' = sc_large C.

(** A client in state [s] uploads [body] with request [req] to a server in state [v];
    the application answers each block with the calls [l0], and at the end makes the
    calls [l] as well and returns [rbody].  [fuel] bounds the number of rounds in each
    direction. *)
Record uploading {A} (P : app A) (Ec : env) (Cc : cfg) (Es : senv) (Cs : scfg) (c : N) (s : cst) (v : @srv A) (req : msg)
    (l0 l : list setter) (s1 s2 : N) (body rbody : list N) (size1 size2 : N) (fuel : nat) : Prop := {
  (* the world *)
  ul_os : no_failures Ec Es;
  ul_reach : reachable P Es Cs v;
  ul_idle : idle v c;
  (* the request, a confirmable PUT or POST *)
  ul_type : m_type req = 0 /\ m_class req = 0 /\ (m_detail req = 2 \/ m_detail req = 3);
  ul_opts : plain (m_ops req) /\ lenN (m_payload req) <= 1024 /\ direct Cs req;
  (* the application *)
  ul_app : exists hb bl rx, bl <= sc_large Cs /\
    forall m, asks req m ->
      exists a, ap_handle P (v_app v) c m = (a, HBlock l0 s1 s2 hb bl (Some rx)) /\ takes P Cs req a rx body l rbody;
  ul_calls : Forall setter_ok (l0 ++ l) /\ m_payload (msg_build l0) = [] /\ accepts l;
  ul_answer : plain (m_ops (msg_build (l0 ++ l))) /\ acceptable (cf_proxy Cc) (msg_build (l0 ++ l));
  (* sizes *)
  ul_sizes : block_size s1 /\ (s2 = 0 \/ block_size s2) /\ block_size size1 /\ block_size size2;
  ul_body : bytes_ok body /\ body <> [] /\ lenN body <= sc_large Cs /\ lenN body < 2 ^ 20 * N.min s1 size1;
  ul_rbody : rbody = [] \/
    bytes_ok rbody /\ block_size s2 /\ lenN rbody <= lenN body /\ lenN rbody < 2 ^ 20 * N.min s2 size2;
  ul_large : sc_large Cs < 2 ^ 63;
  ul_fuel : lenN body / 16 < N.of_nat fuel;
  (* the message IDs *)
  ul_fresh : fresh_id c (id_no Ec (c_nrand s) 0) (v_trace v);
  ul_ids : forall k, (k < 2 * fuel)%nat -> id_no Ec (c_nrand s) k <> id_no Ec (c_nrand s) (S k)
}.
