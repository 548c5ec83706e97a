(** Specification of the server, independent of the functions of the model:
    predicates on the history of its observations. *)
From Verif Require Import Base MsgModel MsgSpec ClientModel ClientSpec ServerModel.

(** ** Runs *)

(** Datagrams are made of bytes. *)
Definition sev_ok (e : sev) : Prop := match e with EvRx _ b _ => bytes_ok b | _ => True end.

(** The server is in state [v] after some events, and still running. *)
Definition reachable {A} (P : app A) (E : senv) (C : scfg) (v : @srv A) : Prop :=
  exists id a evs, id <= 65535 /\ Forall sev_ok evs /\
    server_run P E C (server_init id a) evs = (v, None).

(** From a reachable state [v] the event [e] leads to [v']; [r] tells whether the
    server goes on; [s] was observed meanwhile. *)
Definition step {A} (P : app A) (E : senv) (C : scfg) (v : @srv A) (e : sev)
           (v' : @srv A) (r : option (res unit)) (s : list sobs) : Prop :=
  reachable P E C v /\ sev_ok e /\ server_step P E C v e = (v', r) /\ v_trace v' = v_trace v ++ s.

(** [b] was received by the server and is read as [m]. *)
Definition reads (C : scfg) (b : list N) (m : msg) : Prop :=
  lenN b <= 1152 /\
  msg_parse (sc_sg C) (b ++ repeat 0 (N.to_nat (1152 - lenN b))) (lenN b) = Ok m.

(** ** Histories *)

(** The client an observation is about. *)
Definition client_of (o : sobs) : option N :=
  match o with
  | SSend c _ _ | SRecv c _ | SArm c _ _ _ | SStop c _ | STimer c | SHandle c _ | SCall c _ | SBody c _
  | SUse c _ | SCreate c | SDestroy c => Some c
  | SNewId _ => None
  end.

(** The clients that have a transaction. *)
Definition live_obs (l : list N) (o : sobs) : list N :=
  match o with
  | SCreate c => c :: l
  | SDestroy c => remove N.eq_dec c l
  | _ => l
  end.
Definition live (tr : list sobs) : list N := fold_left live_obs tr [].

(** Everything that happens, happens in a transaction; a transaction is created
    only for a client without one and when there are less than eight. *)
Definition lived (tr : list sobs) : Prop :=
  forall tr1 o tr2, tr = tr1 ++ o :: tr2 ->
  match o with
  | SCreate c => ~ In c (live tr1) /\ (length (live tr1) < 8)%nat
  | SNewId _ => True
  | _ => forall c, client_of o = Some c -> In c (live tr1)
  end.

(** The time of the last use of the transaction of [c]. *)
Definition last_use_obs (c : N) (u : option N) (o : sobs) : option N :=
  match o with
  | SUse c' t => if c' =? c then Some t else u
  | SDestroy c' => if c' =? c then None else u
  | _ => u
  end.
Definition last_use (c : N) (tr : list sobs) : option N := fold_left (last_use_obs c) tr None.

(** A use is noted whenever a transaction is created, a message received in it and
    read, or a datagram sent, and never otherwise. *)
Inductive marked (C : scfg) : list sobs -> Prop :=
| mk_nil : marked C []
| mk_create c t s : marked C s -> marked C (SCreate c :: SUse c t :: s)
| mk_recv c d m t s : reads C d m -> marked C s -> marked C (SRecv c d :: SUse c t :: s)
| mk_send c b t s : marked C s -> marked C (SSend c b true :: SUse c t :: s)
| mk_unread c d s : (forall m, ~ reads C d m) -> marked C s -> marked C (SRecv c d :: s)
| mk_other o s :
    match o with SCreate _ | SRecv _ _ | SSend _ _ true | SUse _ _ => False | _ => True end ->
    marked C s -> marked C (o :: s).

(** The message ID that the transaction of [c] takes for that of its last request:
    0 after its creation. *)
Definition last_id_obs (c : N) (u : option N) (o : sobs) : option N :=
  match o with
  | SCreate c' => if c' =? c then Some 0 else u
  | SDestroy c' => if c' =? c then None else u
  | SRecv c' d => if (c' =? c) && (dgram_type d <=? 1) then Some (dgram_id d) else u
  | _ => u
  end.
Definition last_id (c : N) (tr : list sobs) : option N := fold_left (last_id_obs c) tr None.

(** [i] is not the message ID of the last request in the transaction of [c], and not
    0 if there has been none. *)
Definition fresh_id (c i : N) (tr : list sobs) : Prop :=
  match last_id c tr with Some j => i <> j | None => i <> 0 end.

(** In [s] the transaction of [c] is not destroyed, and of the messages of [c] that
    may be requests all have message ID [i]. *)
Definition steady (c i : N) (s : list sobs) : Prop :=
  ~ In (SDestroy c) s /\ forall d, In (SRecv c d) s -> dgram_type d <= 1 -> dgram_id d = i.

(** The datagrams sent, or tried to. *)
Fixpoint sends (tr : list sobs) : list (N * list N) :=
  match tr with
  | [] => []
  | SSend c b _ :: tr => (c, b) :: sends tr
  | _ :: tr => sends tr
  end.

(** The requests passed to the handler; the bodies passed to a receive callback. *)
Fixpoint handled (tr : list sobs) : list (N * msg) :=
  match tr with
  | [] => []
  | SHandle c m :: tr => (c, m) :: handled tr
  | _ :: tr => handled tr
  end.
Fixpoint calls (tr : list sobs) : list (N * list N) :=
  match tr with
  | [] => []
  | SCall c b :: tr => (c, b) :: calls tr
  | _ :: tr => calls tr
  end.

(** The message IDs generated. *)
Fixpoint new_ids (tr : list sobs) : list N :=
  match tr with
  | [] => []
  | SNewId i :: tr => i :: new_ids tr
  | _ :: tr => new_ids tr
  end.

(** The empty reset of message [i]. *)
Definition rst_dgram (i : N) : list N := [112; 0; i / 256; i mod 256].

(** Each is the one before plus 1, unless that was 65535. *)
Fixpoint consecutive (i : N) (l : list N) : Prop :=
  match l with
  | [] => True
  | j :: l => (i < 65535 -> j = i + 1) /\ j <= 65535 /\ consecutive j l
  end.

(** ** Responses *)

(** The datagrams of [s] are an answer to request [m] of client [c]: nothing, the
    transaction being destroyed; a non-confirmable response; an acknowledgement with
    the response; an empty acknowledgement, the transaction being destroyed; an empty
    acknowledgement and a confirmable response. *)
Inductive replied (c : N) (m : msg) (s : list sobs) : Prop :=
| rp_nothing : sends s = [] -> In (SDestroy c) s -> replied c m s
| rp_non b : m_type m = T_NON -> sends s = [(c, b)] -> dgram_type b = T_NON ->
    dgram_token b = m_token m -> new_ids s = [dgram_id b] -> replied c m s
| rp_piggybacked b : m_type m = T_CON -> sends s = [(c, b)] -> dgram_type b = T_ACK ->
    dgram_token b = m_token m -> dgram_id b = m_id m -> new_ids s = [] -> replied c m s
| rp_ack : m_type m = T_CON -> sends s = [(c, ack_dgram (m_id m))] -> In (SDestroy c) s -> replied c m s
| rp_separate b : m_type m = T_CON -> sends s = [(c, ack_dgram (m_id m)); (c, b)] -> dgram_type b = T_CON ->
    dgram_token b = m_token m -> new_ids s = [dgram_id b] -> replied c m s.

(** ** Timers *)

(** What the expiry of timers leads to: the transaction ends, or the timer is set
    again and one datagram sent to its client.  [stop]: the server could not set
    the timer or not send. *)
Inductive timer_round : bool -> list sobs -> Prop :=
| tr_done : timer_round false []
| tr_end c b s : timer_round b s -> timer_round b (STimer c :: SDestroy c :: s)
| tr_again c sec nsec d t b s : timer_round b s ->
    timer_round b (STimer c :: SArm c sec nsec true :: SSend c d true :: SUse c t :: s)
| tr_noset c sec nsec : timer_round true [STimer c; SArm c sec nsec false]
| tr_noset_end c sec nsec b s : timer_round b s ->
    timer_round b (STimer c :: SArm c sec nsec false :: SDestroy c :: s)
| tr_nosend c sec nsec d : timer_round true [STimer c; SArm c sec nsec true; SSend c d false].

(** How often the timer of [c] expired; how long it was set, in nanoseconds. *)
Fixpoint expiries (c : N) (tr : list sobs) : nat :=
  match tr with
  | [] => 0
  | STimer c' :: tr => if c' =? c then S (expiries c tr) else expiries c tr
  | _ :: tr => expiries c tr
  end.
Fixpoint settings (c : N) (tr : list sobs) : list N :=
  match tr with
  | [] => []
  | SArm c' sec nsec _ :: tr =>
    if c' =? c then (1000000000 * sec + nsec) :: settings c tr else settings c tr
  | _ :: tr => settings c tr
  end.

(** [h] ends with a confirmable message to [c] that was sent and what came after:
    since then no acknowledgement or reset of [c] was received, the timer was not
    stopped and the transaction not destroyed. *)
Definition awaiting (c : N) (h h0 : list sobs) (b : list N) (since : list sobs) : Prop :=
  h = h0 ++ SSend c b true :: since /\ dgram_type b = T_CON /\
  (forall d, In (SRecv c d) since -> dgram_type d <= 1) /\
  ~ In (SStop c true) since /\ ~ In (SDestroy c) since.

(** A message of [c] that could be a request, with another message ID than the last
    one in [h0], was received in [since]. *)
Definition superseded (c : N) (h0 since : list sobs) : Prop :=
  exists d, In (SRecv c d) since /\ dgram_type d <= 1 /\ last_id c h0 <> Some (dgram_id d).

(** ** Paths *)

(** The path of a request; that of the root is a slash. *)
Definition req_path (m : msg) : list N :=
  match path_bytes (m_ops m) with [] => [47] | p => p end.

(** The request is for one of the separate-response resources. *)
Definition registered (C : scfg) (m : msg) : Prop := In (req_path m) (sc_sep C).
