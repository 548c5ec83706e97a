(** Specification of the client, independent of the functions of the model:
    predicates on the history of observations at its descriptors and on the
    list of messages exchanged in a blockwise transfer. *)
From Verif Require Import Base MsgModel MsgSpec ClientModel.

(** ** Histories *)

Definition oc_state (o : oc) : cst := match o with Done s _ _ => s | Waiting s => s end.
(** The history of one exchange, for a client that starts with an empty one. *)
Definition history (o : oc) : list obs := c_trace (oc_state o).

Definition obs_time (o : obs) : N :=
  match o with
  | OSend t _ _ => t | OArm t _ _ _ => t | ORecv t _ => t | OTimer t => t | OErr t _ => t
  end.

(** Message type of a datagram: bits 4 and 5 of its first byte (RFC 7252,
    section 3). *)
Definition dgram_type (b : list N) : N := (nth 0 b 0 / 16) mod 4.

(** Message ID and token of a datagram. *)
Definition dgram_id (b : list N) : N := 256 * nth 2 b 0 + nth 3 b 0.
Definition dgram_token (b : list N) : list N := firstn (N.to_nat (nth 0 b 0 mod 16)) (skipn 4 b).

(** The empty acknowledgement of message [i]. *)
Definition ack_dgram (i : N) : list N := [96; 0; i / 256; i mod 256].

(** [b] was received and is read as [m]: it arrived in the 1152-byte buffer of
    coap_client_recv and coap_msg_parse made [m] of it (what that means is the
    subject of C03). *)
Definition received (C : cfg) (b : list N) (m : msg) : Prop :=
  lenN b <= 1152 /\
  msg_parse (cf_sg C) (b ++ repeat 0 (N.to_nat (1152 - lenN b))) (lenN b) = Ok m.

(** Every option that must be understood is one of those of RFC 7252 and RFC 7959:
    the critical ones (odd numbers), or for a proxy the unsafe ones (bit 1). *)
Definition acceptable (proxy : bool) (m : msg) : Prop :=
  forall o, In o (m_ops m) ->
  (if proxy then N.testbit (o_num o) 1 else N.odd (o_num o)) = true ->
  In (o_num o) [1; 3; 4; 5; 7; 8; 11; 12; 14; 15; 17; 20; 23; 27; 28; 35; 39; 60].

(** The datagrams of type [ty] that were sent, with their times. *)
Fixpoint sent (ty : N) (tr : list obs) : list (N * list N) :=
  match tr with
  | [] => []
  | OSend t b _ :: tr => if dgram_type b =? ty then (t, b) :: sent ty tr else sent ty tr
  | _ :: tr => sent ty tr
  end.

(** The durations the timer was armed with, in nanoseconds. *)
Fixpoint armed (tr : list obs) : list N :=
  match tr with
  | [] => []
  | OArm _ sec nsec _ :: tr => (1000000000 * sec + nsec) :: armed tr
  | _ :: tr => armed tr
  end.

(** Every acknowledgement and every reset that was sent is empty, follows directly
    on the receipt of a confirmable message, and carries its message ID. *)
Definition replies_ok (tr : list obs) : Prop :=
  forall tr1 t b ok tr2, tr = tr1 ++ OSend t b ok :: tr2 ->
  dgram_type b = T_ACK \/ dgram_type b = T_RST ->
  exists tr0 t' d, tr1 = tr0 ++ [ORecv t' d] /\ dgram_type d = T_CON /\
    b = [64 + 16 * dgram_type b; 0; nth 2 d 0; nth 3 d 0].

(** ** The timer

    What the operating system guarantees: the timer is seen to have expired only
    after the time it was last armed for.  [d] is the deadline in force. *)
Fixpoint timer_law (d : option N) (tr : list obs) : Prop :=
  match tr with
  | [] => True
  | OArm t sec nsec true :: tr => timer_law (Some (t + (1000000000 * sec + nsec))) tr
  | OTimer t :: tr =>
    match d with Some d' => d' <= t | None => False end /\ timer_law d tr
  | _ :: tr => timer_law d tr
  end.

(** Times between transmissions: the next one is no earlier than the wait,
    which doubles each time. *)
Fixpoint spaced (wait : N) (ts : list N) : Prop :=
  match ts with
  | t1 :: ((t2 :: _) as ts') => t1 + wait <= t2 /\ spaced (2 * wait) ts'
  | _ => True
  end.

(** [w], [2 w], [4 w], ...: the first [k] waits. *)
Fixpoint waits (w : N) (k : nat) : list N :=
  match k with O => [] | S k => w :: waits (2 * w) k end.

Definition ends_with_timer (tr : list obs) : Prop := exists tr' t, tr = tr' ++ [OTimer t].

(** ** Liveness of the environment

    [prompt eps d now tr]: select returns at most [eps] after something is ready.
    So once the deadline [d] has passed it returns within [eps]; the socket may
    then be readable too. *)
Fixpoint prompt (eps : N) (d : option N) (now : N) (tr : list obs) : Prop :=
  match tr with
  | [] => True
  | OArm t sec nsec true :: tr => prompt eps (Some (t + (1000000000 * sec + nsec))) now tr
  | ORecv t _ :: tr | OTimer t :: tr | OErr t _ :: tr =>
    now <= t /\
    match d with Some d' => t <= N.max now d' + eps | None => True end /\
    prompt eps d t tr
  | _ :: tr => prompt eps d now tr
  end.

(** No starvation: once the deadline has passed the socket is not readable, so
    that the timer is noticed; and the timer could be armed. *)
Fixpoint unstarved (d : option N) (tr : list obs) : Prop :=
  match tr with
  | [] => True
  | OArm t sec nsec ok :: tr => ok = true /\ unstarved (Some (t + (1000000000 * sec + nsec))) tr
  | ORecv t _ :: tr | OErr t _ :: tr =>
    match d with Some d' => t < d' | None => True end /\ unstarved d tr
  | _ :: tr => unstarved d tr
  end.

(** ** Blockwise transfers *)

(** The messages exchanged so far, each with what the exchange gave. *)
Definition exchanges := list (msg * res msg).

(** An arbitrary server (and network): what an exchange gives, as a function of
    everything before and of the request. *)
Definition server := exchanges -> msg -> res msg.
Definition server_exch (f : server) (h : exchanges) (m : msg) : exchanges * res msg :=
  (h ++ [(m, f h m)], f h m).

(** Responses are messages that came out of the parser: option values are
    bytes, the payload was in one datagram. *)
Definition resp_ok (resp : msg) : Prop :=
  Forall (fun o => bytes_ok (o_val o)) (m_ops resp) /\ lenN (m_payload resp) < two32.
Definition server_ok (f : server) : Prop := forall h m resp, f h m = Ok resp -> resp_ok resp.

(** Apart from the block options [m] asks for the same as [req]. *)
Definition same_request (req m : msg) : Prop :=
  m_type m = m_type req /\ m_class m = m_class req /\ m_detail m = m_detail req /\
  forall n, n <> OP_BLOCK1 -> n <> OP_BLOCK2 -> with_num n (m_ops m) = with_num n (m_ops req).

(** The last exchange in a list gave [r]. *)
Definition ended {A} (h : exchanges) (r : res A) : Prop :=
  exists h0 m, match r with
               | Ok _ => False
               | Err e => h = h0 ++ [(m, Err e)]
               | UB u => h = h0 ++ [(m, UB u)]
               | OutOfFuel => h = h0 ++ [(m, OutOfFuel)]
               end.

(** Message [m] has exactly one option [num]; it is a block option (RFC 7959,
    section 2.2) for the [len]-byte block at [off]. *)
Definition has_block (num : N) (m : msg) (off : N) (more : bool) : Prop :=
  exists v n size, with_num num (m_ops m) = [mkop num v] /\
                   block_value (be_val v) (mkblk n more size) /\ n * size = off.

(** Requests of an upload, from position [off] on: contiguous blocks; the more
    flag is set in all but the last. *)
Fixpoint upload_from (off : N) (l : list msg) : Prop :=
  match l with
  | [] => True
  | m :: l' =>
    has_block OP_BLOCK1 m off (match l' with [] => false | _ => true end) /\
    upload_from (off + lenN (m_payload m)) l'
  end.

(** Responses of a download, from position [off] on. *)
Definition first_block (num : N) (m : msg) (off size0 : N) (more : bool) (size : N) : Prop :=
  exists v n l1 l2, m_ops m = l1 ++ mkop num v :: l2 /\ with_num num l1 = [] /\
    exists size', block_value (be_val (firstn 3 v)) (mkblk n more size') /\
    size = N.min size0 size' /\ n * size = off.
Fixpoint download_from (off size0 : N) (l : list msg) : Prop :=
  match l with
  | [] => True
  | m :: l' =>
    exists size,
    first_block OP_BLOCK2 m off size0 (match l' with [] => false | _ => true end) size /\
    lenN (m_payload m) <= size /\
    (l' <> [] -> lenN (m_payload m) = size) /\
    download_from (off + lenN (m_payload m)) size l'
  end.

(** The responses in a list of exchanges. *)
Fixpoint responses (h : exchanges) : list msg :=
  match h with
  | [] => []
  | (_, Ok m) :: h => m :: responses h
  | _ :: h => responses h
  end.

(** The state after a list of exchanges. *)
Definition replay {St} (exch : St -> msg -> St * res msg) (st : St) (h : exchanges) : St :=
  fold_left (fun st p => fst (exch st (fst p))) h st.

(** The exchanges [h] happened, one after the other, and led from [st] to
    [st']. *)
Inductive performed {St} (exch : St -> msg -> St * res msg) : St -> exchanges -> St -> Prop :=
| pf_nil st : performed exch st [] st
| pf_cons st m st1 r h st' :
    exch st m = (st1, r) -> performed exch st1 h st' -> performed exch st ((m, r) :: h) st'.

(** The exchange function [exch] with a record of the messages it was handed and
    of what it gave.  Running a transfer with it gives the list of exchanges that
    were performed; that it changes nothing else is C24_recording and
    C25_recording. *)
Definition recording {St} (exch : St -> msg -> St * res msg) (st : St * exchanges) (m : msg)
  : (St * exchanges) * res msg :=
  let (s, r) := exch (fst st) m in ((s, snd st ++ [(m, r)]), r).

(** Everything that will be received consists of bytes. *)
Definition events_ok (evs : list event) : Prop :=
  forall t b, In (t, SelRx (RxData b)) evs -> bytes_ok b.

(** The responses a download is made of: the one that is there already, if any,
    and those to the requests [h]. *)
Definition download_responses (have : option msg) (h : exchanges) : list msg :=
  match have with Some r => r :: responses h | None => responses h end.
