(** Property theorems for the time client (C100).  The statements use
    [is_time_request] and [has_time] of TimeClientSpec.v. *)
From Verif Require Import Base BaseLemmas MsgModel MsgSpec TableSpec ClientModel ServerSpec ServerBlockSpec TimeSpec TimeClientModel TimeClientSpec TimeClientLemmas.

(** For the witness and the examples: an exchange that gives this response. *)
Definition tcresp (detail : N) (pl : list N) : msg := mkmsg 1 2 2 detail 77 [] [mkop 11 [116; 105; 109; 101]] pl.
Definition tcexch (resp : msg) (n : N) (req : msg) : N * res msg := (n + m_detail req, Ok resp).
Definition tcbuf : list N := [9; 9; 9; 9; 9; 9; 9].

(** C100: that time_client_get_time has defined behaviour whatever the server answers.
    False: a response 2.05 with the right path and without payload makes it call memcpy
    with a null pointer. *)
Theorem C100_defined_refuted :
  exists St (exch : St -> msg -> St * res msg) st buf len st' buf' resp req,
  len <= lenN buf /\ is_time_request req /\ exch st req = (st', Ok resp) /\
  time_client_get_time exch st buf len = (st', buf', UB NullDeref).
Proof.
  exists N, (tcexch (tcresp 5 [])), 10, tcbuf, 5, 11, tcbuf, (tcresp 5 []), time_client_request. vm_compute. repeat split; discriminate.
Qed.
Print Assumptions C100_defined_refuted.

(** C100, in part: time_client_get_time sends one request, a GET for "/time".  It
    succeeds exactly if the response has the time in a payload that is not empty; it then
    returns its length, and the buffer has the payload and zeros up to the given length.
    In all other cases but that of the witness it fails and leaves the buffer as it is.
    Nothing outside the buffer is written.  For every exchange function.
    Missing, as it is false (see above): responses with the time but without payload. *)
Theorem C100_get_time_partial :
  forall St (exch : St -> msg -> St * res msg) st buf len st' buf' r, len <= lenN buf ->
  time_client_get_time exch st buf len = (st', buf', r) ->
  exists req x, is_time_request req /\ exch st req = (st', x) /\
    match x with
    | Ok resp =>
      if has_time len resp then
        m_payload resp = [] \/
        r = Ok (lenN (m_payload resp)) /\
        buf' = m_payload resp ++ repeat 0 (N.to_nat (len - lenN (m_payload resp))) ++ skipn (N.to_nat len) buf
      else buf' = buf /\ exists e, r = Err e
    | Err e => buf' = buf /\ r = Err e
    | UB u => r = UB u
    | OutOfFuel => r = OutOfFuel
    end.
Proof.
  intros St exch st buf len st' buf' r Hl H. destruct (get_time_ok exch st buf len st' buf' r Hl H) as (req & x & H1 & H2 & H3).
  exists req, x. split; [exact H1|]. split; [exact H2|]. destruct x as [resp| | |]; auto. destruct (has_time len resp); [|exact H3].
  destruct H3 as [[H3 _]|(_ & H3 & H4)]; auto.
Qed.
Print Assumptions C100_get_time_partial.

Example C100_example :
  5 <= lenN tcbuf /\ has_time 5 (tcresp 5 [97; 98]) = true /\
  time_client_get_time (tcexch (tcresp 5 [97; 98])) 10 tcbuf 5 = (11, [97; 98; 0; 0; 0; 9; 9], Ok 2) /\
  time_client_get_time (tcexch (tcresp 4 [97; 98])) 10 tcbuf 5 = (11, tcbuf, Err EBADMSG) /\
  time_client_get_time (tcexch (tcresp 5 [97; 98; 1; 1; 1])) 10 tcbuf 5 = (11, tcbuf, Err ENOSPC).
Proof. repeat split; try reflexivity. vm_compute; discriminate. Qed.
