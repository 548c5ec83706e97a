(** Property theorems for reading from and writing to TLS sockets (C96 and C97).  The
    statements use [ends_write], [ends_read], [goes_on_writing], [goes_on_reading] and [handshake_ok] of TlsSockSpec.v. *)
From Verif Require Import Base BaseLemmas TlsSockModel TlsSockSpec TlsSockLemmas.

(** C96: tls_sock_write_full gives GnuTLS a beginning of the buffer, in order and each
    byte once.  It returns the length exactly if all has been accepted, and otherwise
    the value for the first event that ends writing (or has not returned, when there are
    no more events).  It reads nothing outside the buffer. *)
Theorem C96_write_full :
  forall evs buf len out evs' r, len <= lenN buf -> len < 2 ^ 63 ->
  tls_sock_write_full evs buf len = (out, evs', r) ->
  exists n, n <= len /\ out = firstn (N.to_nat n) buf /\
    (n = len /\ r = Ok (Z.of_N len) /\ (exists pre, evs = pre ++ evs' /\ Forall goes_on_writing pre) \/
     n < len /\ (exists pre e z, evs = pre ++ e :: evs' /\ r = Ok z /\ ends_write e z /\ Forall goes_on_writing pre) \/
     n < len /\ evs' = [] /\ r = OutOfFuel /\ Forall goes_on_writing evs).
Proof.
  intros evs buf len out evs' r Hl H63 H. apply write_loop in H; auto; try lia.
Qed.
Print Assumptions C96_write_full.

Example C96_example :
  tls_sock_write_full [TNum 2; TAgain SelReady; TNum 2; TNum 9; TError] [1; 2; 3; 4; 5; 6] 5 = ([1; 2; 3; 4; 5], [TError], Ok 5%Z) /\
  tls_sock_write_full [TNum 2; TAgain SelTimeout; TNum 2] [1; 2; 3; 4; 5; 6] 5 = ([1; 2], [TNum 2], Ok (-2)%Z).
Proof. split; reflexivity. Qed.

(** C97: tls_sock_read_full moves a beginning of what the peer has sent to the beginning
    of the buffer, in order and each byte once, and changes no other byte of it.  It
    returns the length exactly if the buffer is full, and otherwise the value for the
    first event that ends reading (or has not returned).  The hypothesis on the events:
    tls_sock_handshake returns no positive number. *)
Theorem C97_read_full :
  forall evs inp buf len inp' buf' evs' r, Forall handshake_ok evs -> len <= lenN buf -> len < 2 ^ 63 ->
  tls_sock_read_full evs inp buf len = (inp', buf', evs', r) ->
  exists n, n <= len /\ n <= lenN inp /\ inp' = skipn (N.to_nat n) inp /\ buf' = firstn (N.to_nat n) inp ++ skipn (N.to_nat n) buf /\
    (n = len /\ r = Ok (Z.of_N len) /\ (exists pre, evs = pre ++ evs' /\ Forall goes_on_reading pre) \/
     n < len /\ (exists pre e z, evs = pre ++ e :: evs' /\ r = Ok z /\ ends_read inp' e z /\ Forall goes_on_reading pre) \/
     n < len /\ evs' = [] /\ r = OutOfFuel /\ Forall goes_on_reading evs).
Proof.
  intros evs inp buf len inp' buf' evs' r Hh Hl H63 H. apply read_loop in H; auto; try lia.
Qed.
Print Assumptions C97_read_full.

Example C97_example :
  Forall handshake_ok [TNum 2; TRehandshake 0 SelReady; TNum 9; TRehandshake (-26) SelReady] /\
  tls_sock_read_full [TNum 2; TRehandshake 0 SelReady; TNum 9; TIntr] [1; 2; 3; 4; 5; 6; 7] [0; 0; 0; 0; 0; 9] 5 = ([6; 7], [1; 2; 3; 4; 5; 9], [TIntr], Ok 5%Z) /\
  tls_sock_read_full [TNum 2; TRehandshake (-26) SelReady; TNum 9] [1; 2; 3; 4; 5; 6; 7] [0; 0; 0; 0; 0; 9] 5 =
    ([3; 4; 5; 6; 7], [1; 2; 0; 0; 0; 9], [TNum 9], Ok (-26)%Z).
Proof. split; [repeat constructor; cbn; discriminate|]. split; reflexivity. Qed.
