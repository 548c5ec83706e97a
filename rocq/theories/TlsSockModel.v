(** Model of reading from and writing to a TLS socket, proxy/common/src/tls_sock.c
    514-677.  The results of gnutls_record_recv, gnutls_record_send, tls_sock_handshake
    and select are given as a list of events, one for each round of the loops in
    tls_sock_read and tls_sock_write; a function that is left without events has not
    returned and gives [OutOfFuel].  No proofs in this file. *)
From Verif Require Import Base.

(** sock.h 40-54. *)
Definition SOCK_OK : Z := 0.
Definition SOCK_INTR : Z := -1.
Definition SOCK_TIMEOUT : Z := -2.
Definition SOCK_READ_ERROR : Z := -13.
Definition SOCK_WRITE_ERROR : Z := -14.

(** select: readiness, 0, or -1 with errno EINTR or another one. *)
Inductive sel := SelReady | SelTimeout | SelIntr | SelError.

(** A round: gnutls_record_recv or gnutls_record_send processes up to [k] bytes (0: the
    connection is closed); GNUTLS_E_INTERRUPTED; GNUTLS_E_AGAIN and then select;
    GNUTLS_E_REHANDSHAKE, and if it is handled the result of tls_sock_handshake and then
    select; or another error. *)
Inductive tev :=
| TNum (k : N)
| TIntr
| TAgain (s : sel)
| TRehandshake (h : Z) (s : sel)
| TError.

(** The conversion of a size_t to ssize_t. *)
Definition ssize (n : N) : Z := if n <? 2 ^ 63 then Z.of_N n else (Z.of_N n - 2 ^ 64)%Z.

(** What follows select in both functions: [None] to go on. *)
Definition after_select (s : sel) (err : Z) : option Z :=
  match s with
  | SelReady => None
  | SelTimeout => Some SOCK_TIMEOUT
  | SelIntr => Some SOCK_INTR
  | SelError => Some err
  end.

(** tls_sock_write, tls_sock.c 613-656.  [buf] is the memory at the pointer, of which
    [len] bytes are given.  The result: the bytes accepted, the events left, the value
    returned. *)
Fixpoint tls_sock_write (evs : list tev) (buf : list N) (len : N) : list N * list tev * res Z :=
  match evs with
  | [] => ([], [], OutOfFuel)
  | e :: evs =>
    match e with
    | TNum k =>
      if lenN buf <? len then ([], evs, UB OobRead) else
      let n := N.min k len in (firstn (N.to_nat n) buf, evs, Ok (Z.of_N n))
    | TIntr => ([], evs, Ok SOCK_INTR)
    | TAgain s =>
      match after_select s SOCK_WRITE_ERROR with
      | Some r => ([], evs, Ok r)
      | None => tls_sock_write evs buf len
      end
    | TRehandshake _ _ | TError => ([], evs, Ok SOCK_WRITE_ERROR)
    end
  end.

(** The loop of tls_sock_write_full, tls_sock.c 662-677.  [fuel] bounds the rounds;
    each uses an event. *)
Fixpoint write_full_loop (fuel : nat) (evs : list tev) (buf : list N) (len total : N) : list N * list tev * res Z :=
  if negb (total <? len) then ([], evs, Ok (ssize total)) else
  match fuel with
  | O => ([], evs, OutOfFuel)
  | S fuel =>
    let '(out, evs, r) := tls_sock_write evs (skipn (N.to_nat total) buf) (len - total) in
    match r with
    | Ok num =>
      if (num <=? 0)%Z then (out, evs, Ok num) else
      let '(out', evs, r) := write_full_loop fuel evs buf len (add64 total (Z.to_N num)) in (out ++ out', evs, r)
    | _ => (out, evs, r)
    end
  end.
Definition tls_sock_write_full (evs : list tev) (buf : list N) (len : N) : list N * list tev * res Z :=
  write_full_loop (S (length evs)) evs buf len 0.

(** tls_sock_read, tls_sock.c 518-583.  [inp]: the bytes that the peer has sent and that
    have not been read; [buf]: the memory at the pointer.  The result: the bytes not
    read, the memory, the events left, the value returned. *)
Fixpoint tls_sock_read (evs : list tev) (inp buf : list N) (len : N) : list N * list N * list tev * res Z :=
  match evs with
  | [] => (inp, buf, [], OutOfFuel)
  | e :: evs =>
    let wait s := match after_select s SOCK_READ_ERROR with
                  | Some r => (inp, buf, evs, Ok r)
                  | None => tls_sock_read evs inp buf len
                  end in
    match e with
    | TNum k =>
      let n := N.min (N.min k len) (lenN inp) in
      if lenN buf <? n then (inp, buf, evs, UB OobWrite) else
      (skipn (N.to_nat n) inp, firstn (N.to_nat n) inp ++ skipn (N.to_nat n) buf, evs, Ok (Z.of_N n))
    | TIntr => (inp, buf, evs, Ok SOCK_INTR)
    | TAgain s => wait s
    | TRehandshake h s => if (h =? SOCK_OK)%Z then wait s else (inp, buf, evs, Ok h)
    | TError => (inp, buf, evs, Ok SOCK_READ_ERROR)
    end
  end.

(** The loop of tls_sock_read_full, tls_sock.c 589-604. *)
Fixpoint read_full_loop (fuel : nat) (evs : list tev) (inp buf : list N) (len total : N) : list N * list N * list tev * res Z :=
  if negb (total <? len) then (inp, buf, evs, Ok (ssize total)) else
  match fuel with
  | O => (inp, buf, evs, OutOfFuel)
  | S fuel =>
    let '(inp, part, evs, r) := tls_sock_read evs inp (skipn (N.to_nat total) buf) (len - total) in
    let buf := firstn (N.to_nat total) buf ++ part in
    match r with
    | Ok num =>
      if (num <=? 0)%Z then (inp, buf, evs, Ok num) else read_full_loop fuel evs inp buf len (add64 total (Z.to_N num))
    | _ => (inp, buf, evs, r)
    end
  end.
Definition tls_sock_read_full (evs : list tev) (inp buf : list N) (len : N) : list N * list N * list tev * res Z :=
  read_full_loop (S (length evs)) evs inp buf len 0.
