(** Small specification for TLS sockets.  No proofs in this file. *)
From Verif Require Import Base TlsSockModel.

(** Which events end writing, and with which value (0: the connection is closed; -1:
    interrupted; -2: timeout; -14: write error). *)
Definition ends_write (e : tev) (z : Z) : Prop :=
  match e with
  | TNum k => k = 0 /\ z = 0%Z
  | TIntr | TAgain SelIntr => z = (-1)%Z
  | TAgain SelTimeout => z = (-2)%Z
  | TAgain SelError | TRehandshake _ _ | TError => z = (-14)%Z
  | TAgain SelReady => False
  end.

(** Which events end reading, and with which value, when the bytes [left] have not been
    read (-13: read error). *)
Definition ends_read (left : list N) (e : tev) (z : Z) : Prop :=
  match e with
  | TNum k => (k = 0 \/ left = []) /\ z = 0%Z
  | TIntr => z = (-1)%Z
  | TError => z = (-13)%Z
  | TRehandshake h SelReady => h <> 0%Z /\ z = h
  | TAgain SelReady => False
  | TRehandshake h SelTimeout => z = if (h =? 0)%Z then (-2)%Z else h
  | TRehandshake h SelIntr => z = if (h =? 0)%Z then (-1)%Z else h
  | TRehandshake h SelError => z = if (h =? 0)%Z then (-13)%Z else h
  | TAgain SelTimeout => z = (-2)%Z
  | TAgain SelIntr => z = (-1)%Z
  | TAgain SelError => z = (-13)%Z
  end.

(** After which events writing and reading go on. *)
Definition goes_on_writing (e : tev) : Prop :=
  match e with TNum k => 0 < k | TAgain SelReady => True | _ => False end.
Definition goes_on_reading (e : tev) : Prop :=
  match e with TNum k => 0 < k | TAgain SelReady => True | TRehandshake h SelReady => h = 0%Z | _ => False end.

(** tls_sock_handshake returns 0 or a negative number (tls_sock.c 267-314). *)
Definition handshake_ok (e : tev) : Prop := match e with TRehandshake h _ => (h <= 0)%Z | _ => True end.
