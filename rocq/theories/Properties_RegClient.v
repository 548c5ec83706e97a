(** Property theorem for the registration client (C99).  The statement uses
    [is_registration] and [says_registered] of RegClientSpec.v. *)
From Verif Require Import Base BaseLemmas MsgModel MsgSpec TableSpec ClientModel ServerSpec ServerBlockSpec RegSpec RegClientModel RegClientSpec RegClientLemmas.

(** C99: reg_client_register sends one request, a POST to "/client/id" with the string in
    the buffer.  It succeeds exactly if the response says that it is registered and has
    the payload "OK" (up to a NUL); it then returns the length of that payload.  The
    payload of a response that says so is stored in the buffer, with zeros up to its
    length; in all other cases the buffer is left as it is.  Nothing outside the buffer
    is read or written.  For every exchange function, so whatever the network does. *)
Theorem C99_register :
  forall St (exch : St -> msg -> St * res msg) st buf len st' buf' r, In 0 buf -> len <= lenN buf ->
  reg_client_register exch st buf len = (st', buf', r) ->
  exists req x, is_registration (until_nul buf) req /\ exch st req = (st', x) /\
    match x with
    | Ok resp =>
      if says_registered len resp then
        buf' = m_payload resp ++ repeat 0 (N.to_nat (len - lenN (m_payload resp))) ++ skipn (N.to_nat len) buf /\
        r = if key_eqb (until_nul (m_payload resp)) [79; 75] then Ok (lenN (m_payload resp)) else Err EBADMSG
      else buf' = buf /\ exists e, r = Err e
    | Err e => buf' = buf /\ r = Err e
    | UB u => r = UB u
    | OutOfFuel => r = OutOfFuel
    end.
Proof. intros St exch st buf len st' buf' r. apply register_ok. Qed.
Print Assumptions C99_register.

(** For the example: an exchange that gives this response and counts. *)
Definition cresp (detail : N) (pl : list N) : msg := mkmsg 1 2 2 detail 77 [] [mkop 11 [99; 108; 105; 101; 110; 116]; mkop 11 [105; 100]] pl.
Definition cexch (resp : msg) (n : N) (req : msg) : N * res msg := (n + lenN (m_payload req), Ok resp).
Definition cbuf : list N := [97; 98; 99; 0; 9; 9; 9].

Example C99_example :
  In 0 cbuf /\ 5 <= lenN cbuf /\ says_registered 5 (cresp 1 [79; 75]) = true /\
  reg_client_register (cexch (cresp 1 [79; 75])) 10 cbuf 5 = (13, [79; 75; 0; 0; 0; 9; 9], Ok 2) /\
  reg_client_register (cexch (cresp 4 [78; 79])) 10 cbuf 5 = (13, [78; 79; 0; 0; 0; 9; 9], Err EBADMSG) /\
  reg_client_register (cexch (cresp 5 [79; 75])) 10 cbuf 5 = (13, cbuf, Err EBADMSG) /\
  reg_client_register (cexch (cresp 4 [79; 75; 0; 1; 1])) 10 cbuf 5 = (13, cbuf, Err ENOSPC).
Proof. repeat split; try reflexivity; [cbn; auto|vm_compute; discriminate]. Qed.
