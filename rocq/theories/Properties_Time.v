(** Property theorem for the time server (C98).  The statement uses [time_uri] and
    [first_line] of TimeSpec.v, [handled] of RegSpec.v, and [until_nul] and [req_path] of
    the specification of the server. *)
From Verif Require Import Base BaseLemmas MsgModel MsgSpec ClientModel ServerModel ServerSpec ServerBlockSpec TableSpec RegSpec TimeModel TimeSpec TimeLemmas
  ServerFixtures.

(** C98: if ctime_r writes less than 32 characters, the time server never writes outside
    its buffer, and in every reachable state it answers a GET for "/time" with 2.05 and
    the first line of what ctime_r gives for that request (and the Uri-Path "time"), another method with 5.01,
    another path with 4.04, and a path of more than 31 bytes not at all. *)
Theorem C98_time :
  forall clock E C id evs v r c m, (forall n s, clock n = Some s -> lenN s < 32) ->
  server_run (time_server clock) E C (server_init id time_start) evs = (v, r) ->
  ts_mem (v_app v) = Ok tt /\
  ts_mem (fst (ap_handle (time_server clock) (v_app v) c m)) = Ok tt /\
  let h := snd (ap_handle (time_server clock) (v_app v) c m) in
  let now := match clock (length (handled (v_trace v))) with Some s => s | None => [] end in
  if (m_ver m =? 1) && (lenN (req_path m) <? 32) then
    exists l, h = HResp l /\
    (if key_eqb (until_nul (req_path m)) time_uri then
       if m_detail m =? 1 then
         m_class (msg_build l) = 2 /\ m_detail (msg_build l) = 5 /\ m_ops (msg_build l) = [mkop 11 [116; 105; 109; 101]] /\
         m_payload (msg_build l) = first_line (until_nul now)
       else m_class (msg_build l) = 5 /\ m_detail (msg_build l) = 1 /\ m_payload (msg_build l) = []
     else m_class (msg_build l) = 4 /\ m_detail (msg_build l) = 4 /\ m_payload (msg_build l) = [])
  else exists e, h = HErr e.
Proof.
  intros clock E C id evs v r c m Hc H. destruct (time_state clock Hc E C id evs v r H) as [H1 H2].
  destruct (time_step clock Hc (v_app v) c m) as (_ & K1 & K2). rewrite H1 in K2. split; [exact H2|].
  split; [rewrite <- H2; exact K1|exact K2].
Qed.
Print Assumptions C98_time.

(** For the examples: the time is a text of 24 letters with a newline, and the last
    letter tells the number of the request.  Two requests have been handled. *)
Definition tclock (n : nat) : option (list N) := if (n =? 5)%nat then None else Some (repeat 97 23 ++ [65 + N.of_nat n mod 26; 10]).
Lemma tclock_fits n s : tclock n = Some s -> lenN s < 32.
Proof. unfold tclock. destruct (n =? 5)%nat; [discriminate|]. intro H. injection H as <-. reflexivity. Qed.
Definition tC : scfg := mkscfg UnsignedChar false [] 8192.
Definition tget (i : N) : list N := [64; 1; 0; i; 180; 116; 105; 109; 101].
Definition tevs : list sev := [EvRx 7 (tget 1) None; EvRx 8 (tget 2) None].
Definition tv : @srv tserver := fst (server_run (time_server tclock) sE_ok tC (server_init 10 time_start) tevs).
Definition tmsg (method : N) (ops : list op) : msg := mkmsg 1 0 0 method 77 [] ops [].

Example C98_example :
  (forall n s, tclock n = Some s -> lenN s < 32) /\ length (handled (v_trace tv)) = 2%nat /\
  (exists l, snd (ap_handle (time_server tclock) (v_app tv) 7 (tmsg 1 [mkop 11 [116; 105; 109; 101]])) = HResp l /\ m_payload (msg_build l) = repeat 97 23 ++ [67]) /\
  (exists l, snd (ap_handle (time_server tclock) (v_app tv) 7 (tmsg 2 [mkop 11 [116; 105; 109; 101]])) = HResp l /\ m_class (msg_build l) = 5) /\
  (exists l, snd (ap_handle (time_server tclock) (v_app tv) 7 (tmsg 1 [])) = HResp l /\ m_class (msg_build l) = 4) /\
  (exists e, snd (ap_handle (time_server tclock) (v_app tv) 7 (tmsg 1 [mkop 11 (repeat 97 40)])) = HErr e).
Proof. split; [exact tclock_fits|]. split; [vm_compute; reflexivity|]. repeat split; eexists; vm_compute; auto. Qed.
