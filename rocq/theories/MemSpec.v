(** Specification vocabulary for the buffer pools: which buffers are live after
    a history, defined from the results of the calls only. *)
From Verif Require Import Base MemModel.

(** Run a history.  [live] collects the pointers handed out and not yet given
    back. *)
Fixpoint mem_history (p : pool) (live : list N) (ops : list mem_op) : pool * list N :=
  match ops with
  | [] => (p, live)
  | MAlloc len :: ops' =>
    let (p', r) := mem_alloc p len in
    mem_history p' (match r with Some q => q :: live | None => live end) ops'
  | MFree q :: ops' => mem_history (mem_free p q) (remove N.eq_dec q live) ops'
  end.

(** Two buffers of [len] bytes do not share a byte. *)
Definition disjoint (len p q : N) : Prop := p + len <= q \/ q + len <= p.

(** A buffer of [len] bytes at [p] lies inside the [size] bytes at [base]. *)
Definition inside (base size len p : N) : Prop := base <= p /\ p + len <= base + size.

(** Buffer [j] is marked as allocated in a bitmap: bit [j mod 8] of byte
    [j / 8]. *)
Definition bit (a : list N) (j : N) : bool :=
  N.testbit (nth (N.to_nat (j / 8)) a 0) (j mod 8).

(** A thread is between its test of a bit and the store that sets it. *)
Definition mid (pc : alloc_pc) : bool :=
  match pc with PLoad _ | PStore _ _ => true | _ => false end.

(** A schedule in which a thread is never interrupted between its test of a
    bit and the store that sets it. *)
Fixpoint uninterrupted (num : N) (sched : list bool) (a : list N) (t1 t2 : alloc_pc) : Prop :=
  match sched with
  | [] => True
  | false :: s =>
    mid t2 = false /\
    let (a', t1') := alloc_tstep num a t1 in uninterrupted num s a' t1' t2
  | true :: s =>
    mid t1 = false /\
    let (a', t2') := alloc_tstep num a t2 in uninterrupted num s a' t1 t2'
  end.

