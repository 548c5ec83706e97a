(** Specification of the proxy's data buffers: a queue. *)
From Verif Require Import Base BufModel.

(** The queue and its capacity.  Bytes that are received go to its end, bytes that are
    consumed leave at its front; the capacity can be doubled up to the maximum. *)
Definition queue_step (max : N) (s : list N * N) (o : dop) : list N * N * dret :=
  let (q, size) := s in
  match o with
  | DRecv bs => (q ++ bs, size, RNum (lenN bs))
  | DConsume num => (skipn (N.to_nat num) q, size, RNum (N.min num (lenN q)))
  | DExpand mem =>
    if max <? 2 * size then (q, size, RErr EINVAL) else
    if mem then (q, 2 * size, ROk) else (q, size, RErr ENOMEM)
  end.

Fixpoint queue_run (max : N) (s : list N * N) (os : list dop) : list N * N * list dret :=
  match os with
  | [] => (s, [])
  | o :: os =>
    let '(s, r) := queue_step max s o in
    let '(s, rs) := queue_run max s os in
    (s, r :: rs)
  end.

(** The user never receives more bytes than there is space for. *)
Fixpoint within (max : N) (s : list N * N) (os : list dop) : Prop :=
  match os with
  | [] => True
  | o :: os =>
    match o with DRecv bs => lenN (fst s) + lenN bs <= snd s | _ => True end /\
    within max (fst (queue_step max s o)) os
  end.

(** Everything received in a history, and how much was consumed. *)
Fixpoint received (os : list dop) : list N :=
  match os with
  | [] => []
  | DRecv bs :: os => bs ++ received os
  | _ :: os => received os
  end.
Fixpoint consumed (os : list dop) (rs : list dret) : N :=
  match os, rs with
  | DConsume _ :: os, RNum n :: rs => n + consumed os rs
  | _ :: os, _ :: rs => consumed os rs
  | _, _ => 0
  end.
