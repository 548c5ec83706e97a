(** Specification vocabulary for C13: which pools can occur and what it means
    for a call to have a defined result. *)
From Verif Require Import Base MemModel MemSpec MsgMemModel.

(** The call has a defined result. *)
Definition defined {A} (r : res A) : Prop := (forall u, r <> UB u) /\ r <> OutOfFuel.

(** Number of calls that ran out of memory. *)
Definition nomem (rs : list (res unit)) : nat :=
  length (filter (fun r => match r with Err ENOMEM => true | _ => false end) rs).

(** A pool after any history of calls, with the buffers that are in use. *)
Definition reachable_pool (p : pool) (live : list N) : Prop :=
  exists num len addr p0 ops,
    mem_create num len (Some addr) true = Ok p0 /\ mem_history p0 [] ops = (p, live).

(** Two pools whose buffers have different addresses. *)
Definition pools_apart (P : pools) : Prop :=
  forall j k, j < p_num (ps P) -> k < p_num (pm P) ->
  p_buf (ps P) + j * p_len (ps P) <> p_buf (pm P) + k * p_len (pm P).
