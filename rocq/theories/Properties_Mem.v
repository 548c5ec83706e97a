(** Property theorems for the buffer pools (C14-C18). *)
From Verif Require Import Base MemModel MemSpec MemLemmas.

(** C14: buffers handed out and not given back never overlap and lie inside the
    pool, in every history of calls with arbitrary arguments. *)
Theorem C14_live_buffers_disjoint :
  forall num len addr p ops p' live,
  mem_create num len (Some addr) true = Ok p ->
  mem_history p [] ops = (p', live) ->
  ForallOrdPairs (disjoint len) live /\ Forall (inside addr (num * len) len) live.
Proof. exact live_disjoint. Qed.
Print Assumptions C14_live_buffers_disjoint.

(** C14: a buffer handed out next is long enough, inside the pool and disjoint
    from every live buffer. *)
Theorem C14_new_buffer_fits :
  forall num len addr p ops p' live n p'' q,
  mem_create num len (Some addr) true = Ok p ->
  mem_history p [] ops = (p', live) ->
  mem_alloc p' n = (p'', Some q) ->
  n <= len /\ inside addr (num * len) len q /\ Forall (disjoint len q) live.
Proof. exact live_alloc_fits. Qed.
Print Assumptions C14_new_buffer_fits.

Example C14_example :
  exists p p', mem_create 8 16 (Some 1000) true = Ok p /\
  mem_history p [] [MAlloc 16; MAlloc 3; MAlloc 5; MFree 1016; MFree 1001; MAlloc 1]
  = (p', [1016; 1032; 1000]) /\ snd (mem_alloc p' 16) = Some 1048.
Proof. eexists. eexists. vm_compute. repeat split. Qed.

(** C15: allocation fails exactly when the request is too long or all buffers
    are live. *)
Theorem C15_alloc_fails_iff :
  forall num len addr p ops p' live n,
  mem_create num len (Some addr) true = Ok p ->
  mem_history p [] ops = (p', live) ->
  (snd (mem_alloc p' n) = None <-> len < n \/ lenN live = num).
Proof. exact alloc_fails_iff. Qed.
Print Assumptions C15_alloc_fails_iff.

(** C15: after a live buffer is freed, an allocation that fits succeeds. *)
Theorem C15_alloc_after_free :
  forall num len addr p ops p' live q n,
  mem_create num len (Some addr) true = Ok p ->
  mem_history p [] ops = (p', live) ->
  In q live -> n <= len -> snd (mem_alloc (mem_free p' q) n) <> None.
Proof. exact free_then_alloc. Qed.
Print Assumptions C15_alloc_after_free.

(** A pool of eight buffers with all eight live: the next call fails, and
    succeeds again after a free. *)
Example C15_example :
  exists p p' live, mem_create 8 4 (Some 64) true = Ok p /\
  mem_history p [] (repeat (MAlloc 4) 9) = (p', live) /\ lenN live = 8 /\
  snd (mem_alloc p' 1) = None /\ In 76 live /\ snd (mem_alloc (mem_free p' 76) 4) = Some 76.
Proof. do 3 eexists. vm_compute. repeat split. auto 10. Qed.

(** C16: freeing a pointer that is not the start of a buffer changes nothing. *)
Theorem C16_free_foreign :
  forall num len addr p ops p' live q,
  mem_create num len (Some addr) true = Ok p ->
  mem_history p [] ops = (p', live) ->
  (forall k, k < num -> q <> addr + k * len) ->
  mem_free p' q = p'.
Proof. exact free_foreign. Qed.
Print Assumptions C16_free_foreign.

(** C16: freeing the start of buffer [k] releases buffer [k] and no other. *)
Theorem C16_free_exactly :
  forall num len addr p ops p' live k,
  mem_create num len (Some addr) true = Ok p ->
  mem_history p [] ops = (p', live) -> k < num ->
  let p'' := mem_free p' (addr + k * len) in
  bit (p_active p'') k = false /\
  (forall j, j < num -> j <> k -> bit (p_active p'') j = bit (p_active p') j).
Proof. exact free_exactly. Qed.
Print Assumptions C16_free_exactly.

Example C16_example :
  exists p p' live, mem_create 16 10 (Some 500) true = Ok p /\
  mem_history p [] (repeat (MAlloc 4) 12) = (p', live) /\
  p_active p' = [255; 15] /\ mem_free p' 505 = p' /\ mem_free p' 660 = p' /\
  p_active (mem_free p' 590) = [255; 13].
Proof. do 3 eexists. vm_compute. repeat split. Qed.

(** C17 is false: the product num * len is computed modulo 2^64, so a successful
    creation may have reserved less memory than it hands out. *)
Theorem C17_create_size_refuted :
  exists num len addr p,
  num < two64 /\ len < two64 /\
  mem_create num len (Some addr) true = Ok p /\ p_size p < p_num p * p_len p.
Proof.
  exists 8, 2305843009213693952, 4096. eexists. vm_compute. repeat split.
Qed.
Print Assumptions C17_create_size_refuted.

(** C17, provable part: the reservation is right when the product does not
    wrap.  Missing: a check for wrap-around in the code. *)
Theorem C17_create_size_partial :
  forall num len addr p,
  num * len < two64 ->
  mem_create num len (Some addr) true = Ok p -> p_size p = p_num p * p_len p.
Proof. exact create_size. Qed.
Print Assumptions C17_create_size_partial.

Example C17_example :
  128 * 1024 < two64 /\ exists p, mem_create 128 1024 (Some 4096) true = Ok p.
Proof. split; [reflexivity|]. eexists. reflexivity. Qed.

(** C18 is false: two threads that interleave inside coap_mem_alloc obtain the
    same buffer. *)
Theorem C18_concurrent_alloc_refuted :
  exists sched a' i,
  alloc_run2 8 sched [0] (PTest 0) (PTest 0) = (a', PDone (Some i), PDone (Some i)).
Proof. exists [false; true; false; false; true; true]. eexists. eexists. vm_compute. reflexivity. Qed.
Print Assumptions C18_concurrent_alloc_refuted.

(** C18, provable part: if no thread is interrupted between its test of a bit and
    the store that sets it, the buffers differ, for every bitmap and every such
    schedule.  Missing: the code takes no lock that would enforce this. *)
Theorem C18_concurrent_alloc_partial :
  forall num sched a a' i j,
  num = 8 * lenN a ->
  uninterrupted num sched a (PTest 0) (PTest 0) ->
  alloc_run2 num sched a (PTest 0) (PTest 0) = (a', PDone (Some i), PDone (Some j)) ->
  i <> j.
Proof. exact conc_distinct. Qed.
Print Assumptions C18_concurrent_alloc_partial.

(** The step-wise machine used for C18 computes coap_mem_alloc when it runs
    alone. *)
Theorem C18_machine_is_alloc :
  forall num a, num = 8 * lenN a ->
  exists m,
    alloc_run2 num (repeat false m) a (PTest 0) (PDone None)
    = match scan_bytes a 0 with
      | Some (a', k) => (a', PDone (Some k), PDone None)
      | None => (a, PDone None, PDone None)
      end.
Proof. exact solo_run_0. Qed.
Print Assumptions C18_machine_is_alloc.

Example C18_example :
  let s := [false; true; true; true; true; false; false; false; false] in
  uninterrupted 8 s [1] (PTest 0) (PTest 0) /\
  alloc_run2 8 s [1] (PTest 0) (PTest 0) = ([7], PDone (Some 2), PDone (Some 1)).
Proof. vm_compute. repeat split. Qed.
