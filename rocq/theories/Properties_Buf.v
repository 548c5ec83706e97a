(** Property theorems for the proxy's data buffers (C43) and string functions (C52). *)
From Verif Require Import Base BaseLemmas BufModel BufSpec BufLemmas.

(** C43: a data buffer of any initial and maximum size (below 2^63 bytes) behaves as a
    queue: over any history of receiving, consuming and expanding, in which no more is
    received than there is space for, no memory outside the buffer is touched, every
    call returns what the queue says, the bytes in use are those of the queue, and the
    size stays within the maximum. *)
Theorem C43_buffer_is_queue :
  forall size max os b, size <= max -> max < 2 ^ 63 ->
  data_buf_create size max true = Ok b -> within max ([], size) os ->
  exists b' q size' rs,
    queue_run max ([], size) os = (q, size', rs) /\ dbuf_run b os = Ok (b', rs) /\
    d_count b' = lenN q /\ firstn (length q) (d_data b') = map Some q /\
    d_size b' = size' /\ lenN q <= size' /\ size' <= max /\ size' < lenN (d_data b').
Proof. exact buffer_is_queue. Qed.
Print Assumptions C43_buffer_is_queue.

(** C43: the queue holds what was received and not yet consumed, in order. *)
Theorem C43_queue_is_received :
  forall max size os q size' rs, queue_run max ([], size) os = (q, size', rs) ->
  exists gone, received os = gone ++ q /\ lenN gone = consumed os rs.
Proof. exact queue_is_received. Qed.
Print Assumptions C43_queue_is_received.

(** Four bytes, of which more are consumed than are there; the buffer doubled once, the
    second time refused. *)
Definition buf_ops : list dop :=
  [DRecv [1; 2; 3]; DConsume 2; DRecv [4; 5]; DExpand true; DRecv [6; 7; 8]; DConsume 1; DExpand true; DConsume 9; DRecv [9]].
Example C43_example :
  exists b, data_buf_create 4 8 true = Ok b /\ within 8 ([], 4) buf_ops /\
  queue_run 8 ([], 4) buf_ops = ([9], 8, [RNum 3; RNum 2; RNum 2; ROk; RNum 3; RNum 1; RErr EINVAL; RNum 5; RNum 1]).
Proof. eexists. split; [vm_compute; reflexivity|]. split; [vm_compute; repeat split; discriminate|]. vm_compute. reflexivity. Qed.

(** C52, full statement: util_strncpy returns the length of the string.  False: not if
    the destination has length 0. *)
Theorem C52_strncpy_refuted :
  exists dst s, ~ In 0 s /\ util_strncpy dst (s ++ [0]) 0 = Ok (dst, 0) /\ lenN s <> 0.
Proof. exists [], [65]. split; [intros [H|[]]; discriminate|]. split; [reflexivity|discriminate]. Qed.
Print Assumptions C52_strncpy_refuted.

(** C52 for a destination of [n > 0] bytes in an object of at least that size: the
    string, cut to [n - 1] bytes, a NUL, and after that what was there before; the
    length of the string is returned.  Missing: [n = 0], where the statement is
    false. *)
Theorem C52_strncpy_partial :
  forall dst s rest n, ~ In 0 s -> 0 < n -> n <= lenN dst -> lenN dst < two64 -> lenN s < two64 ->
  exists dst', util_strncpy dst (s ++ 0 :: rest) n = Ok (dst', lenN s) /\
    lenN dst' = lenN dst /\ skipn (N.to_nat n) dst' = skipn (N.to_nat n) dst /\
    exists tl, dst' = firstn (N.to_nat (n - 1)) s ++ 0 :: tl.
Proof. exact strncpy_spec. Qed.
Print Assumptions C52_strncpy_partial.

(** C52: for [n = 0] nothing is written. *)
Theorem C52_strncpy_none : forall dst src, util_strncpy dst src 0 = Ok (dst, 0).
Proof. exact strncpy_none. Qed.
Print Assumptions C52_strncpy_none.

(** C52: util_strncat appends to the first [m] bytes of the destination; what comes
    before and after stays.  If they fill it, only its last byte is made NUL. *)
Theorem C52_strncat :
  forall dst s rest m n, ~ In 0 s -> 0 < n -> n <= lenN dst -> lenN dst < two64 -> m + lenN s < two64 ->
  exists dst', util_strncat dst (s ++ 0 :: rest) m n = Ok (dst', m + lenN s) /\
    lenN dst' = lenN dst /\ skipn (N.to_nat n) dst' = skipn (N.to_nat n) dst /\
    exists tl, dst' = firstn (N.to_nat (n - 1)) (firstn (N.to_nat (N.min m (n - 1))) dst ++ (if m <? n then s else [])) ++ 0 :: tl.
Proof. exact strncat_spec. Qed.
Print Assumptions C52_strncat.

Example C52_example :
  util_strncpy [1; 2; 3; 4; 5] [65; 66; 67; 68; 0; 9] 4 = Ok ([65; 66; 67; 0; 5], 4) /\
  util_strncat [65; 66; 0; 4; 5; 6] [67; 68; 69; 0] 2 5 = Ok ([65; 66; 67; 68; 0; 6], 5) /\
  util_strncat [65; 66; 67; 4] [67; 0] 3 3 = Ok ([65; 66; 0; 4], 4).
Proof. repeat split. Qed.
