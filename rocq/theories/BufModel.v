(** Model of proxy/common/src/data_buf.c and of the string functions of
    proxy/common/src/util.c.  No proofs in this file. *)
From Verif Require Import Base.

(** ** data_buf.c *)

(** data_buf_t, proxy/common/include/data_buf.h 58-65.  [d_data] are the cells of the
    memory block [data] points to; [None] is a byte that was never written. *)
Record dbuf := mkdbuf {
  d_count : N;
  d_size : N;
  d_max : N;
  d_data : list (option N)
}.

(** data_buf_create, data_buf.c 39-54.  [mem]: whether calloc succeeds. *)
Definition data_buf_create (size max : N) (mem : bool) : res dbuf :=
  if max <? size then Err EINVAL else
  if negb mem then Err ENOMEM else
  Ok (mkdbuf 0 size max (repeat (Some 0) (N.to_nat (add64 size 1)))).

(** data_buf_get_space, data_buf.h 54. *)
Definition data_buf_get_space (b : dbuf) : N := sub64 (d_size b) (d_count b).

(** data_buf_expand, data_buf.c 62-84.  [mem]: whether malloc succeeds.  memcpy copies
    [count] bytes from the old block, memset clears the next [new_size - count] of
    the new one, which has one more. *)
Definition data_buf_expand (b : dbuf) (mem : bool) : res dbuf :=
  let new_size := mul64 2 (d_size b) in
  if d_max b <? new_size then Err EINVAL else
  if negb mem then Err ENOMEM else
  if lenN (d_data b) <? d_count b then UB OobRead else
  let room := add64 new_size 1 in
  let clear := sub64 new_size (d_count b) in
  if room <? d_count b + clear then UB OobWrite else
  Ok (mkdbuf (d_count b) new_size (d_max b)
        (firstn (N.to_nat (d_count b)) (d_data b) ++ repeat (Some 0) (N.to_nat clear)
         ++ repeat None (N.to_nat (room - (d_count b + clear))))).

(** data_buf_add, data_buf.c 86-95.  Also returns the number. *)
Definition data_buf_add (b : dbuf) (num : N) : dbuf * N :=
  let space := data_buf_get_space b in
  let num := if space <? num then space else num in
  (mkdbuf (add64 (d_count b) num) (d_size b) (d_max b) (d_data b), num).

(** data_buf_consume, data_buf.c 97-105: memmove of [size - num] bytes from [num] to the
    start, memset of the [num] bytes before [size].  Also returns the number. *)
Definition data_buf_consume (b : dbuf) (num : N) : res (dbuf * N) :=
  let num := if d_count b <? num then d_count b else num in
  let n := sub64 (d_size b) num in
  if lenN (d_data b) <? num + n then UB OobRead else
  let moved := firstn (N.to_nat n) (skipn (N.to_nat num) (d_data b)) ++ skipn (N.to_nat n) (d_data b) in
  if lenN moved <? n + num then UB OobWrite else
  Ok (mkdbuf (sub64 (d_count b) num) (d_size b) (d_max b)
        (firstn (N.to_nat n) moved ++ repeat (Some 0) (N.to_nat num) ++ skipn (N.to_nat (n + num)) moved), num).

(** What the user of the buffer does to fill it, connection.c 222 and 235: tls_sock_read
    stores bytes at data_buf_get_next (data_buf.h 55), then data_buf_add is called with
    their number. *)
Definition data_buf_recv (b : dbuf) (bs : list N) : res (dbuf * N) :=
  if lenN (d_data b) <? d_count b + lenN bs then UB OobWrite else
  Ok (data_buf_add
        (mkdbuf (d_count b) (d_size b) (d_max b)
           (firstn (N.to_nat (d_count b)) (d_data b) ++ map Some bs ++ skipn (N.to_nat (d_count b + lenN bs)) (d_data b)))
        (lenN bs)).

(** A history of calls.  The result of each: the number returned, or the error. *)
Inductive dop := DRecv (bs : list N) | DConsume (num : N) | DExpand (mem : bool).
Inductive dret := RNum (n : N) | ROk | RErr (e : errno).

Definition dbuf_step (b : dbuf) (o : dop) : res (dbuf * dret) :=
  match o with
  | DRecv bs => let* p := data_buf_recv b bs in Ok (fst p, RNum (snd p))
  | DConsume num => let* p := data_buf_consume b num in Ok (fst p, RNum (snd p))
  | DExpand mem =>
    match data_buf_expand b mem with
    | Ok b' => Ok (b', ROk)
    | Err e => Ok (b, RErr e)
    | UB u => UB u
    | OutOfFuel => OutOfFuel
    end
  end.

Fixpoint dbuf_run (b : dbuf) (os : list dop) : res (dbuf * list dret) :=
  match os with
  | [] => Ok (b, [])
  | o :: os =>
    let* p := dbuf_step b o in
    let* q := dbuf_run (fst p) os in
    Ok (fst q, snd p :: snd q)
  end.

(** ** util.c *)

(** [dst[i] = x]. *)
Definition store (dst : list N) (i x : N) : res (list N) :=
  if i <? lenN dst then Ok (firstn (N.to_nat i) dst ++ x :: skipn (S (N.to_nat i)) dst) else UB OobWrite.

(** The loops of util_strncpy, util.c 51-59, and util_strncat, util.c 77-85.  [src] is
    the memory from [src[j]] to the end of the object.  Returns [dst], [i] and [j]. *)
Fixpoint util_copy (dst src : list N) (i j dst_len : N) : res (list N * N * N) :=
  match src with
  | [] => UB OobRead
  | x :: src =>
    if x =? 0 then Ok (dst, i, j) else
    if i <? sub64 dst_len 1 then
      let* dst := store dst i x in util_copy dst src (add64 i 1) (add64 j 1) dst_len
    else util_copy dst src i (add64 j 1) dst_len
  end.

(** util_strncpy, util.c 42-62.  [dst] and [src] are distinct objects. *)
Definition util_strncpy (dst src : list N) (dst_len : N) : res (list N * N) :=
  if dst_len =? 0 then Ok (dst, 0) else
  let* (dst, i, j) := util_copy dst src 0 0 dst_len in
  let* dst := store dst i 0 in
  Ok (dst, j).

(** util_strncat, util.c 68-95. *)
Definition util_strncat (dst src : list N) (dst_str_len dst_len : N) : res (list N * N) :=
  if dst_len =? 0 then Ok (dst, 0) else
  let* (dst, i, j) := util_copy dst src dst_str_len 0 dst_len in
  let* dst := if i <? dst_len then store dst i 0 else store dst (sub64 dst_len 1) 0 in
  Ok (dst, add64 dst_str_len j).
