(** Model of lib/src/coap_mem.c: fixed-size buffer pools with a bitmap of
    allocated buffers.  No proofs in this file. *)
From Verif Require Import Base.

(** coap_mem_t, lib/include/coap_mem.h 49-56.  [p_buf] is the address of the
    array of buffers, [p_size] the number of bytes that malloc reserved for it
    (not stored by the code, kept to state properties), [p_active] the bytes of
    the bitmap. *)
Record pool := mkpool {
  p_buf : N;
  p_size : N;
  p_num : N;
  p_len : N;
  p_active : list N
}.

(** coap_mem_create, coap_mem.c 39-61.  [m1] is the result of malloc and [m2]
    whether calloc succeeds; the product [num * len] is computed in size_t.
    The bitmap has [num >> 3] zero bytes. *)
Definition mem_create (num len : N) (m1 : option N) (m2 : bool) : res pool :=
  if negb (N.land num 7 =? 0) || (len =? 0) then Err EINVAL
  else match m1 with
       | None => Err ENOMEM
       | Some addr =>
         if m2
         then Ok (mkpool addr (mul64 num len) num len
                         (repeat 0 (N.to_nat (N.shiftr num 3))))
         else Err ENOMEM
       end.

(** The inner loop of coap_mem_alloc, coap_mem.c 82-92: first clear bit of one
    bitmap byte. [bits] lists the bits that remain to be tried. *)
Fixpoint scan_bits (byte : N) (bits : list N) : option N :=
  match bits with
  | [] => None
  | bit :: bits' =>
    if N.land byte (N.shiftl 1 bit) =? 0 then Some bit else scan_bits byte bits'
  end.

Definition all_bits : list N := [0; 1; 2; 3; 4; 5; 6; 7].

(** The outer loop of coap_mem_alloc, coap_mem.c 80-93.  Returns the new bitmap
    and the index of the buffer.  [i] is the byte index.  The loop bound
    [num >> 3] is the length of the bitmap. *)
Fixpoint scan_bytes (active : list N) (i : N) : option (list N * N) :=
  match active with
  | [] => None
  | byte :: rest =>
    match scan_bits byte all_bits with
    | Some bit => Some (N.lor byte (N.shiftl 1 bit) :: rest, 8 * i + bit)
    | None =>
      match scan_bytes rest (i + 1) with
      | Some (rest', k) => Some (byte :: rest', k)
      | None => None
      end
    end
  end.

(** coap_mem_alloc, coap_mem.c 70-95.  [None] is NULL. *)
Definition mem_alloc (p : pool) (len : N) : pool * option N :=
  if p_len p <? len then (p, None)
  else match scan_bytes (p_active p) 0 with
       | Some (active', k) =>
         (mkpool (p_buf p) (p_size p) (p_num p) (p_len p) active',
          Some (p_buf p + k * p_len p))
       | None => (p, None)
       end.

(** One iteration of the inner loop of coap_mem_free, coap_mem.c 104-115:
    [mask = ~(1 << bit)] truncated to unsigned char. *)
Definition free_bit (base len ptr i : N) (byte bit : N) : N :=
  if ptr =? base + (8 * i + bit) * len
  then N.land byte (N.ldiff 255 (N.shiftl 1 bit))
  else byte.

(** The loops of coap_mem_free, coap_mem.c 102-115. *)
Fixpoint free_bytes (base len ptr : N) (active : list N) (i : N) : list N :=
  match active with
  | [] => []
  | byte :: rest =>
    fold_left (free_bit base len ptr i) all_bits byte
      :: free_bytes base len ptr rest (i + 1)
  end.

(** coap_mem_free, coap_mem.c 97-116. *)
Definition mem_free (p : pool) (ptr : N) : pool :=
  mkpool (p_buf p) (p_size p) (p_num p) (p_len p)
         (free_bytes (p_buf p) (p_len p) ptr (p_active p) 0).

(** A call on a pool, and its run.  A history is a list of calls; the pointers
    given to free are arbitrary. *)
Inductive mem_op := MAlloc (len : N) | MFree (ptr : N).

Definition mem_step (p : pool) (o : mem_op) : pool * option N :=
  match o with
  | MAlloc len => mem_alloc p len
  | MFree ptr => (mem_free p ptr, None)
  end.

(** ** Two threads in coap_mem_alloc (C18)

    coap_mem_alloc split into its accesses to the shared bitmap
    (coap_mem.c 85-87): a read of [active[byte]] for the test, and a read and a
    write of [active[byte]] for [|=].  There is no lock around the pool.
    Compilers may merge the two reads; keeping them apart only gives fewer
    races. *)
Inductive alloc_pc :=
| PTest (i : N)              (* about to test bit i *)
| PLoad (i : N)              (* bit i was clear; about to load the byte *)
| PStore (i : N) (v : N)     (* about to store v with bit i set *)
| PDone (r : option N).      (* returned buffer index or NULL *)

Definition nth_byte (a : list N) (i : N) : N := nth (N.to_nat i) a 0.
Fixpoint set_byte (a : list N) (i : nat) (v : N) : list N :=
  match a, i with
  | [], _ => []
  | _ :: a', O => v :: a'
  | b :: a', S i' => b :: set_byte a' i' v
  end.

(** One atomic access by one thread.  [num] is the number of buffers. *)
Definition alloc_tstep (num : N) (a : list N) (pc : alloc_pc) : list N * alloc_pc :=
  match pc with
  | PTest i =>
    if num <=? i then (a, PDone None)
    else if N.land (nth_byte a (i / 8)) (N.shiftl 1 (i mod 8)) =? 0
         then (a, PLoad i) else (a, PTest (i + 1))
  | PLoad i => (a, PStore i (N.lor (nth_byte a (i / 8)) (N.shiftl 1 (i mod 8))))
  | PStore i v => (set_byte a (N.to_nat (i / 8)) v, PDone (Some i))
  | PDone r => (a, PDone r)
  end.

(** A schedule is a list of thread choices ([false] = first thread). *)
Fixpoint alloc_run2 (num : N) (sched : list bool) (a : list N) (t1 t2 : alloc_pc)
  : list N * alloc_pc * alloc_pc :=
  match sched with
  | [] => (a, t1, t2)
  | false :: s =>
    let (a', t1') := alloc_tstep num a t1 in alloc_run2 num s a' t1' t2
  | true :: s =>
    let (a', t2') := alloc_tstep num a t2 in alloc_run2 num s a' t1 t2'
  end.
