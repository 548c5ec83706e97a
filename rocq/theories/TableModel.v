(** Model of the TLS session caches, proxy/common/src/tls.c, and of the registrar of
    the sample server, sample/reg_server/registrar.c.  No proofs in this file. *)
From Verif Require Import Base BufModel.

(** [strcmp(s, buf) == 0] for a NUL-terminated [s] whose characters are given without
    the NUL, and the memory [buf]. *)
Fixpoint str_is (s buf : list N) {struct buf} : res bool :=
  match buf with
  | [] => UB OobRead
  | b :: buf =>
    match s with
    | [] => Ok (b =? 0)
    | x :: s => if x =? b then str_is s buf else Ok false
    end
  end.

(** memcpy of [bs] to the start of [buf]. *)
Definition fill (buf bs : list N) : res (list N) :=
  if lenN buf <? lenN bs then UB OobWrite else Ok (bs ++ skipn (length bs) buf).

(** [element[i] = e]. *)
Definition set_elem {A} (l : list A) (i : N) (e : A) : res (list A) :=
  if i <? lenN l then Ok (firstn (N.to_nat i) l ++ e :: skipn (S (N.to_nat i)) l) else UB OobWrite.

(** TLS_CLIENT_MAX_SESSION_DATA_SIZE, TLS_SERVER_MAX_SESSION_DATA_SIZE and
    TLS_SERVER_MAX_SESSION_ID_SIZE, proxy/common/include/tls.h 42, 46 and 47. *)
Definition MAX_SESSION_DATA_SIZE : N := 2048.
Definition MAX_SESSION_ID_SIZE : N := 32.

(** ** The client's cache *)

(** tls_client_cache_element_t, tls.h 54-60.  [alen] below is SOCK_INET_ADDRSTRLEN, the
    size of [addr]: 46 or 16, proxy/common/include/sock.h 83 and 97. *)
Record celem := mkcelem {
  ce_addr : list N;
  ce_data : list N;
  ce_size : N
}.

(** tls_client_cache_t, tls.h 62-68; [size] is the length of [cc_elem]. *)
Record ccache := mkccache {
  cc_elem : list celem;
  cc_index : N
}.

(** tls_client_cache_create, tls.c 82-97, for a size that is not 0 and calloc succeeding. *)
Definition client_cache_create (alen size : N) : ccache :=
  mkccache (repeat (mkcelem (repeat 0 (N.to_nat alen)) (repeat 0 (N.to_nat MAX_SESSION_DATA_SIZE)) 0) (N.to_nat size)) 0.

(** The loops of tls_client_cache_set, tls.c 115-122, and tls_client_cache_get, tls.c
    141-149: the first element with this address. *)
Fixpoint client_cache_find (l : list celem) (addr : list N) (i : N) : res (option (N * celem)) :=
  match l with
  | [] => Ok None
  | e :: l =>
    let* b := str_is addr (ce_addr e) in
    if b then Ok (Some (i, e)) else client_cache_find l addr (add32 i 1)
  end.

(** tls_client_cache_set, tls.c 105-134.  SOCK_TLS_CACHE_ERROR is [EOTHER]. *)
Definition client_cache_set (alen : N) (c : ccache) (addr data : list N) : res ccache :=
  if MAX_SESSION_DATA_SIZE <? lenN data then Err EOTHER else
  let* f := client_cache_find (cc_elem c) addr 0 in
  let (i, index) := match f with
                    | Some (i, _) => (i, cc_index c)
                    | None => (cc_index c, add32 (cc_index c) 1 mod lenN (cc_elem c))
                    end in
  match nth_error (cc_elem c) (N.to_nat i) with
  | None => UB OobWrite
  | Some e =>
    let* a := util_strncpy (ce_addr e) (addr ++ [0]) alen in
    let* d := fill (ce_data e) data in
    let* l := set_elem (cc_elem c) i (mkcelem (fst a) d (lenN data)) in
    Ok (mkccache l index)
  end.

(** tls_client_cache_get, tls.c 136-151: the bytes the datum that is returned refers to;
    [None] if it is NULL. *)
Definition client_cache_get (c : ccache) (addr : list N) : res (option (list N)) :=
  let* f := client_cache_find (cc_elem c) addr 0 in
  match f with
  | Some (_, e) => let* d := rdn (ce_data e) (ce_size e) in Ok (Some d)
  | None => Ok None
  end.

(** ** The server's cache *)

(** tls_server_cache_element_t, tls.h 81-88. *)
Record selem := mkselem {
  se_id : list N;
  se_data : list N;
  se_idlen : N;
  se_size : N
}.
Definition selem0 : selem :=
  mkselem (repeat 0 (N.to_nat MAX_SESSION_ID_SIZE)) (repeat 0 (N.to_nat MAX_SESSION_DATA_SIZE)) 0 0.

(** tls_server_cache_t, tls.h 90-96. *)
Record scache := mkscache {
  sc_elem : list selem;
  sc_index : N
}.

(** tls_server_cache_create, tls.c 290-305, for a size that is not 0 and calloc
    succeeding. *)
Definition server_cache_create (size : N) : scache := mkscache (repeat selem0 (N.to_nat size)) 0.

(** tls_server_cache_set, tls.c 313-330. *)
Definition server_cache_set (c : scache) (key data : list N) : res scache :=
  if (MAX_SESSION_ID_SIZE <? lenN key) || (MAX_SESSION_DATA_SIZE <? lenN data) then Err EOTHER else
  match nth_error (sc_elem c) (N.to_nat (sc_index c)) with
  | None => UB OobWrite
  | Some e =>
    let* k := fill (se_id e) key in
    let* d := fill (se_data e) data in
    let* l := set_elem (sc_elem c) (sc_index c) (mkselem k d (lenN key) (lenN data)) in
    Ok (mkscache l (add32 (sc_index c) 1 mod lenN (sc_elem c)))
  end.

(** The loops of tls_server_cache_get, tls.c 340-353, and tls_server_cache_delete, tls.c
    361-369. *)
Fixpoint server_cache_find (l : list selem) (key : list N) (i : N) : res (option (N * selem)) :=
  match l with
  | [] => Ok None
  | e :: l =>
    if lenN key =? se_idlen e then
      let* k := rdn (se_id e) (lenN key) in
      if list_eq_dec N.eq_dec key k then Ok (Some (i, e)) else server_cache_find l key (add32 i 1)
    else server_cache_find l key (add32 i 1)
  end.

(** tls_server_cache_get, tls.c 332-355, if gnutls_malloc succeeds.  (If it fails the
    datum is NULL and has the size of the data all the same.) *)
Definition server_cache_get (c : scache) (key : list N) : res (option (list N)) :=
  let* f := server_cache_find (sc_elem c) key 0 in
  match f with
  | Some (_, e) => let* d := rdn (se_data e) (se_size e) in Ok (Some d)
  | None => Ok None
  end.

(** tls_server_cache_delete, tls.c 357-371.  SOCK_ARG_ERROR is [EINVAL]. *)
Definition server_cache_delete (c : scache) (key : list N) : res scache :=
  let* f := server_cache_find (sc_elem c) key 0 in
  match f with
  | Some (i, _) => let* l := set_elem (sc_elem c) i selem0 in Ok (mkscache l (sc_index c))
  | None => Err EINVAL
  end.

(** Histories.  A call that returns an error leaves the cache as it is. *)
Definition keep {A} (r : res A) (c : A) : res A := match r with Err _ => Ok c | _ => r end.

Fixpoint client_cache_run (alen : N) (c : ccache) (l : list (list N * list N)) : res ccache :=
  match l with
  | [] => Ok c
  | (k, d) :: l => let* c := keep (client_cache_set alen c k d) c in client_cache_run alen c l
  end.

Inductive scop := CSet (key data : list N) | CDel (key : list N).
Fixpoint server_cache_run (c : scache) (l : list scop) : res scache :=
  match l with
  | [] => Ok c
  | CSet k d :: l => let* c := keep (server_cache_set c k d) c in server_cache_run c l
  | CDel k :: l => let* c := keep (server_cache_delete c k) c in server_cache_run c l
  end.

(** ** The registrar *)

(** registrar_entry_t, sample/reg_server/registrar.h 46-53.  The strings [id] and
    [addr] are given without what follows the NUL.  Entries are named by the order of
    their allocation; a freed one is kept with [re_live = false], so that an access
    to it can be seen, and its place is not used again. *)
Record rentry := mkrentry {
  re_id : list N;
  re_addr : list N;
  re_prev : option nat;
  re_next : option nat;
  re_live : bool
}.

(** registrar_t, registrar.h 55-60, and the entries. *)
Record registrar := mkregistrar {
  rg_first : option nat;
  rg_last : option nat;
  rg_heap : list rentry
}.

(** registrar_create, registrar.c 56-59. *)
Definition registrar_create : registrar := mkregistrar None None [].

(** Access to an entry. *)
Definition entry (h : list rentry) (p : nat) : res rentry :=
  match nth_error h p with
  | Some e => if re_live e then Ok e else UB UseAfterFree
  | None => UB UseAfterFree
  end.
Definition set_entry (h : list rentry) (p : nat) (e : rentry) : list rentry := firstn p h ++ e :: skipn (S p) h.

(** strncpy of a string without NUL to an array of [n] bytes whose last byte is then
    made NUL, registrar.c 42-45 and 63-64. *)
Definition cut (n : N) (s : list N) : list N := firstn (N.to_nat (n - 1)) s.

(** REGISTRAR_ID_MAX_BUF_LEN, registrar.h 34.  [alen] is COAP_IPV_INET_ADDRSTRLEN. *)
Definition ID_LEN : N := 32.

(** registrar_find, registrar.c 82-96.  The list has no more entries than the heap, unless it is
    circular. *)
Fixpoint registrar_find_from (fuel : nat) (h : list rentry) (p : option nat) (id : list N) : res (option nat) :=
  match p with
  | None => Ok None
  | Some p =>
    match fuel with
    | O => OutOfFuel
    | S fuel =>
      let* e := entry h p in
      if list_eq_dec N.eq_dec (re_id e) id then Ok (Some p) else registrar_find_from fuel h (re_next e) id
    end
  end.
Definition registrar_find (r : registrar) (id : list N) : res (option nat) :=
  registrar_find_from (S (length (rg_heap r))) (rg_heap r) (rg_first r) id.

(** registrar_add, registrar.c 98-126.  [mem]: whether malloc succeeds.  The number is
    that returned. *)
Definition registrar_add (alen : N) (r : registrar) (id addr : list N) (mem : bool) : res (registrar * N) :=
  let* f := registrar_find r id in
  match f with
  | Some p =>
    let* e := entry (rg_heap r) p in
    Ok (mkregistrar (rg_first r) (rg_last r)
          (set_entry (rg_heap r) p (mkrentry (re_id e) (cut alen addr) (re_prev e) (re_next e) (re_live e))), 1)
  | None =>
    if negb mem then Err ENOMEM else
    let n := length (rg_heap r) in
    let e := mkrentry (cut ID_LEN id) (cut alen addr) None None true in
    match rg_first r, rg_last r with
    | None, None => Ok (mkregistrar (Some n) (Some n) (rg_heap r ++ [e]), 0)
    | _, None => UB NullDeref
    | _, Some l =>
      let* el := entry (rg_heap r) l in
      Ok (mkregistrar (rg_first r) (Some n)
            (set_entry (rg_heap r) l (mkrentry (re_id el) (re_addr el) (re_prev el) (Some n) (re_live el))
             ++ [mkrentry (re_id e) (re_addr e) (Some l) None true]), 0)
    end
  end.

(** registrar_del, registrar.c 128-143. *)
Definition registrar_del (r : registrar) (id : list N) : res registrar :=
  let* f := registrar_find r id in
  match f with
  | None => Err EINVAL
  | Some p =>
    let is q := match q with Some q => Nat.eqb q p | None => false end in
    let* e := entry (rg_heap r) p in
    Ok (mkregistrar (if is (rg_first r) then re_next e else rg_first r) (if is (rg_last r) then re_prev e else rg_last r)
          (set_entry (rg_heap r) p (mkrentry (re_id e) (re_addr e) (re_prev e) (re_next e) false)))
  end.

(** The address of the entry found. *)
Definition registrar_lookup (r : registrar) (id : list N) : res (option (list N)) :=
  let* f := registrar_find r id in
  match f with
  | None => Ok None
  | Some p => let* e := entry (rg_heap r) p in Ok (Some (re_addr e))
  end.

Inductive rgop := RAdd (id addr : list N) (mem : bool) | RDel (id : list N).
Fixpoint registrar_run (alen : N) (r : registrar) (l : list rgop) : res registrar :=
  match l with
  | [] => Ok r
  | RAdd id addr mem :: l =>
    let* r := keep (let* p := registrar_add alen r id addr mem in Ok (fst p)) r in registrar_run alen r l
  | RDel id :: l => let* r := keep (registrar_del r id) r in registrar_run alen r l
  end.
