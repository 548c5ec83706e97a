(** Property theorems for the registrar (C60) and the TLS session caches (C61). *)
From Verif Require Import Base BaseLemmas TableModel TableSpec TableLemmas.

(** C60, full statement: after any history of registrar_add and registrar_del calls the
    registrar is the table of the specification.  False: an entry that is deleted is
    not unlinked from the entry before it, so that the next search uses freed memory. *)
Theorem C60_freed_refuted :
  exists l, Forall (rop_ok 46) l /\ registrar_run 46 registrar_create l = UB UseAfterFree.
Proof.
  exists [RAdd [97] [49] true; RAdd [98] [50] true; RDel [98]; RAdd [99] [51] true].
  split; [repeat constructor|vm_compute; reflexivity].
Qed.
Print Assumptions C60_freed_refuted.

(** Nor is it enough to delete oldest entries: the entry that was second when the first
    was deleted still refers to it. *)
Theorem C60_oldest_refuted :
  exists l, Forall (rop_ok 46) l /\ registrar_run 46 registrar_create l = UB UseAfterFree /\
  forall i id, nth_error l i = Some (RDel id) -> exists a t, fold_left spec_rop (firstn i l) [] = (id, a) :: t.
Proof.
  exists [RAdd [97] [49] true; RAdd [98] [50] true; RDel [97]; RDel [98]; RAdd [99] [51] true].
  split; [repeat constructor|]. split; [vm_compute; reflexivity|].
  intros i id H. do 5 (destruct i as [|i]; [try discriminate; injection H as <-; vm_compute; eauto|cbn [nth_error] in H]).
  destruct i; discriminate.
Qed.
Print Assumptions C60_oldest_refuted.

(** An identifier of 32 characters or more is cut when it is stored, and not found. *)
Theorem C60_long_refuted :
  exists id a r, registrar_run 46 registrar_create [RAdd id a true] = Ok r /\ registrar_lookup r id = Ok None.
Proof. exists (repeat 97 32), [49]. eexists. split; vm_compute; reflexivity. Qed.
Print Assumptions C60_long_refuted.

(** C60 for histories in which identifiers and addresses fit, and nothing is deleted but
    the oldest entry while there are others, or an only entry that was added when there
    was none: no freed memory is touched, and the address found for an identifier is
    the one last added for it, if it has not been deleted since.  Missing: other
    deletions, and longer identifiers, where the statement is false. *)
Theorem C60_registrar_partial :
  forall alen l id, Forall (rop_ok alen) l -> oldest_only true [] l ->
  exists r, registrar_run alen registrar_create l = Ok r /\
    registrar_lookup r id = Ok (find_id id (fold_left spec_rop l [])).
Proof. exact registrar_table. Qed.
Print Assumptions C60_registrar_partial.

(** An entry added, changed, and deleted; two more, of which the first is deleted; one
    that there is no memory for, and an identifier deleted that is not there. *)
Definition reg_ops : list rgop :=
  [RAdd [97] [49] true; RAdd [97] [50] true; RDel [97]; RAdd [98] [51] true; RAdd [99] [52] true; RAdd [100] [53] false;
   RDel [98]; RDel [97]; RAdd [98] [54] true; RAdd [99] [55] false].
Example C60_example :
  Forall (rop_ok 16) reg_ops /\ oldest_only true [] reg_ops /\ fold_left spec_rop reg_ops [] = [([99], [55]); ([98], [54])].
Proof.
  split; [repeat constructor|]. split; [|vm_compute; reflexivity].
  unfold reg_ops. cbn [oldest_only]. repeat split; try exact I; vm_compute; eauto 6.
Qed.

(** C61, client: after any history of tls_client_cache_set calls on a cache of any size,
    with addresses that are not empty and fit their array, a lookup gives what the
    places of the specification hold under that address. *)
Theorem C61_client_places :
  forall alen size l k, 0 < alen -> alen < two64 -> 0 < size -> size < two32 ->
  Forall (fun p => addr_ok alen (fst p)) l -> addr_ok alen k ->
  exists c, client_cache_run alen (client_cache_create alen size) l = Ok c /\
    client_cache_get c k = Ok (lookup k (fold_left spec_set l (repeat None (N.to_nat size)))).
Proof. exact client_cache_places. Qed.
Print Assumptions C61_client_places.

(** C61, client: what a lookup returns is the data stored last under that address, or
    nothing. *)
Theorem C61_client_latest :
  forall alen size l k, 0 < alen -> alen < two64 -> 0 < size -> size < two32 ->
  Forall (fun p => addr_ok alen (fst p)) l -> addr_ok alen k ->
  exists c r, client_cache_run alen (client_cache_create alen size) l = Ok c /\ client_cache_get c k = Ok r /\
    (r = None \/ r = last_set k l).
Proof. exact client_cache_latest. Qed.
Print Assumptions C61_client_latest.

(** C61, client: as long as there are no more addresses than places, it is never
    nothing. *)
Theorem C61_client_kept :
  forall alen size l k ks, 0 < alen -> alen < two64 -> 0 < size -> size < two32 ->
  Forall (fun p => addr_ok alen (fst p)) l -> addr_ok alen k ->
  lenN ks <= size -> Forall (fun p => In (fst p) ks) l ->
  exists c, client_cache_run alen (client_cache_create alen size) l = Ok c /\ client_cache_get c k = Ok (last_set k l).
Proof. exact client_cache_kept. Qed.
Print Assumptions C61_client_kept.

(** Three addresses in a cache of two: the first is evicted. *)
Definition cache_sets : list (list N * list N) := [([97], [1; 2]); ([98], [3]); ([97], [4]); ([99], [5; 6; 7])].
Example C61_client_example :
  Forall (fun p => addr_ok 16 (fst p)) cache_sets /\
  fold_left spec_set cache_sets (repeat None 2) = [Some ([99], [5; 6; 7]); Some ([98], [3])] /\
  last_set [97] cache_sets = Some [4] /\ lookup [97] (fold_left spec_set (firstn 3 cache_sets) (repeat None 2)) = Some [4].
Proof.
  split; [|repeat split; vm_compute; reflexivity].
  repeat constructor; try discriminate; intros [H|[]]; discriminate.
Qed.

(** C61, server, full statement: a lookup returns the data stored last under that key,
    and after the key is deleted, nothing.  False: a key that is stored again gets a
    second place; the first is still found, and deleted alone. *)
Theorem C61_server_latest_refuted :
  exists l k d c, server_cache_run (server_cache_create 2) (l ++ [CSet k d]) = Ok c /\
  lenN k <= 32 /\ lenN d <= 2048 /\ exists d', server_cache_get c k = Ok (Some d') /\ d' <> d.
Proof.
  exists [CSet [1] [2]], [1], [3]. eexists. split; [vm_compute; reflexivity|].
  split; [vm_compute; discriminate|]. split; [vm_compute; discriminate|]. exists [2]. split; [vm_compute; reflexivity|discriminate].
Qed.
Print Assumptions C61_server_latest_refuted.
Theorem C61_server_delete_refuted :
  exists l k c d, server_cache_run (server_cache_create 2) (l ++ [CDel k]) = Ok c /\ server_cache_get c k = Ok (Some d).
Proof. exists [CSet [1] [2]; CSet [1] [3]], [1]. eexists. exists [3]. split; vm_compute; reflexivity. Qed.
Print Assumptions C61_server_delete_refuted.

(** C61, server: after any history of set and delete calls whatever, what a lookup under a
    key that is not empty returns was stored under that key. *)
Theorem C61_server_own_key :
  forall size l k, 0 < size -> size < two32 -> k <> [] ->
  exists c r, server_cache_run (server_cache_create size) l = Ok c /\ server_cache_get c k = Ok r /\
    (r = None \/ exists d, r = Some d /\ In (CSet k d) l).
Proof. exact server_cache_own. Qed.
Print Assumptions C61_server_own_key.

(** C61, server, for histories in which no key is empty or stored while there is an entry
    under it: a lookup gives what the places of the specification hold.  Missing: keys
    that are stored again, where the statement is false. *)
Theorem C61_server_places_partial :
  forall size l k, 0 < size -> size < two32 -> k <> [] ->
  fresh_keys (repeat None (N.to_nat size)) l ->
  exists c, server_cache_run (server_cache_create size) l = Ok c /\
    server_cache_get c k = Ok (lookup k (fold_left spec_sop l (repeat None (N.to_nat size)))).
Proof. exact server_cache_places. Qed.
Print Assumptions C61_server_places_partial.

(** A key deleted and stored again; a key evicted and stored again; a key too long. *)
Definition cache_sops : list scop :=
  [CSet [1] [10]; CSet [2] [20]; CDel [1]; CSet [1] [11]; CSet [3] [30]; CSet (repeat 4 33) [40]; CSet [2] [21]; CDel [9]].
Example C61_server_example :
  fresh_keys (repeat None 2) cache_sops /\ fold_left spec_sop cache_sops (repeat None 2) = [Some ([2], [21]); Some ([3], [30])].
Proof.
  split; [|vm_compute; reflexivity]. unfold cache_sops. cbn [fresh_keys].
  repeat split; try discriminate; vm_compute; reflexivity.
Qed.
