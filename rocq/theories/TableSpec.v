(** Specification of the TLS session caches and of the registrar. *)
From Verif Require Import Base TableModel.

Definition key_eqb (a b : list N) : bool := if list_eq_dec N.eq_dec a b then true else false.

(** ** Caches *)

(** The places of a cache, the one filled last first; [None] is one that was never
    filled, or deleted. *)
Definition places := list (option (list N * list N)).

Definition under (k : list N) (o : option (list N * list N)) : bool :=
  match o with Some (k', _) => key_eqb k' k | None => false end.
Definition holds_key (k : list N) (w : places) : bool := existsb (under k) w.

(** The data under a key, that filled last if there are several. *)
Fixpoint lookup (k : list N) (w : places) : option (list N) :=
  match w with
  | [] => None
  | Some (k', d) :: w => if key_eqb k' k then Some d else lookup k w
  | None :: w => lookup k w
  end.

(** A new entry takes the place filled longest ago. *)
Definition push (k d : list N) (w : places) : places := Some (k, d) :: removelast w.
(** The entry under a key gets new data. *)
Definition update (k d : list N) (w : places) : places := map (fun o => if under k o then Some (k, d) else o) w.
(** The entry under a key is deleted. *)
Definition erase (k : list N) (w : places) : places := map (fun o => if under k o then None else o) w.

(** Client: data that is too long is not stored. *)
Definition spec_set (w : places) (kd : list N * list N) : places :=
  let (k, d) := kd in
  if 2048 <? lenN d then w else if holds_key k w then update k d w else push k d w.

(** Server: what does not fit is not stored. *)
Definition spec_sop (w : places) (o : scop) : places :=
  match o with
  | CSet k d => if (32 <? lenN k) || (2048 <? lenN d) then w else push k d w
  | CDel k => erase k w
  end.

(** Addresses that fit in an array of [alen] bytes. *)
Definition addr_ok (alen : N) (k : list N) : Prop := k <> [] /\ ~ In 0 k /\ lenN k < alen.

(** No key is stored while there is an entry under it; no key is empty. *)
Fixpoint fresh_keys (w : places) (l : list scop) : Prop :=
  match l with
  | [] => True
  | o :: l =>
    match o with CSet k _ => k <> [] /\ holds_key k w = false | CDel k => k <> [] end /\ fresh_keys (spec_sop w o) l
  end.

(** The data stored last under a key. *)
Fixpoint last_set (k : list N) (l : list (list N * list N)) : option (list N) :=
  match l with
  | [] => None
  | (k', d) :: l =>
    match last_set k l with
    | Some d' => Some d'
    | None => if key_eqb k' k && (lenN d <=? 2048) then Some d else None
    end
  end.

(** ** Registrar *)

(** Identifiers with their addresses, the oldest first. *)
Definition table := list (list N * list N).
Fixpoint find_id (id : list N) (t : table) : option (list N) :=
  match t with
  | [] => None
  | (i, a) :: t => if key_eqb i id then Some a else find_id id t
  end.
Fixpoint set_id (id addr : list N) (t : table) : table :=
  match t with
  | [] => [(id, addr)]
  | (i, a) :: t => if key_eqb i id then (i, addr) :: t else (i, a) :: set_id id addr t
  end.
Definition has_id (id : list N) (t : table) : bool := match find_id id t with Some _ => true | None => false end.
Definition spec_rop (t : table) (o : rgop) : table :=
  match o with
  | RAdd id addr mem => if mem || has_id id t then set_id id addr t else t
  | RDel id => filter (fun p => negb (key_eqb (fst p) id)) t
  end.
(** Identifiers and addresses fit. *)
Definition rop_ok (alen : N) (o : rgop) : Prop :=
  match o with
  | RAdd id addr _ => lenN id < 32 /\ lenN addr < alen
  | RDel _ => True
  end.
(** Nothing is deleted but the oldest entry when there are others, an only entry that was
    added when there was none, or an identifier that is not there.  [alone]: the oldest
    entry was added when there was none. *)
Fixpoint oldest_only (alone : bool) (t : table) (l : list rgop) : Prop :=
  match l with
  | [] => True
  | o :: l =>
    match o with
    | RAdd _ _ _ => True
    | RDel id =>
      has_id id t = false \/ (exists a x t', t = (id, a) :: x :: t') \/ (alone = true /\ exists a, t = [(id, a)])
    end /\
    oldest_only (match t with
                 | [] => true
                 | _ => match o with RDel id => if has_id id t then false else alone | _ => alone end
                 end) (spec_rop t o) l
  end.
