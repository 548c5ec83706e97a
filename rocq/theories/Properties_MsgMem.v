(** Property theorems for the buffers a message owns (C13). *)
From Verif Require Import Base MemModel MemSpec MsgModel MsgMemModel MsgMemSpec MsgMemLemmas.

(** C13, full statement: after parsing any datagram into a fresh message and
    destroying the message, both pools are as before.  False: an option longer
    than a medium buffer loses the small buffer of its structure. *)
Theorem C13_pools_restored_refuted :
  exists P liveS liveM sg b past P' m' r,
  reachable_pool (ps P) liveS /\ reachable_pool (pm P) liveM /\ pools_apart P /\
  bytes_ok b /\ past <> [] /\
  mm_parse sg P mm_create (b ++ past) (lenN b) = (P', m', r) /\
  ps (fst (mm_destroy P' m')) <> ps P.
Proof.
  exists (mkpools (mkpool 1000 192 8 24 [0]) (mkpool 2000 32 8 4 [0])), [], [], UnsignedChar,
    [64; 1; 0; 0; 181; 104; 101; 108; 108; 111], [0].
  eexists. eexists. eexists.
  split; [exists 8, 24, 1000, (mkpool 1000 192 8 24 [0]), []; split; reflexivity|].
  split; [exists 8, 4, 2000, (mkpool 2000 32 8 4 [0]), []; split; reflexivity|].
  split.
  { intros j k. cbn [ps pm p_num p_buf p_len]. intros Hj Hk C.
    assert (1000 + j * 24 < 2000 + k * 4).
    { apply N.lt_le_trans with (1000 + 8 * 24); [|].
      - apply N.add_lt_mono_l. apply N.mul_lt_mono_pos_r; [reflexivity|exact Hj].
      - apply N.le_trans with 2000; [discriminate|]. apply N.le_add_r. }
    rewrite C in H. exact (N.lt_irrefl _ H). }
  split; [repeat constructor|]. split; [discriminate|].
  split; [vm_compute; reflexivity|]. vm_compute. discriminate.
Qed.
Print Assumptions C13_pools_restored_refuted.

(** C13 for every sequence of calls on a message (parse, add option, set and
    clear payload, reset) followed by destroy: the medium pool is always as
    before; the small pool is as before unless a call returned -ENOMEM, and then
    at most one buffer is lost for each such call.  Calls with undefined
    behaviour are excluded. *)
Theorem C13_pools_restored_partial :
  forall P liveS liveM l st rs,
  reachable_pool (ps P) liveS -> reachable_pool (pm P) liveM -> pools_apart P ->
  mm_runs (P, mm_create) l = (st, rs) -> Forall defined rs ->
  let P' := fst (mm_destroy (fst st) (snd st)) in
  pm P' = pm P /\
  (~ In (Err ENOMEM) rs -> ps P' = ps P) /\
  exists lost, (length lost <= nomem rs)%nat /\
    forall k, k < p_num (ps P) ->
    bit (p_active (ps P')) k = bit (p_active (ps P)) k || existsb (N.eqb k) lost.
Proof. exact destroy_restores. Qed.
Print Assumptions C13_pools_restored_partial.

(** C13: the pools only decide between -ENOMEM and the result of the parser of
    MsgModel.v, so the codec theorems hold for the parser with pools. *)
Theorem C13_parse_with_pools :
  forall sg P m p len P' m' r,
  mm_parse sg P m p len = (P', m', r) ->
  r = Err ENOMEM \/
  match msg_parse sg p len with
  | Ok m0 => r = Ok tt /\ mm_msg m' = m0
  | Err e => r = Err e
  | UB u => r = UB u
  | OutOfFuel => r = OutOfFuel
  end.
Proof. exact mm_parse_erase. Qed.
Print Assumptions C13_parse_with_pools.

Example C13_example :
  let P := mkpools (mkpool 1000 192 8 24 [5]) (mkpool 2000 64 8 8 [128]) in
  let d := [64; 1; 0; 0; 177; 97; 1; 98; 255; 7] in
  let '(st, rs) := mm_runs (P, mm_create)
       [MParse UnsignedChar d 10; MAddOp 5 [1; 2]; MSetPayload [1; 2; 3];
        MAddOp 5 [1; 2; 3; 4; 5; 6; 7; 8; 9]; MParse UnsignedChar d 10] in
  rs = [Ok tt; Ok tt; Ok tt; Err ENOMEM; Ok tt] /\
  p_active (ps (fst st)) <> [5] /\
  p_active (ps (fst (mm_destroy (fst st) (snd st)))) = [37] /\
  p_active (pm (fst (mm_destroy (fst st) (snd st)))) = [128].
Proof. vm_compute. repeat split. discriminate. Qed.
