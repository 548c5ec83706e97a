(** What the examples beside the theorems on the server use. *)
From Verif Require Import Base BaseLemmas MsgModel MsgSpec ClientModel ClientSpec ServerModel ServerSpec ServerLemmas.

(** For the examples: nothing fails; a handler that answers 2.05 with two bytes; a
    server in which the path /s has separate responses.  Requests with token 7: GET
    for the root and for /s. *)
Definition sE_ok : senv :=
  mksenv (fun _ => None) (fun _ => None) (fun _ => None) (fun n => 1000 + N.of_nat n) (fun _ => 0)
         (fun _ => true) (fun _ => true).
Definition sC_ok : scfg := mkscfg UnsignedChar false [[47; 115]] 1024.
Definition sP_ok : app unit :=
  mkapp (fun a _ _ => (a, HResp [SetCode 2 5; SetPayload [104; 105]])) (fun _ a body _ _ => (a, RxDone [] body 0)).
Definition get_dg (i : N) : list N := [65; 1; i / 256; i mod 256; 7].
Definition sep_dg (i : N) : list N := [65; 1; i / 256; i mod 256; 7; 177; 115].
Definition get_msg (i : N) : msg := mkmsg 1 T_CON 0 1 i [7] [] [].
Definition sep_msg (i : N) : msg := mkmsg 1 T_CON 0 1 i [7] [mkop 11 [115]] [].
Definition after (evs : list sev) : @srv unit := fst (server_run sP_ok sE_ok sC_ok (server_init 10 tt) evs).

Definition sev_okb (e : sev) : bool := match e with EvRx _ b _ => bytes_okb b | _ => true end.
Lemma sevs_ok evs : forallb sev_okb evs = true -> Forall sev_ok evs.
Proof.
  induction evs as [|e evs IH]; [constructor|]. cbn [forallb]. intro H. apply andb_true_iff in H as [H1 H2].
  constructor; [|auto]. destruct e; cbn in *; auto. apply bytes_okb_spec. exact H1.
Qed.
Lemma after_reachable evs : forallb sev_okb evs = true ->
  snd (server_run sP_ok sE_ok sC_ok (server_init 10 tt) evs) = None -> reachable sP_ok sE_ok sC_ok (after evs).
Proof.
  intros H1 H2. exists 10, tt, evs. split; [lia|]. split; [apply sevs_ok; exact H1|].
  unfold after. rewrite <- H2. apply surjective_pairing.
Qed.
Lemma after_step evs e v' r s : forallb sev_okb (evs ++ [e]) = true ->
  snd (server_run sP_ok sE_ok sC_ok (server_init 10 tt) evs) = None ->
  server_step sP_ok sE_ok sC_ok (after evs) e = (v', r) -> v_trace v' = v_trace (after evs) ++ s ->
  step sP_ok sE_ok sC_ok (after evs) e v' r s.
Proof.
  intros H1 H2 H3 H4. rewrite forallb_app in H1. apply andb_true_iff in H1 as [H1 H1']. cbn in H1'.
  split; [apply after_reachable; assumption|]. split; [|auto].
  destruct e; cbn in *; auto. apply bytes_okb_spec. destruct (bytes_okb b); [reflexivity|discriminate].
Qed.
Ltac steps := eapply after_step; [reflexivity|vm_compute; reflexivity|vm_compute; reflexivity|vm_compute; reflexivity].
Ltac newid := vm_compute; discriminate.
Ltac readsok := split; vm_compute; [discriminate|reflexivity].
Lemma regular_ok (v : @srv unit) c :
  forallb (fun t => negb (t_active t) || negb (t_client t =? c) || is_type (t_type t) TRegular) (v_tr v) = true ->
  forall t, In t (v_tr v) -> t_active t = true -> t_client t = c -> t_type t = TRegular.
Proof.
  rewrite forallb_forall. intros H t Hin Ha Hc. specialize (H t Hin). rewrite Ha, Hc, N.eqb_refl in H.
  apply is_type_regular. exact H.
Qed.
Ltac regular := apply regular_ok; vm_compute; reflexivity.
