(** General lemmas about bytes, bits and lists, and arithmetic set-up. *)
From Coq Require Export Lia ZifyBool ZifyNat ZifyN.
From Verif Require Export Base.

Ltac Zify.zify_post_hook ::= Z.div_mod_to_equations.

Arguments N.add : simpl never.
Arguments N.sub : simpl never.
Arguments N.mul : simpl never.
Arguments N.div : simpl never.
Arguments N.modulo : simpl never.
Arguments N.shiftl : simpl never.
Arguments N.shiftr : simpl never.
Arguments N.land : simpl never.
Arguments N.lor : simpl never.
Arguments N.ldiff : simpl never.
Arguments N.testbit : simpl never.
Arguments N.eqb : simpl never.
Arguments N.ltb : simpl never.
Arguments N.leb : simpl never.
Arguments N.of_nat : simpl never.
Arguments N.to_nat : simpl never.

Lemma land_pow2 (a n : N) : N.land a (N.shiftl 1 n) = if N.testbit a n then 2 ^ n else 0.
Proof.
  rewrite N.shiftl_1_l. apply N.bits_inj. intro m.
  rewrite N.land_spec, N.pow2_bits_eqb.
  destruct (N.testbit a n) eqn:E.
  - rewrite N.pow2_bits_eqb. destruct (n =? m) eqn:F.
    + apply N.eqb_eq in F. subst. rewrite E. reflexivity.
    + apply andb_false_r.
  - rewrite N.bits_0. destruct (n =? m) eqn:F.
    + apply N.eqb_eq in F. subst. rewrite E. reflexivity.
    + apply andb_false_r.
Qed.

Lemma land_pow2_zero (a n : N) :
  (N.land a (N.shiftl 1 n) =? 0) = negb (N.testbit a n).
Proof.
  rewrite land_pow2. destruct (N.testbit a n); [|reflexivity].
  apply N.eqb_neq. apply N.pow_nonzero. lia.
Qed.

Lemma lor_pow2_bit (a n m : N) :
  N.testbit (N.lor a (N.shiftl 1 n)) m = (m =? n) || N.testbit a m.
Proof.
  rewrite N.shiftl_1_l, N.lor_spec, N.pow2_bits_eqb, orb_comm.
  rewrite (N.eqb_sym n m). reflexivity.
Qed.

(** ** lenN, firstn, skipn *)

Lemma lenN_nil {A} : lenN (@nil A) = 0.
Proof. reflexivity. Qed.
Lemma lenN_cons {A} (x : A) l : lenN (x :: l) = lenN l + 1.
Proof. unfold lenN. cbn [length]. lia. Qed.
Lemma lenN_app {A} (l1 l2 : list A) : lenN (l1 ++ l2) = lenN l1 + lenN l2.
Proof. unfold lenN. rewrite app_length. lia. Qed.
Lemma lenN_repeat {A} (x : A) n : lenN (repeat x n) = N.of_nat n.
Proof. unfold lenN. rewrite repeat_length. reflexivity. Qed.
Lemma lenN_firstn {A} (l : list A) n : lenN (firstn (N.to_nat n) l) = N.min n (lenN l).
Proof. unfold lenN. rewrite firstn_length. lia. Qed.
Lemma lenN_skipn {A} (l : list A) n : lenN (skipn (N.to_nat n) l) = lenN l - n.
Proof. unfold lenN. rewrite skipn_length. lia. Qed.
Lemma lenN_0 {A} (l : list A) : lenN l = 0 -> l = [].
Proof. destruct l; [reflexivity|]. rewrite lenN_cons. lia. Qed.
Lemma lenN_map {A B} (f : A -> B) l : lenN (map f l) = lenN l.
Proof. unfold lenN. rewrite map_length. reflexivity. Qed.
Lemma to_nat_lenN {A} (l : list A) : N.to_nat (lenN l) = length l.
Proof. unfold lenN. apply Nnat.Nat2N.id. Qed.

Lemma firstn_lenN_app {A} (l1 l2 : list A) : firstn (N.to_nat (lenN l1)) (l1 ++ l2) = l1.
Proof.
  rewrite to_nat_lenN, firstn_app, Nat.sub_diag, firstn_all. apply app_nil_r.
Qed.
Lemma skipn_lenN_app {A} (l1 l2 : list A) : skipn (N.to_nat (lenN l1)) (l1 ++ l2) = l2.
Proof.
  rewrite to_nat_lenN, skipn_app, Nat.sub_diag, skipn_all. reflexivity.
Qed.

Lemma rd_cons_0 b p : rd (b :: p) 0 = Ok b.
Proof.
  unfold rd. rewrite lenN_cons. destruct (N.ltb_spec 0 (lenN p + 1)); [reflexivity|lia].
Qed.
Lemma rd_nil_0 : rd [] 0 = UB OobRead.
Proof. reflexivity. Qed.
Lemma rd_cons_S b p i : rd (b :: p) (i + 1) = rd p i.
Proof.
  unfold rd. rewrite lenN_cons.
  destruct (N.ltb_spec (i + 1) (lenN p + 1)), (N.ltb_spec i (lenN p)); try lia; [|reflexivity].
  replace (N.to_nat (i + 1)) with (S (N.to_nat i)) by lia. reflexivity.
Qed.
Lemma rdn_app (l1 l2 : list N) : rdn (l1 ++ l2) (lenN l1) = Ok l1.
Proof.
  unfold rdn. rewrite lenN_app, firstn_lenN_app.
  destruct (N.leb_spec (lenN l1) (lenN l1 + lenN l2)); [reflexivity|lia].
Qed.
Lemma adv_app (l1 l2 : list N) : adv (l1 ++ l2) (lenN l1) = Ok l2.
Proof.
  unfold adv. rewrite lenN_app, skipn_lenN_app.
  destruct (N.leb_spec (lenN l1) (lenN l1 + lenN l2)); [reflexivity|lia].
Qed.
Lemma adv_cons_1 b (p : list N) : adv (b :: p) 1 = Ok p.
Proof. exact (adv_app [b] p). Qed.

Lemma bytes_ok_app l1 l2 : bytes_ok (l1 ++ l2) <-> bytes_ok l1 /\ bytes_ok l2.
Proof. apply Forall_app. Qed.
Lemma bytes_ok_cons b l : bytes_ok (b :: l) <-> b < 256 /\ bytes_ok l.
Proof.
  split; [intro H; inversion H; auto|intros [? ?]; constructor; auto].
Qed.
Lemma bytes_okb_spec l : bytes_okb l = true <-> bytes_ok l.
Proof.
  unfold bytes_okb, bytes_ok. rewrite forallb_forall, Forall_forall.
  split; intros H x Hx; specialize (H x Hx); unfold byte_okb, byte_ok in *; lia.
Qed.
