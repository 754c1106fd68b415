(** Consequences of [CurveLaws]: the group is a Z-module of prime order, encodings are
    injective. *)
From Coq Require Import String ZArith List Bool Lia Znumtheory.
From Coq Require Import Init.Byte.
From Verif Require Import Prelude Fields Curve PreludeFacts NumTheory.
Import ListNotations.
Open Scope Z_scope.

Lemma pmod_pos : 0 < pmod. Proof. reflexivity. Qed.
Lemma qmod_pos : 0 < qmod. Proof. reflexivity. Qed.
Lemma pmod_lt_qmod : pmod < qmod. Proof. reflexivity. Qed.
Lemma pmod_lt_pow255 : pmod < 2 ^ 255. Proof. reflexivity. Qed.
Lemma qmod_lt_pow255 : qmod < 2 ^ 255. Proof. reflexivity. Qed.
Lemma pow256_32 : 256 ^ Z.of_nat 32 = 2 * 2 ^ 255. Proof. reflexivity. Qed.
Lemma pmod_odd : pmod = 2 * (pmod / 2) + 1. Proof. reflexivity. Qed.

#[global] Opaque pmod qmod.

Section Facts.
  Context {C : Curve}.
  Variable L : CurveLaws C.

  Lemma add_comm : forall P Q, pt_add P Q = pt_add Q P.
  Proof. apply (pt_add_comm C L). Qed.
  Lemma add_assoc : forall P Q R, pt_add P (pt_add Q R) = pt_add (pt_add P Q) R.
  Proof. apply (pt_add_assoc C L). Qed.
  Lemma add_id_r : forall P, pt_add P pt_id = P.
  Proof. apply (pt_add_id C L). Qed.
  Lemma add_id_l : forall P, pt_add pt_id P = P.
  Proof. intro P. rewrite add_comm. apply add_id_r. Qed.
  Lemma add_neg_r : forall P, pt_add P (pt_neg P) = pt_id.
  Proof. apply (pt_add_neg C L). Qed.
  Lemma add_neg_l : forall P, pt_add (pt_neg P) P = pt_id.
  Proof. intro P. rewrite add_comm. apply add_neg_r. Qed.
  Lemma add_swap : forall P Q R, pt_add P (pt_add Q R) = pt_add Q (pt_add P R).
  Proof. intros. rewrite !add_assoc, (add_comm P Q). reflexivity. Qed.
  Lemma add_4 : forall P Q R S,
    pt_add (pt_add P Q) (pt_add R S) = pt_add (pt_add P R) (pt_add Q S).
  Proof. intros. rewrite <- !add_assoc. rewrite (add_swap Q R S). reflexivity. Qed.

  Lemma add_cancel_l : forall P Q R, pt_add P Q = pt_add P R -> Q = R.
  Proof.
    intros P Q R H. rewrite <- (add_id_l Q), <- (add_id_l R), <- (add_neg_l P), <- !add_assoc, H.
    reflexivity.
  Qed.
  Lemma add_cancel_r : forall P Q R, pt_add Q P = pt_add R P -> Q = R.
  Proof. intros P Q R H. apply (add_cancel_l P). rewrite (add_comm P Q), (add_comm P R). exact H. Qed.

  Lemma neg_unique : forall P Q, pt_add P Q = pt_id -> Q = pt_neg P.
  Proof. intros P Q H. apply (add_cancel_l P). rewrite H, add_neg_r. reflexivity. Qed.
  Lemma neg_neg : forall P, pt_neg (pt_neg P) = P.
  Proof. intro P. symmetry. apply neg_unique. apply add_neg_l. Qed.
  Lemma neg_id : pt_neg pt_id = pt_id.
  Proof. symmetry. apply neg_unique. apply add_id_l. Qed.
  Lemma neg_add : forall P Q, pt_neg (pt_add P Q) = pt_add (pt_neg P) (pt_neg Q).
  Proof.
    intros. symmetry. apply neg_unique. rewrite add_4, !add_neg_r. apply add_id_l.
  Qed.
  Lemma neg_inj : forall P Q, pt_neg P = pt_neg Q -> P = Q.
  Proof. intros P Q H. rewrite <- (neg_neg P), H. apply neg_neg. Qed.

  Lemma sub_self : forall P, pt_sub P P = pt_id.
  Proof. apply add_neg_r. Qed.
  Lemma sub_id_iff : forall P Q, pt_sub P Q = pt_id <-> P = Q.
  Proof.
    intros P Q. unfold pt_sub. split; intro H.
    - apply (add_cancel_r (pt_neg Q)). rewrite H, add_neg_r. reflexivity.
    - subst. apply add_neg_r.
  Qed.
  Lemma add_sub : forall P Q, pt_sub (pt_add P Q) Q = P.
  Proof. intros. unfold pt_sub. rewrite <- add_assoc, add_neg_r. apply add_id_r. Qed.
  Lemma sub_add : forall P Q, pt_add (pt_sub P Q) Q = P.
  Proof. intros. unfold pt_sub. rewrite <- add_assoc, add_neg_l. apply add_id_r. Qed.

  Lemma is_id_true : forall P, pt_is_id P = true <-> P = pt_id.
  Proof. intro P. unfold pt_is_id. apply (pt_eqb_spec C L). Qed.
  Lemma is_id_false : forall P, pt_is_id P = false <-> P <> pt_id.
  Proof.
    intro P. rewrite <- is_id_true. destruct (pt_is_id P); split; congruence.
  Qed.
  Lemma eqb_true : forall P Q, pt_eqb P Q = true <-> P = Q.
  Proof. apply (pt_eqb_spec C L). Qed.
  Lemma eqb_refl : forall P, pt_eqb P P = true.
  Proof. intro P. apply eqb_true. reflexivity. Qed.
  Lemma pt_eq_dec : forall P Q : point, P = Q \/ P <> Q.
  Proof.
    intros P Q. destruct (pt_eqb P Q) eqn:E.
    - left. apply eqb_true. assumption.
    - right. intro H. apply eqb_true in H. congruence.
  Qed.

  (** * Scalar multiplication *)
  Lemma mul_pos_succ : forall k P, pt_mul_pos (Pos.succ k) P = pt_add P (pt_mul_pos k P).
  Proof.
    induction k as [k IH|k IH|]; intro P; cbn [Pos.succ pt_mul_pos]; [| reflexivity | reflexivity].
    rewrite IH. rewrite <- !add_assoc. f_equal. rewrite add_swap. reflexivity.
  Qed.

  Lemma mul_pos_add : forall a b P, pt_mul_pos (a + b) P = pt_add (pt_mul_pos a P) (pt_mul_pos b P).
  Proof.
    intros a b P. induction a as [|a IH] using Pos.peano_ind.
    - rewrite Pos.add_1_l. apply mul_pos_succ.
    - rewrite Pos.add_succ_l, !mul_pos_succ, IH. apply add_assoc.
  Qed.

  Lemma mul_0 : forall P, pt_mul 0 P = pt_id.
  Proof. reflexivity. Qed.
  Lemma mul_1 : forall P, pt_mul 1 P = P.
  Proof. reflexivity. Qed.

  Lemma mul_opp : forall k P, pt_mul (- k) P = pt_neg (pt_mul k P).
  Proof.
    intros [|k|k] P; cbn [Z.opp pt_mul].
    - rewrite neg_id. reflexivity.
    - reflexivity.
    - rewrite neg_neg. reflexivity.
  Qed.

  Lemma mul_pos_sub : forall a b P,
    pt_mul (Z.pos_sub a b) P = pt_add (pt_mul_pos a P) (pt_neg (pt_mul_pos b P)).
  Proof.
    intros a b P. rewrite Z.pos_sub_spec. destruct (Pos.compare_spec a b) as [->|H|H].
    - rewrite add_neg_r. reflexivity.
    - cbn [pt_mul]. rewrite <- (Pos.sub_add b a H) at 2. rewrite mul_pos_add, neg_add.
      rewrite add_comm, <- add_assoc, add_neg_l, add_id_r. reflexivity.
    - cbn [pt_mul]. rewrite <- (Pos.sub_add a b H) at 2. rewrite mul_pos_add.
      rewrite <- add_assoc, add_neg_r, add_id_r. reflexivity.
  Qed.

  Lemma mul_add : forall a b P, pt_mul (a + b) P = pt_add (pt_mul a P) (pt_mul b P).
  Proof.
    intros [|a|a] [|b|b] P; cbn [Z.add pt_mul]; rewrite ?add_id_l, ?add_id_r; try reflexivity.
    - apply mul_pos_add.
    - apply mul_pos_sub.
    - rewrite mul_pos_sub. apply add_comm.
    - rewrite mul_pos_add. apply neg_add.
  Qed.

  Lemma mul_sub : forall a b P, pt_mul (a - b) P = pt_sub (pt_mul a P) (pt_mul b P).
  Proof. intros. unfold Z.sub. rewrite mul_add, mul_opp. reflexivity. Qed.

  Lemma mul_neg_r : forall k P, pt_mul k (pt_neg P) = pt_neg (pt_mul k P).
  Proof.
    assert (HP : forall k P, pt_mul_pos k (pt_neg P) = pt_neg (pt_mul_pos k P)).
    { intros k P. induction k as [|k IH] using Pos.peano_ind; [reflexivity|].
      rewrite !mul_pos_succ, IH, neg_add. reflexivity. }
    intros [|k|k] P; cbn [pt_mul].
    - symmetry. apply neg_id.
    - apply HP.
    - rewrite HP. reflexivity.
  Qed.

  Lemma mul_add_r : forall k P Q, pt_mul k (pt_add P Q) = pt_add (pt_mul k P) (pt_mul k Q).
  Proof.
    assert (HP : forall k P Q, pt_mul_pos k (pt_add P Q) = pt_add (pt_mul_pos k P) (pt_mul_pos k Q)).
    { intros k P Q. induction k as [|k IH] using Pos.peano_ind; [reflexivity|].
      rewrite !mul_pos_succ, IH. apply add_4. }
    intros [|k|k] P Q; cbn [pt_mul].
    - symmetry. apply add_id_r.
    - apply HP.
    - rewrite HP. apply neg_add.
  Qed.

  Lemma mul_id : forall k, pt_mul k pt_id = pt_id.
  Proof.
    intro k. apply (add_cancel_l (pt_mul k pt_id)). rewrite <- mul_add_r, !add_id_r. reflexivity.
  Qed.

  Lemma mul_mul : forall a b P, pt_mul (a * b) P = pt_mul a (pt_mul b P).
  Proof.
    intros a b P.
    assert (HN : forall n : nat, pt_mul (Z.of_nat n * b) P = pt_mul (Z.of_nat n) (pt_mul b P)).
    { induction n as [|n IH]; [reflexivity|].
      rewrite Nat2Z.inj_succ. unfold Z.succ. rewrite Z.mul_add_distr_r, !mul_add, IH, Z.mul_1_l, mul_1.
      reflexivity. }
    destruct (Z.le_ge_cases 0 a) as [H|H].
    - rewrite <- (Z2Nat.id a H). apply HN.
    - replace a with (- Z.of_nat (Z.to_nat (- a))) by lia.
      rewrite Z.mul_opp_l, !mul_opp, HN. reflexivity.
  Qed.

  Lemma mul_comm_scalar : forall a b P, pt_mul a (pt_mul b P) = pt_mul b (pt_mul a P).
  Proof. intros. rewrite <- !mul_mul, Z.mul_comm. reflexivity. Qed.

  Lemma mul_order : forall P, pt_mul qmod P = pt_id.
  Proof. apply (pt_order C L). Qed.

  Lemma mul_mod : forall k P, pt_mul (k mod qmod) P = pt_mul k P.
  Proof.
    intros k P. pose proof qmod_pos.
    rewrite (Z.div_mod k qmod) at 2 by lia.
    rewrite mul_add, Z.mul_comm, mul_mul, mul_order, mul_id, add_id_l. reflexivity.
  Qed.

  Lemma mul_mod_eq : forall a b P, a mod qmod = b mod qmod -> pt_mul a P = pt_mul b P.
  Proof. intros a b P H. rewrite <- (mul_mod a), H. apply mul_mod. Qed.

  (** The group has prime order, so only multiples of q kill a non-identity point. *)
  Lemma mul_eq_id : forall k P, pt_mul k P = pt_id -> P <> pt_id -> k mod qmod = 0.
  Proof.
    intros k P H HP. destruct (Z.eq_dec (k mod qmod) 0) as [|Hk]; [assumption|exfalso].
    assert (HR : rel_prime k qmod).
    { apply rel_prime_sym. apply prime_rel_prime; [exact prime_qmod|].
      intro D. apply Hk. apply Z.mod_divide; [|assumption]. pose proof qmod_pos; lia. }
    apply rel_prime_bezout in HR. destruct HR as [u v E].
    apply HP. rewrite <- (mul_1 P), <- E, mul_add, !mul_mul, H, mul_order, !mul_id.
    apply add_id_r.
  Qed.

  Lemma mul_nonid : forall k P, 0 < k < qmod -> P <> pt_id -> pt_mul k P <> pt_id.
  Proof.
    intros k P Hk HP H. apply mul_eq_id in H; [|assumption].
    rewrite Z.mod_small in H; lia.
  Qed.

  Lemma mul_inj : forall a b P, P <> pt_id -> pt_mul a P = pt_mul b P -> a mod qmod = b mod qmod.
  Proof.
    intros a b P HP H. apply mod_eq_divide; [pose proof qmod_pos; lia|].
    apply Z.mod_divide; [pose proof qmod_pos; lia|].
    apply (mul_eq_id _ P); [|assumption].
    rewrite mul_sub, H. apply sub_self.
  Qed.

  Lemma mul_inj_point : forall k P Q, k mod qmod <> 0 -> pt_mul k P = pt_mul k Q -> P = Q.
  Proof.
    intros k P Q Hk H.
    destruct (pt_eq_dec P Q) as [|Hne]; [assumption|exfalso].
    apply Hk. apply (mul_eq_id k (pt_sub P Q)).
    - unfold pt_sub. rewrite mul_add_r, mul_neg_r, H. apply add_neg_r.
    - intro E. apply Hne. apply sub_id_iff. assumption.
  Qed.

  (** * Sums *)
  Lemma fold_add_start : forall l P, fold_left pt_add l P = pt_add P (fold_left pt_add l pt_id).
  Proof.
    induction l as [|Q l IH]; intro P; cbn [fold_left].
    - symmetry. apply add_id_r.
    - rewrite IH, (IH (pt_add pt_id Q)), add_id_l. symmetry. apply add_assoc.
  Qed.
  Lemma pt_sum_cons : forall P l, pt_sum (P :: l) = pt_add P (pt_sum l).
  Proof.
    intros P l. unfold pt_sum. cbn [fold_left]. rewrite fold_add_start, add_id_l. reflexivity.
  Qed.
  Lemma pt_sum_nil : pt_sum [] = pt_id.
  Proof. reflexivity. Qed.
  Lemma pt_sum_app : forall a b, pt_sum (a ++ b) = pt_add (pt_sum a) (pt_sum b).
  Proof.
    induction a as [|P a IH]; intro b; cbn [app].
    - rewrite pt_sum_nil, add_id_l. reflexivity.
    - rewrite !pt_sum_cons, IH. apply add_assoc.
  Qed.

  (** * Coordinates and encodings *)
  Lemma x_range : forall P, 0 <= pt_x P < pmod.
  Proof. apply (pt_x_range C L). Qed.
  Lemma y_range : forall P, 0 <= pt_y P < pmod.
  Proof. apply (pt_y_range C L). Qed.
  Lemma x_id : pt_x pt_id = 0.
  Proof. apply (pt_x_zero C L). reflexivity. Qed.
  Lemma y_id : pt_y pt_id = 0.
  Proof. apply (pt_y_zero C L). reflexivity. Qed.
  Lemma x_nonzero : forall P, P <> pt_id -> 0 < pt_x P < pmod.
  Proof.
    intros P H. pose proof (x_range P). assert (pt_x P <> 0); [|lia].
    intro E. apply H. apply (pt_x_zero C L). assumption.
  Qed.
  Lemma y_nonzero : forall P, P <> pt_id -> 0 < pt_y P < pmod.
  Proof.
    intros P H. pose proof (y_range P). assert (pt_y P <> 0); [|lia].
    intro E. apply H. apply (pt_y_zero C L). assumption.
  Qed.

  (** Negation flips the parity of y. *)
  Lemma y_neg_parity : forall P, P <> pt_id -> pt_y (pt_neg P) mod 2 = 1 - pt_y P mod 2.
  Proof.
    intros P H. rewrite (pt_y_neg C L). pose proof (y_nonzero P H) as HY.
    assert (E : (- pt_y P) mod pmod = pmod - pt_y P).
    { symmetry. apply (Z.mod_unique _ _ (-1)); [left; lia | ring]. }
    rewrite E. pose proof pmod_odd. Z.div_mod_to_equations. lia.
  Qed.

  Lemma encode_length : forall P, length (pt_encode P) = 32%nat.
  Proof. intro P. apply le_bytes_length. Qed.

  Lemma encode_range : forall P, 0 <= pt_x P + 2 ^ 255 * (pt_y P mod 2) < 256 ^ Z.of_nat 32.
  Proof.
    intro P. rewrite pow256_32. pose proof (x_range P). pose proof pmod_lt_pow255.
    pose proof (Z.mod_pos_bound (pt_y P) 2). nia.
  Qed.

  Lemma encode_val : forall P, le_val (pt_encode P) = pt_x P + 2 ^ 255 * (pt_y P mod 2).
  Proof. intro P. apply le_val_le_bytes. apply encode_range. Qed.

  Lemma encode_parts : forall P Q, pt_encode P = pt_encode Q ->
    pt_x P = pt_x Q /\ pt_y P mod 2 = pt_y Q mod 2.
  Proof.
    intros P Q H. apply le_bytes_inj in H; try apply encode_range.
    pose proof (x_range P). pose proof (x_range Q). pose proof pmod_lt_pow255.
    pose proof (Z.mod_pos_bound (pt_y P) 2). pose proof (Z.mod_pos_bound (pt_y Q) 2).
    nia.
  Qed.

  Lemma encode_inj : forall P Q, pt_encode P = pt_encode Q -> P = Q.
  Proof.
    intros P Q H. pose proof (pt_decode_encode C L P) as HP. rewrite H in HP.
    rewrite (pt_decode_encode C L Q) in HP. congruence.
  Qed.

  Lemma decode_encode : forall P, pt_decode (pt_encode P) = Some P.
  Proof. apply (pt_decode_encode C L). Qed.

  Lemma encode_decode : forall b P, length b = 32%nat -> pt_decode b = Some P -> pt_encode P = b.
  Proof. apply (pt_encode_decode C L). Qed.

  (** Coordinates determine the point. *)
  Lemma coords_inj : forall P Q, pt_x P = pt_x Q -> pt_y P = pt_y Q -> P = Q.
  Proof.
    intros P Q HX HY. apply encode_inj. unfold pt_encode. rewrite HX, HY. reflexivity.
  Qed.

  Lemma encode_id : pt_encode pt_id = repeat x00 32.
  Proof. unfold pt_encode. rewrite x_id, y_id. reflexivity. Qed.

  Lemma encode_id_iff : forall P, pt_encode P = repeat x00 32 <-> P = pt_id.
  Proof.
    intro P. split; intro H; [|subst; apply encode_id].
    apply encode_inj. rewrite H, encode_id. reflexivity.
  Qed.
End Facts.
