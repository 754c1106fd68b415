(** Proofs of C56. *)
From Coq Require Import String ZArith List Bool Lia Znumtheory.
From Coq Require Import Init.Byte.
From Verif Require Import Prelude Fields Sinsemilla Constants Spec PreludeFacts NumTheory CurveFacts.
Import ListNotations.
Open Scope Z_scope.

Lemma pallas_coordinates_nonzero : forall x y,
  is_base x -> is_base y -> on_pallas x y -> x <> 0 /\ y <> 0.
Proof.
  unfold on_pallas. intros x y Hx Hy H. split; intro E; subst.
  - apply (no_sqrt_of_5 y). rewrite H. reflexivity.
  - apply (no_cuberoot_of_minus_5 x). pose proof pmod_pos.
    apply (proj2 (mod_eq_divide pmod (x * x * x) (-5) ltac:(lia))).
    replace (x * x * x - -5) with (x * x * x + 5 - 0 * 0) by ring.
    apply (proj1 (mod_eq_divide pmod (x * x * x + 5) (0 * 0) ltac:(lia))). symmetry. exact H.
Qed.

Lemma constants_ok :
  pmod = 2 ^ 254 + t_p /\ qmod = 2 ^ 254 + t_q /\ pmod < qmod /\
  (2 ^ Z.of_nat sinsemilla_k * le_const inv_two_pow_k_bytes) mod pmod = 1 /\
  2 ^ sinsemilla_c <= (qmod - 1) / 2 /\ (forall c, sinsemilla_c < c -> (qmod - 1) / 2 < 2 ^ c) /\
  2 ^ (Z.of_nat l_orchard_base - 1) <= pmod < 2 ^ Z.of_nat l_orchard_base /\
  2 ^ (Z.of_nat l_orchard_scalar - 1) <= qmod < 2 ^ Z.of_nat l_orchard_scalar.
Proof.
  split; [vm_compute; reflexivity|]. split; [vm_compute; reflexivity|].
  split; [vm_compute; reflexivity|]. split; [vm_compute; reflexivity|].
  split; [vm_compute; intro H; discriminate H|]. split.
  - intros c Hc. apply Z.lt_le_trans with (2 ^ 254); [vm_compute; reflexivity|].
    apply Z.pow_le_mono_r; [lia|]. unfold sinsemilla_c in Hc. lia.
  - repeat split; vm_compute; (reflexivity || (intro H; discriminate H)).
Qed.

Definition on_curve_b (P : Z * Z) : bool :=
  let (x, y) := P in
  (0 <=? x) && (x <? pmod) && (0 <=? y) && (y <? pmod) &&
  ((y * y) mod pmod =? (x * x * x + 5) mod pmod).

Lemma on_curve_b_ok : forall P, on_curve_b P = true ->
  is_base (fst P) /\ is_base (snd P) /\ on_pallas (fst P) (snd P).
Proof.
  intros [x y] H. unfold on_curve_b in H. rewrite !andb_true_iff in H.
  destruct H as ((((H1 & H2) & H3) & H4) & H5). cbn [fst snd]. unfold is_base, on_pallas.
  apply Z.leb_le in H1, H3. apply Z.ltb_lt in H2, H4. apply Z.eqb_eq in H5. auto.
Qed.

Lemma hard_coded_on_curve :
  Forall (fun P => is_base (fst P) /\ is_base (snd P) /\ on_pallas (fst P) (snd P)) hard_coded_points.
Proof.
  assert (H : forallb on_curve_b hard_coded_points = true) by (vm_compute; reflexivity).
  rewrite forallb_forall in H. apply Forall_forall. intros P HP. apply on_curve_b_ok. apply H. exact HP.
Qed.
