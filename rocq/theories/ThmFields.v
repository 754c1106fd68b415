(** Property C56: the arithmetic facts about Pallas the code relies on. *)
From Coq Require Import String ZArith List Bool Lia Znumtheory.
From Coq Require Import Init.Byte.
From Verif Require Import Prelude Fields Sinsemilla Constants Spec NumTheory CurveFacts CodecFacts FieldFacts.
Import ListNotations.
Open Scope Z_scope.

Theorem C56_primes : prime pmod /\ prime qmod.
Proof. exact (conj prime_pmod prime_qmod). Qed.
Print Assumptions C56_primes.

(** [on_pallas x y]: y^2 = x^3 + 5 in the base field. *)
Theorem C56_no_zero_coordinate : forall x y,
  is_base x -> is_base y -> on_pallas x y -> x <> 0 /\ y <> 0.
Proof. exact pallas_coordinates_nonzero. Qed.
Print Assumptions C56_no_zero_coordinate.

Example C56_point : is_base (fst gen_spend_auth_g) /\ is_base (snd gen_spend_auth_g) /\
  on_pallas (fst gen_spend_auth_g) (snd gen_spend_auth_g).
Proof. unfold is_base, on_pallas. repeat split; vm_compute; (reflexivity || (intro H; discriminate H)). Qed.

(** mod_r_p never panics and loses nothing. *)
Theorem C56_mod_r_p : forall x, is_base x -> mod_r_p x = Ret x.
Proof. exact mod_r_p_ret. Qed.
Print Assumptions C56_mod_r_p.

(** The constants of src/constants.rs and src/constants/sinsemilla.rs. *)
Theorem C56_constants :
  pmod = 2 ^ 254 + t_p /\ qmod = 2 ^ 254 + t_q /\ pmod < qmod /\
  (2 ^ Z.of_nat sinsemilla_k * le_const inv_two_pow_k_bytes) mod pmod = 1 /\
  2 ^ sinsemilla_c <= (qmod - 1) / 2 /\ (forall c, sinsemilla_c < c -> (qmod - 1) / 2 < 2 ^ c) /\
  2 ^ (Z.of_nat l_orchard_base - 1) <= pmod < 2 ^ Z.of_nat l_orchard_base /\
  2 ^ (Z.of_nat l_orchard_scalar - 1) <= qmod < 2 ^ Z.of_nat l_orchard_scalar.
Proof. exact constants_ok. Qed.
Print Assumptions C56_constants.

(** Every hard-coded generator is a point of the curve with canonical coordinates. *)
Theorem C56_generators_on_curve :
  Forall (fun P => is_base (fst P) /\ is_base (snd P) /\ on_pallas (fst P) (snd P)) hard_coded_points.
Proof. exact hard_coded_on_curve. Qed.
Print Assumptions C56_generators_on_curve.
