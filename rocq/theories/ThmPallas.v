(** C60: the curve of pasta_curves satisfies every law that the other theorems assume. *)
From Coq Require Import String ZArith List Bool Lia.
From Coq Require Import Init.Byte.
From Verif Require Import Prelude Fields Curve Spec Constants PallasCurve PallasOrder PallasLaws PallasUse.
Import ListNotations.
Open Scope Z_scope.

(** The record of laws that theorems about keys, notes, signatures, ... take as a premise: abelian
    group, order q, coordinates, signs, and the 32-byte encoding. *)
Theorem C60_pallas_satisfies_the_laws : CurveLaws pallas.
Proof. exact pallas_laws. Qed.
Print Assumptions C60_pallas_satisfies_the_laws.

(** The points are the identity and the solutions of y^2 = x^3 + 5 over F_p. *)
Theorem C60_points_are_the_solutions : forall x y,
  (exists P : @point pallas, @pt_x pallas P = x /\ @pt_y pallas P = y /\ P <> @pt_id pallas) <->
  is_base x /\ is_base y /\ on_pallas x y.
Proof. exact pallas_points. Qed.
Print Assumptions C60_points_are_the_solutions.

(** The group is cyclic of order exactly q: every point has exactly one discrete logarithm. *)
Theorem C60_prime_order : forall P : @point pallas,
  exists k, 0 <= k < qmod /\ P = @pt_mul pallas k pallas_generator /\
  forall k', 0 <= k' < qmod -> P = @pt_mul pallas k' pallas_generator -> k' = k.
Proof. exact pallas_scalars. Qed.
Print Assumptions C60_prime_order.

(** Decoding accepts exactly the canonical encodings. *)
Theorem C60_decoding_is_exact : forall (b : bytes) (P : @point pallas), length b = 32%nat ->
  (@pt_decode pallas b = Some P <-> b = @pt_encode pallas P).
Proof. exact pallas_decode_exact. Qed.
Print Assumptions C60_decoding_is_exact.

(** The generators the crate hard-codes are points other than the identity, so generate the group. *)
Theorem C60_hard_coded_generators :
  Forall (fun g => exists P : @point pallas, P <> @pt_id pallas /\ @pt_x pallas P = fst g /\ @pt_y pallas P = snd g)
    hard_coded_points.
Proof. exact hard_coded_points_ok. Qed.
Print Assumptions C60_hard_coded_generators.

(** A concrete sum, and a 32-byte string that is not an encoding (x = p + 1 is not canonical). *)
Example C60_concrete :
  (coords (@pt_add pallas pallas_generator pallas_generator) =
    Some (12664759760331458874453076485325239921471337210849432813230171084403110838275,
          19449452489080454700052938888178047022259553573804486106032048451047634501628)) /\
  (if pallas_decode (le_bytes 32 (pmod + 1)) then false else true) = true /\ length hard_coded_points = 9%nat.
Proof. split; [exact generator_double|]. split; [vm_compute; reflexivity|]. reflexivity. Qed.
