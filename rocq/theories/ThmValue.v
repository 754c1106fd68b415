(** Properties C01-C04 (src/value.rs). *)
From Coq Require Import String ZArith List Bool Lia.
From Coq Require Import Init.Byte.
From Verif Require Import Prelude Fields Curve Oracles RedPallas Value Spec ValueFacts Toy ToyFacts.
Import ListNotations.
Open Scope Z_scope.

(** C01: [a - b] is the exact integer difference, and the [expect] inside never fires. *)
Theorem C01_sub_exact : forall a b : Z,
  0 <= a < 2 ^ 64 -> 0 <= b < 2 ^ 64 ->
  note_value_sub a b = Ret (a - b) /\ -(2 ^ 64 - 1) <= a - b <= 2 ^ 64 - 1.
Proof. exact note_value_sub_exact. Qed.
Print Assumptions C01_sub_exact.

Example C01_example : note_value_sub 0 (2 ^ 64 - 1) = Ret (-(2 ^ 64 - 1)).
Proof. reflexivity. Qed.

(** C02: one addition is exact or None; a sum of a list is exact, and fails exactly when some
    running total leaves the range. *)
Theorem C02_add_exact : forall a b : Z,
  value_sum_ok a -> value_sum_ok b ->
  (value_sum_ok (a + b) -> value_sum_add a b = Some (a + b)) /\
  (~ value_sum_ok (a + b) -> value_sum_add a b = None).
Proof. exact value_sum_add_spec. Qed.
Print Assumptions C02_add_exact.

Theorem C02_sum_exact : forall l : list Z,
  Forall value_sum_ok l ->
  (forall s, value_sum_fold l = Ok s <->
     s = zsum l /\ forall n, (n <= length l)%nat -> value_sum_ok (zsum (firstn n l))) /\
  (value_sum_fold l = Err OverflowError <->
     exists n, (n <= length l)%nat /\ ~ value_sum_ok (zsum (firstn n l))).
Proof. exact value_sum_fold_spec. Qed.
Print Assumptions C02_sum_exact.

Example C02_example_ok :
  let l := [2 ^ 64 - 1; -5; 5; - (2 ^ 64 - 1); 7] in
  Forall value_sum_ok l /\ value_sum_fold l = Ok 7.
Proof. split; [|reflexivity]. repeat constructor; unfold value_sum_ok; lia. Qed.
Example C02_example_overflow :
  let l := [2 ^ 64 - 1; 5; -5] in
  Forall value_sum_ok l /\ value_sum_fold l = Err OverflowError.
Proof. split; [|reflexivity]. repeat constructor; unfold value_sum_ok; lia. Qed.

(** C03: conversions out of a value sum, and the byte codec of a note value. *)
Theorem C03_i64_exact : forall v : Z,
  (i64_ok v -> i64_try_from v = Ok v) /\ (~ i64_ok v -> i64_try_from v = Err OverflowError).
Proof. exact i64_try_from_spec. Qed.
Print Assumptions C03_i64_exact.

Theorem C03_magnitude_sign : forall v : Z,
  value_sum_ok v ->
  exists m s, magnitude_sign v = Ret (m, s) /\ (0 <= m < 2 ^ 64) /\
              m * (match s with Positive => 1 | Negative => -1 end) = v /\
              (m = 0 -> s = Positive).
Proof. exact magnitude_sign_spec. Qed.
Print Assumptions C03_magnitude_sign.

Theorem C03_note_value_bytes :
  (forall v, 0 <= v < 2 ^ 64 ->
     length (note_value_to_bytes v) = 8%nat /\ note_value_from_bytes (note_value_to_bytes v) = v) /\
  (forall b, length b = 8%nat ->
     0 <= note_value_from_bytes b < 2 ^ 64 /\ note_value_to_bytes (note_value_from_bytes b) = b).
Proof. exact (conj note_value_codec note_value_codec_rev). Qed.
Print Assumptions C03_note_value_bytes.

Example C03_example :
  i64_try_from (- 2 ^ 63) = Ok (- 2 ^ 63) /\ i64_try_from (2 ^ 63) = Err OverflowError /\
  magnitude_sign (-(2 ^ 64 - 1)) = Ret (2 ^ 64 - 1, Negative).
Proof. repeat split; reflexivity. Qed.

(** C04: commitments to values add up, so the binding keys match. [derive_cv] is
    ValueCommitment::derive; the last argument of the total is the zero trapdoor. *)
Theorem C04_derive_total : forall (C : Curve) (OR : @Oracles C) (L : CurveLaws C) (v rcv : Z),
  value_sum_ok v ->
  derive_cv v rcv = Ret (pt_add (pt_mul v value_base_V) (pt_mul rcv value_base_R)).
Proof. exact @derive_cv_ret. Qed.
Print Assumptions C04_derive_total.

Theorem C04_commitments_add_up :
  forall (C : Curve) (OR : @Oracles C) (L : CurveLaws C)
         (l : list (Z * Z)) (cvs : list point) (total : Z) (cv0 : point),
  Forall (fun vr => value_sum_ok (fst vr) /\ is_scalar (snd vr)) l ->
  Forall2 (fun vr cv => derive_cv (fst vr) (snd vr) = Ret cv) l cvs ->
  total = zsum (map fst l) -> value_sum_ok total -> derive_cv total 0 = Ret cv0 ->
  cv_sub (cv_sum cvs) cv0 = pt_mul (zsum (map snd l)) value_base_R /\
  exists bsk bvk, into_bsk (trapdoor_sum (map snd l)) = Ret bsk /\
                  into_bvk (cv_sub (cv_sum cvs) cv0) = Ret bvk /\
                  vk_of Binding bsk = bvk.
Proof. exact @commitments_add_up. Qed.
Print Assumptions C04_commitments_add_up.

Example C04_example : exists cvs cv0,
  let l := [(5, 3); (-7, qmod - 1); (1, 12)] in
  Forall (fun vr => value_sum_ok (fst vr) /\ is_scalar (snd vr)) l /\
  Forall2 (fun vr cv => derive_cv (fst vr) (snd vr) = Ret cv) l cvs /\
  -1 = zsum (map fst l) /\ value_sum_ok (-1) /\ derive_cv (-1) 0 = Ret cv0.
Proof.
  eexists [_; _; _]. eexists. cbv zeta. split; [|split; [|split; [|split]]].
  - repeat constructor; unfold value_sum_ok, is_scalar; cbn [fst snd]; try lia; vm_compute; (reflexivity || (intro H; discriminate H)).
  - repeat constructor; apply (derive_cv_ret toy_laws); unfold value_sum_ok; cbn [fst]; lia.
  - reflexivity.
  - unfold value_sum_ok; lia.
  - apply (derive_cv_ret toy_laws). unfold value_sum_ok. lia.
Qed.
