(** The external functions the crate is linked against, written out: BLAKE2b, hash-to-curve, Poseidon,
    ChaCha20-Poly1305, FF1-AES256.  The random number generator stays a parameter. *)
From Coq Require Import ZArith List.
From Coq Require Import Init.Byte.
From Verif Require Import Prelude Fields Curve Oracles PallasCurve Blake2b Poseidon HashToCurve ChaChaPoly Ff1Aes.
Open Scope Z_scope.

Definition real_oracles (R : Type) (rng_b : R -> nat -> bytes * R) (rng_i : R -> nat -> nat * R)
  (rng_p : R -> pallas_point * R) : @Oracles pallas :=
  @Build_Oracles pallas blake2b_real hash_to_curve_real poseidon_real keystream_real tag_real ff1_real
    R rng_b rng_i rng_p.
