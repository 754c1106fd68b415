(** Property C76: commitments and randomized keys reveal nothing. *)
From Coq Require Import String ZArith List Bool.
From Coq Require Import Init.Byte.
From Verif Require Import Prelude Fields Curve Oracles Sinsemilla RedPallas Value Keys Note PallasCurve PallasLaws RealOracles
  HidingSpec HidingFacts.
Import ListNotations.
Open Scope Z_scope.

(** Whatever the value is, each point is its commitment for exactly one trapdoor. *)
Theorem C76_value_commitments_hide :
  forall (R : Type) (rng_b : R -> nat -> bytes * R) (rng_i : R -> nat -> nat * R) (rng_p : R -> pallas_point * R),
  let OR := real_oracles R rng_b rng_i rng_p in
  forall (v : Z) (cv : pallas_point), Z.abs v < 2 ^ 64 ->
  exactly_one (fun rcv => is_scalar rcv /\ @derive_cv pallas OR v rcv = Ret cv).
Proof. exact value_hides. Qed.
Print Assumptions C76_value_commitments_hide.

(** Whatever the note is, each point is its commitment for exactly one trapdoor; or it has no commitment, and
    that does not depend on the trapdoor. *)
Theorem C76_note_commitments_hide :
  forall (R : Type) (rng_b : R -> nat -> bytes * R) (rng_i : R -> nat -> nat * R) (rng_p : R -> pallas_point * R),
  let OR := real_oracles R rng_b rng_i rng_p in
  forall (g_d pk_d : bytes) (v rho psi : Z),
  (forall rcm, @note_commitment_derive pallas OR g_d pk_d v rho psi rcm = None) \/
  (forall cm : pallas_point, exactly_one (fun rcm => is_scalar rcm /\ @note_commitment_derive pallas OR g_d pk_d v rho psi rcm = Some cm)).
Proof. exact note_hides. Qed.
Print Assumptions C76_note_commitments_hide.

(** Whatever the spend validating key is, each point is its randomization for exactly one randomizer. *)
Theorem C76_randomized_keys_hide :
  forall (R : Type) (rng_b : R -> nat -> bytes * R) (rng_i : R -> nat -> nat * R) (rng_p : R -> pallas_point * R),
  let OR := real_oracles R rng_b rng_i rng_p in
  forall ak rk : pallas_point,
  exactly_one (fun alpha => is_scalar alpha /\ @vk_randomize pallas OR ak alpha = rk).
Proof. exact key_hides. Qed.
Print Assumptions C76_randomized_keys_hide.

(** An incoming viewing key says nothing about the keys it was made from: for any two pairs of keys, shifting
    the trapdoor by one fixed amount gives the same incoming viewing keys; unless a pair has none at all. *)
Theorem C76_incoming_viewing_keys_hide :
  forall (R : Type) (rng_b : R -> nat -> bytes * R) (rng_i : R -> nat -> nat * R) (rng_p : R -> pallas_point * R),
  let OR := real_oracles R rng_b rng_i rng_p in
  forall ak nk ak' nk' : Z,
  (forall rivk, @commit_ivk pallas OR ak nk rivk = None) \/ (forall rivk, @commit_ivk pallas OR ak' nk' rivk = None) \/
  exists d, is_scalar d /\ forall rivk, @commit_ivk pallas OR ak' nk' ((rivk + d) mod qmod) = @commit_ivk pallas OR ak nk rivk.
Proof. exact ivk_hides. Qed.
Print Assumptions C76_incoming_viewing_keys_hide.

(** The trapdoors and randomizers come from 64 bytes reduced modulo the group order. The 64-byte strings reduced
    to a given scalar are s, s + q, s + 2q, ...: n of them, where n differs by at most one between scalars. *)
Theorem C76_wide_reduction_is_almost_uniform :
  forall s, is_scalar s -> exists n, (n = 2 ^ 512 / qmod \/ n = 2 ^ 512 / qmod + 1) /\
  forall b, length b = 64%nat -> (to_scalar b = s <-> exists k, 0 <= k < n /\ b = le_bytes 64 (s + k * qmod)).
Proof. exact to_scalar_uniform. Qed.
Print Assumptions C76_wide_reduction_is_almost_uniform.

Example C76_ex : Z.abs (- (2 ^ 64 - 1)) < 2 ^ 64 /\ is_scalar (qmod - 1) /\ length (repeat xff 64) = 64%nat.
Proof. split; [reflexivity|]. split; [split; [discriminate|reflexivity]|reflexivity]. Qed.
