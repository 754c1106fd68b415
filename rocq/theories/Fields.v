(** The two Pasta fields used by Orchard, as integers modulo a constant. *)
From Coq Require Import String ZArith List Bool.
From Coq Require Import Init.Byte.
From Verif Require Import Prelude.
Import ListNotations.
Open Scope Z_scope.

(** src/constants.rs:14,18 (T_Q, T_P). *)
Definition t_q : Z := 45560315531506369815346746415080538113.
Definition t_p : Z := 45560315531419706090280762371685220353.

(** pasta_curves: modulus of pallas::Base (Fp) and pallas::Scalar (Fq);
    src/constants.rs:12-18 states them as 2^254 + T_P and 2^254 + T_Q. *)
Definition pmod : Z := 0x40000000000000000000000000000000224698fc094cf91b992d30ed00000001.
Definition qmod : Z := 0x40000000000000000000000000000000224698fc0994a8dd8c46eb2100000001.

(** src/constants.rs:10,21,24,27. *)
Definition merkle_depth : nat := 32.
Definition l_orchard_base : nat := 255.
Definition l_orchard_scalar : nat := 255.
Definition l_value : nat := 64.

Definition is_base (x : Z) : Prop := 0 <= x < pmod.
Definition is_scalar (x : Z) : Prop := 0 <= x < qmod.
Definition is_u64 (x : Z) : Prop := 0 <= x < 2 ^ 64.

(** ff::PrimeField::to_repr for both fields: 32 bytes little-endian. *)
Definition to_repr (x : Z) : bytes := le_bytes 32 x.

(** ff::PrimeField::from_repr: 32 bytes little-endian, rejecting non-canonical values. *)
Definition base_from_repr (b : bytes) : option Z :=
  if le_val b <? pmod then Some (le_val b) else None.
Definition scalar_from_repr (b : bytes) : option Z :=
  if le_val b <? qmod then Some (le_val b) else None.

(** src/spec.rs:177-179 to_base and 186-188 to_scalar (from_uniform_bytes: 64 bytes
    little-endian, reduced). *)
Definition to_base (b : bytes) : Z := le_val b mod pmod.
Definition to_scalar (b : bytes) : Z := le_val b mod qmod.

(** src/spec.rs:194-196 mod_r_p: from_repr(x.to_repr()).unwrap(). *)
Definition mod_r_p (x : Z) : outcome Z :=
  unwrap "mod_r_p: from_repr" (scalar_from_repr (to_repr x)).

(** PrimeFieldBits::to_le_bits().take(255). *)
Definition base_bits (x : Z) : list bool := le_bits l_orchard_base x.
