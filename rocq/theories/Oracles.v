(** Functions of external crates that the model does not open. Theorems hold for every
    choice of them. Their outputs are normalised by the wrappers below (length, range), which
    is the identity on the real functions (C64_outputs_are_not_cut). *)
From Coq Require Import String ZArith List Bool.
From Coq Require Import Init.Byte.
From Verif Require Import Prelude Fields Curve.
Import ListNotations.
Open Scope Z_scope.

Class Oracles {C : Curve} : Type := {
  (** BLAKE2b: digest length, 16-byte personalisation, message (blake2b_simd). *)
  o_blake2b : nat -> bytes -> bytes -> bytes;
  (** pallas::Point::hash_to_curve(domain)(message) (pasta_curves). *)
  o_hash_to_curve : bytes -> bytes -> point;
  (** Poseidon P128Pow5T3 on two field elements (halo2_gadgets). *)
  o_poseidon : Z -> Z -> Z;
  (** ChaCha20 key stream byte [i] after the Poly1305 key block, zero nonce. *)
  o_keystream : bytes -> nat -> byte;
  (** Poly1305 tag of a ciphertext under the one-time key derived from the AEAD key. *)
  o_tag : bytes -> bytes -> bytes;
  (** FF1-AES256 round function: key, round number, half block (fpe). *)
  o_ff1 : bytes -> nat -> Z -> Z;
  (** The random number generator: state, bytes, bounded index, random point. *)
  rng : Type;
  o_rng_bytes : rng -> nat -> bytes * rng;
  o_rng_below : rng -> nat -> nat * rng;
  o_rng_point : rng -> point * rng
}.

Section Wrap.
  Context {C : Curve} {OR : @Oracles C}.

  Definition blake2b (n : nat) (pers : string) (msg : bytes) : bytes :=
    fit n (o_blake2b n (bytes_of_string pers) msg).

  Definition hash_to_curve (domain : string) (msg : bytes) : point :=
    o_hash_to_curve (bytes_of_string domain) msg.

  (** src/spec.rs:233-236 prf_nf. *)
  Definition prf_nf (nk rho : Z) : Z := o_poseidon nk rho mod pmod.

  Definition keystream (key : bytes) (n : nat) : bytes := map (o_keystream key) (seq 0 n).
  Definition poly_tag (key ct : bytes) : bytes := fit 16 (o_tag key ct).

  Definition rng_bytes (n : nat) (r : rng) : bytes * rng :=
    let (b, r') := o_rng_bytes r n in (fit n b, r').

  (** A uniform index below [n] (rand's gen_index), for [n > 0]. *)
  Definition rng_below (n : nat) (r : rng) : nat * rng :=
    let (i, r') := o_rng_below r n in (Nat.modulo i n, r').

  (** Field::random of pasta_curves: 64 random bytes reduced. *)
  Definition rng_scalar (r : rng) : Z * rng :=
    let (b, r') := rng_bytes 64 r in (to_scalar b, r').
  Definition rng_base (r : rng) : Z * rng :=
    let (b, r') := rng_bytes 64 r in (to_base b, r').
  (** RngCore::next_u32. *)
  Definition rng_u32 (r : rng) : Z * rng :=
    let (b, r') := rng_bytes 4 r in (le_val b, r').

  (** zcash_spec::PrfExpand: BLAKE2b-512("Zcash_ExpandSeed", key || domain byte || args). *)
  Definition prf_expand_input (key : bytes) (dom : byte) (args : list bytes) : bytes :=
    key ++ [dom] ++ List.concat args.
  Definition prf_expand (key : bytes) (dom : byte) (args : list bytes) : bytes :=
    blake2b 64 "Zcash_ExpandSeed" (prf_expand_input key dom args).

  (** Domain bytes of zcash_spec::PrfExpand used by this crate. *)
  Definition dom_orchard_esk : byte := x04.
  Definition dom_orchard_rcm : byte := x05.
  Definition dom_orchard_ask : byte := x06.
  Definition dom_orchard_nk : byte := x07.
  Definition dom_orchard_rivk : byte := x08.
  Definition dom_psi : byte := x09.
  Definition dom_orchard_zip32_child : byte := x81.
  Definition dom_orchard_dk_ovk : byte := x82.
  Definition dom_orchard_rivk_internal : byte := x83.
End Wrap.
