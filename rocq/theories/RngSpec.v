(** What was drawn from the caller's random number generator (C08, C72, C73). *)
From Coq Require Import ZArith List Permutation.
From Coq Require Import Init.Byte.
From Verif Require Import Prelude Fields Curve Oracles.
Import ListNotations.
Open Scope Z_scope.

Section Spec.
  Context {C : Curve} {OR : @Oracles C}.

  Inductive draw := Bytes (b : bytes) | Index (n i : nat) | Point (P : point).

  (** The successive draws between two states of the generator. *)
  Inductive trace : rng -> list draw -> rng -> Prop :=
  | trace_nil : forall r, trace r [] r
  | trace_bytes : forall n r b r1 l r', rng_bytes n r = (b, r1) -> trace r1 l r' -> trace r (Bytes b :: l) r'
  | trace_index : forall n r i r1 l r', rng_below n r = (i, r1) -> trace r1 l r' -> trace r (Index n i :: l) r'
  | trace_point : forall r P r1 l r', o_rng_point r = (P, r1) -> trace r1 l r' -> trace r (Point P :: l) r'.

  (** Between the two states the values [s] were drawn, each by a draw of its own. *)
  Definition draws (r : rng) (s : list draw) (r' : rng) : Prop :=
    exists l rest, trace r l r' /\ Permutation l (s ++ rest).
End Spec.
