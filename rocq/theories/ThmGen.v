(** Property C68: the points the crate derives by hashing to the curve. *)
From Coq Require Import String ZArith List Bool.
From Coq Require Import Init.Byte.
From Verif Require Import Prelude Fields Curve Oracles RedPallas Sinsemilla Value Keys Note GenSpec GenFacts Toy ToyFacts.
Import ListNotations.
Open Scope Z_scope.

(** C68: no two of them coincide unless two different inputs of the group hash collide. Here the 1024 Sinsemilla
    generators, the diversified bases of all diversifiers, and the nine single points are all different cases. *)
Theorem C68_generators_coincide_only_on_a_hash_collision :
  forall (C : Curve) (OR : @Oracles C) (L : CurveLaws C) (g g' : generator),
  generator_ok g -> generator_ok g' -> generator_point g = generator_point g' -> g = g' \/ hash_collision g g'.
Proof. exact @generators_distinct. Qed.
Print Assumptions C68_generators_coincide_only_on_a_hash_collision.

Example C68_has_instances : generator_ok (Sinsemilla_S 256) /\ generator_ok (Diversified (repeat x00 11)) /\ Sinsemilla_S 0 <> Sinsemilla_S 256.
Proof. split; [split; [discriminate|reflexivity]|]. split; [reflexivity|discriminate]. Qed.
