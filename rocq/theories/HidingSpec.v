(** Uniqueness, spelled out (C76). *)
From Coq Require Import ZArith.

Definition exactly_one {A} (P : A -> Prop) : Prop := exists x, P x /\ forall y, P y -> y = x.
