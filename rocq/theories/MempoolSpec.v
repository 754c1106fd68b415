(** Small specification for transactions waiting to enter the chain of C63 (C95). *)
From Coq Require Import String ZArith List Bool.
From Coq Require Import Init.Byte.
From Verif Require Import Prelude Fields Curve Oracles Action Bundle LedgerSpec.
Import ListNotations.
Open Scope Z_scope.

Section Spec.
  Context {C : Curve} {OR : @Oracles C} {V : Type}.
  Variables (halo2_verify : bytes -> list (list Z) -> bool) (into : V -> Z).

  (** Transactions accepted one after another from a state. *)
  Inductive applied : ledger -> list (@tx C V) -> ledger -> Prop :=
  | P_done : forall lg, applied lg [] lg
  | P_next : forall lg t ts lg', accepts halo2_verify into lg t -> applied (apply into lg t) ts lg' -> applied lg (t :: ts) lg'.

  Definition tx_nfs (t : @tx C V) : list Z := map a_nf (b_actions (fst t)).
  Definition tx_size (t : @tx C V) : nat := length (b_actions (fst t)).
  Definition disjoint (l l' : list Z) : Prop := forall x, In x l -> ~ In x l'.
End Spec.
