(** What a fair shuffle is (C79). *)
From Coq Require Import List Permutation.
From Verif Require Import Prelude Fields Curve Oracles RngSpec.
Import ListNotations.

(** A shuffle of [n] items draws an index below n, one below n - 1, .., one below 2. *)
Fixpoint bounds (n : nat) : list nat :=
  match n with
  | S ((S _) as n') => n :: bounds n'
  | _ => []
  end.
Definition in_bounds (n : nat) (js : list nat) : Prop := Forall2 lt js (bounds n).

(** Each ordering of [l] comes from exactly one sequence of indices. So if the indices are uniform and
    independent, all orderings are equally likely. *)
Record fair {A} (l : list A) (f : list nat -> list A) : Prop := {
  fair_permutes : forall js, in_bounds (length l) js -> Permutation l (f js);
  fair_one : forall js js', in_bounds (length l) js -> in_bounds (length l) js' -> f js = f js' -> js = js';
  fair_all : forall l', Permutation l l' -> exists js, in_bounds (length l) js /\ f js = l'
}.

Section Spec.
  Context {C : Curve} {OR : @Oracles C}.

  (** Between the two states of the generator exactly these indices were drawn. *)
  Definition indices_drawn (r : rng) (n : nat) (js : list nat) (r' : rng) : Prop :=
    in_bounds n js /\ trace r (map (fun p => Index (fst p) (snd p)) (List.combine (bounds n) js)) r'.
End Spec.
