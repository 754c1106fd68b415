(** What the flags of an accepted bundle rule out (C86). *)
From Coq Require Import ZArith List Bool.
From Verif Require Import Prelude Fields Curve Oracles Spec RedPallas Value Keys Note Action Bundle Builder Circuit.
Import ListNotations.
Open Scope Z_scope.

Section Spec.
  Context {C : Curve} {OR : @Oracles C}.

  (** [ws] are the witnesses of the actions, [balance] the value the bundle takes out of the pool. *)
  Record flags_respected (f : flags) (ws : list witness) (balance : Z) : Prop := {
    (* without spends, no action spends value, and the bundle only puts value in: exactly what its outputs hold *)
    fr_spends : spends_enabled f = false ->
      (forall w, In w ws -> w_v_old w = 0) /\ balance <= 0 /\ - balance = zsum (map w_v_new ws);
    (* without outputs, no action creates value, and the bundle only takes value out: exactly what its spends held *)
    fr_outputs : outputs_enabled f = false ->
      (forall w, In w ws -> w_v_new w = 0) /\ 0 <= balance /\ balance = zsum (map w_v_old ws)
  }.
End Spec.
