(** Small specification for the termination of the builder (C82). *)
From Coq Require Import ZArith List.
From Coq Require Import Init.Byte.
From Verif Require Import Prelude Fields Curve Oracles Keys Note RngSpec.
Import ListNotations.
Open Scope Z_scope.

Section Spec.
  Context {C : Curve} {OR : @Oracles C}.

  (** 32 drawn bytes that are no spending key. *)
  Definition bad_key (b : bytes) : Prop := sk_from_bytes b = Ret None.
  (** 32 drawn bytes that are no random seed of a note with these fields: the ephemeral key would be
      zero or the note would have no commitment. *)
  Definition bad_seed (to : address) (v rho : Z) (b : bytes) : Prop :=
    rseed_esk_inner b rho = None \/ commitment_inner (mk_note to v rho b) = None.

  (** At some point after [r], the generator gave at least [k] unusable strings in a row. *)
  Definition rejected_in_a_row (k : nat) (r : rng) : Prop :=
    exists r0 bs r1, draws r [] r0 /\ trace r0 (map Bytes bs) r1 /\ (k <= length bs)%nat /\ Forall (fun b => length b = 32%nat) bs /\
      (Forall bad_key bs \/ exists to v rho, Forall (bad_seed to v rho) bs).
End Spec.
