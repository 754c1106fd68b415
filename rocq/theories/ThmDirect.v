(** Property C67: direct calls of the public function [builder::bundle] (src/builder.rs). *)
From Coq Require Import String ZArith List Bool.
From Coq Require Import Init.Byte.
From Verif Require Import Prelude Fields Curve Oracles RedPallas Value Keys KeysSpec KeysFacts Note Tree Action NoteEnc Bundle Builder BuilderSpec
  DirectSpec DirectFacts Toy ToyFacts ToyBuilder.
Import ListNotations.
Open Scope Z_scope.

(** C67: a direct call refuses exactly what the builder would have refused, and otherwise does exactly what building
    a builder holding these items does, so that C08-C16 apply to it. *)
Theorem C67_direct_calls_follow_the_builder :
  forall (C : Curve) (OR : @Oracles C) (V : Type) (try_from : Z -> option V) (fuel : nat) (r : rng)
    (anchor : Z) (t : bundle_type) (spends : list spend_info) (outputs : list output_info),
  Forall spend_item spends -> Forall output_item outputs ->
  direct_spec (fun b => build try_from fuel b r) anchor t spends outputs r (build_bundle try_from fuel r anchor t spends outputs).
Proof. exact @direct_correct. Qed.
Print Assumptions C67_direct_calls_follow_the_builder.

Theorem C67_outcomes_of_direct_calls :
  forall (C : Curve) (OR : @Oracles C) (L : CurveLaws C) (V : Type) (try_from : Z -> option V) (fuel : nat) (r : rng)
    (anchor : Z) (t : bundle_type) (spends : list spend_info) (outputs : list output_info),
  gd_fallback_ok -> Forall spend_item spends -> Forall output_item outputs ->
  (forall why, build_bundle try_from fuel r anchor t spends outputs = Panic why -> rng_hits_zero_key r) /\
  (forall res r', build_bundle try_from fuel r anchor t spends outputs = Ret (res, r') ->
     (exists o, res = Ok o) \/ res = Err BE_ValueSum \/ res = Err BE_SpendsDisabled \/ res = Err BE_AnchorMismatch \/
     res = Err BE_OutputsDisabled).
Proof. exact @direct_outcome. Qed.
Print Assumptions C67_outcomes_of_direct_calls.

(** The public dummy outputs are items like any other. *)
Theorem C67_dummy_outputs_are_items :
  forall (C : Curve) (OR : @Oracles C) (L : CurveLaws C) (fuel : nat) (r : rng) (o : output_info) (r' : rng),
  gd_fallback_ok -> output_dummy fuel r = Ret (o, r') -> output_item o.
Proof. exact @dummy_output_item. Qed.
Print Assumptions C67_dummy_outputs_are_items.

Example C67_has_instances :
  Forall spend_item (bl_spends toy_builder) /\ Forall output_item (bl_outputs toy_builder) /\
  length (bl_spends toy_builder) = 4%nat /\ length (bl_outputs toy_builder) = 4%nat.
Proof. destruct (reachable_items toy_laws _ _ _ toy_reachable) as [A B]. exact (conj A (conj B toy_holds)). Qed.
