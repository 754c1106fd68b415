(** Property C82: building ends. *)
From Coq Require Import String ZArith List Bool.
From Coq Require Import Init.Byte.
From Verif Require Import Prelude Fields Curve Oracles RedPallas Value Keys Note Tree Action NoteEnc Bundle Builder RngSpec FuelSpec FuelFacts
  Toy ToyFacts ToyKeys ToyNoteEnc ToyBuilder.
Import ListNotations.
Open Scope Z_scope.

(** C82. The retry loops of the code have no bound; those of the model stop after [k] rounds. The result,
    if there is one, is the same for every larger bound. *)
Theorem C82_the_bound_on_retries_does_not_matter :
  forall (C : Curve) (OR : @Oracles C) (V : Type) (try_from : Z -> option V) (k k' : nat) (b : builder) (r : rng) x,
  (k <= k')%nat -> build try_from k b r = x -> x <> OutOfFuel -> build try_from k' b r = x.
Proof. exact @more_fuel. Qed.
Print Assumptions C82_the_bound_on_retries_does_not_matter.

(** C82. There is no result after [k] rounds only if the generator gave at least [k] unusable strings in a row.
    This holds for the builder and for direct calls. *)
Theorem C82_build_ends :
  forall (C : Curve) (OR : @Oracles C) (V : Type) (try_from : Z -> option V) (k : nat) (b : builder) (r : rng),
  build try_from k b r = OutOfFuel -> rejected_in_a_row k r.
Proof. exact @build_ends. Qed.
Print Assumptions C82_build_ends.
Theorem C82_direct_calls_end :
  forall (C : Curve) (OR : @Oracles C) (V : Type) (try_from : Z -> option V) (k : nat) (r : rng) (anchor : Z) (t : bundle_type)
    (spends : list spend_info) (outputs : list output_info),
  build_bundle try_from k r anchor t spends outputs = OutOfFuel -> rejected_in_a_row k r.
Proof. exact @build_bundle_stuck. Qed.
Print Assumptions C82_direct_calls_end.

(** Five rounds are enough for the builder of C08, none is too few for one that needs padding. *)
Example C82_ex : (exists bd meta r', build (fun i : Z => Some i) 5 toy_builder toy_rng = Ret (Ok (Some (bd, meta)), r')) /\
  build (fun i : Z => Some i) 0 (mk_builder [] [mk_output None my_addr 3 default_memo] toy_type toy_anchor) toy_rng = OutOfFuel.
Proof. split; [exact toy_builds|reflexivity]. Qed.
