(** Property C79 (src/builder.rs, the shuffle of spends and outputs). *)
From Coq Require Import ZArith List Permutation.
From Verif Require Import Prelude Fields Curve Oracles RedPallas Value Keys Note Action Bundle Builder BuilderSpec RngSpec ShuffleSpec
  ShuffleFacts Toy ToyFacts ToyKeys ToyNote ToyNoteEnc ToyBundle ToyBuilder ToyRandom.
Import ListNotations.
Open Scope nat_scope.

(** C79: the shuffle is fair. Its result is [f] of the indices drawn, where [f] does not depend on the
    generator and gives each ordering for exactly one sequence of indices. *)
Theorem C79_shuffle_is_fair :
  forall (A : Type) (l : list A), NoDup l ->
  exists f, fair l f /\
    forall (C : Curve) (OR : @Oracles C) (r : rng), exists js r',
      indices_drawn r (length l) js r' /\ shuffle l r = (f js, r').
Proof. exact @shuffle_fair. Qed.
Print Assumptions C79_shuffle_is_fair.

Example C79_ex : NoDup [1; 2; 3; 4] /\ in_bounds 4 [0; 2; 1] /\ ~ in_bounds 4 [4; 2; 1].
Proof.
  split; [|split].
  - repeat constructor; intro H; cbn in H; intuition discriminate.
  - unfold in_bounds. cbn [bounds]. repeat constructor.
  - intro H. inversion H as [|? ? ? ? X _]. exact (PeanoNat.Nat.lt_irrefl _ X).
Qed.

(** C79: in a bundle of [n] actions, where the requested spends and the requested outputs end up is
    given by two separate fair shuffles of the [n] positions. *)
Theorem C79_places_are_fair :
  forall n : nat, exists f, fair (seq 0 n) f /\
  forall (C : Curve) (OR : @Oracles C) (L : CurveLaws C) (V : Type) (try_from : Z -> option V)
    (t : bundle_type) (anchor : Z) (b : builder) (fuel : nat) (r : rng)
    (bd : @unauthorized_bundle C V) (meta : bundle_metadata) (r' : rng),
  reachable t anchor b -> build try_from fuel b r = Ret (Ok (Some (bd, meta)), r') -> length (b_actions bd) = n ->
  exists js js' r1 r2 r3,
    draws r [] r1 /\ indices_drawn r1 n js r2 /\ indices_drawn r2 n js' r3 /\ draws r3 [] r' /\
    (forall i k, i < length (bl_spends b) -> (spend_action_index meta i = Some k <-> nth_error (f js) k = Some i)) /\
    (forall i k, i < length (bl_outputs b) -> (output_action_index meta i = Some k <-> nth_error (f js') k = Some i)).
Proof. exact placement_fair. Qed.
Print Assumptions C79_places_are_fair.

Example C79_places_ex : reachable toy_type 7%Z pay_builder /\ length (bl_outputs pay_builder) = 2%nat /\
  exists bd meta r', build (fun i : Z => Some i) 5 pay_builder toy_rng = Ret (Ok (Some (bd, meta)), r').
Proof. exact (conj pay_reachable (conj (proj2 pay_holds) pay_builds)). Qed.
