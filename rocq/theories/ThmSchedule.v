(** Property C92 (src/builder.rs: create_proof, prepare, sign, append_signatures in different orders). *)
From Coq Require Import String ZArith List Bool Permutation.
From Coq Require Import Init.Byte.
From Verif Require Import Prelude Fields Curve Oracles RedPallas Value Keys Note Action Bundle Builder Signing SigningSpec ScheduleSpec ScheduleFacts
  Toy ToyFacts ToyNoteEnc ToyBundle ToySigning ToySchedule.
Import ListNotations.
Open Scope Z_scope.

(** C92: signers that do not compete for an action may act in any order; every order succeeds with one bundle. *)
Theorem C92_steps_in_any_order :
  forall (C : Curve) (OR : @Oracles C) (V : Type) (L : CurveLaws C) (P : Type) (sighash : bytes) (b : @partial_bundle C V P)
    (target : signature -> nat) (l l' : list step),
  authorizable sighash b -> independent sighash b target l -> Permutation l l' ->
  exists b', run_steps b l = Ok b' /\ run_steps b l' = Ok b'.
Proof. exact @steps_in_any_order. Qed.
Print Assumptions C92_steps_in_any_order.

Example C92_three_signers :
  authorizable toy_sighash open_bundle /\ independent toy_sighash open_bundle (fun _ => 2%nat) three_steps /\
  length (b_actions open_bundle) = 3%nat /\ all_signed (run_steps open_bundle three_steps) = true.
Proof. split; [exact open_authorizable|]. split; [exact open_independent|]. split; [reflexivity|exact open_all_signed]. Qed.

(** C92: the proof may be made before, between or after any steps, whether or not these succeed. *)
Theorem C92_proving_at_any_moment :
  forall (C : Curve) (OR : @Oracles C) (V : Type)
    (halo2_prove : list witness -> list (list Z) -> rng -> option bytes * rng)
    (b : @partial_bundle C V unproven) (r : rng) (b1 : partial_bundle bytes) (r1 : rng) (l : list step),
  create_proof halo2_prove b r = Ret (Ok b1, r1) ->
  match run_steps b l with
  | Ok b' => exists b1', run_steps b1 l = Ok b1' /\ create_proof halo2_prove b' r = Ret (Ok b1', r1)
  | Err e => run_steps b1 l = Err e
  end.
Proof. exact @proving_at_any_moment. Qed.
Print Assumptions C92_proving_at_any_moment.

(** C92: or before [prepare]. *)
Theorem C92_proving_before_or_after_preparing :
  forall (C : Curve) (OR : @Oracles C) (V : Type)
    (halo2_prove : list witness -> list (list Z) -> rng -> option bytes * rng)
    (b0 : @unauthorized_bundle C V) (r : rng) b1 (r1 r2 : rng) (sighash : bytes),
  create_proof halo2_prove b0 r = Ret (Ok b1, r1) ->
  create_proof halo2_prove (fst (prepare b0 r2 sighash)) r = Ret (Ok (fst (prepare b1 r2 sighash)), r1).
Proof. exact @proving_before_or_after_preparing. Qed.
Print Assumptions C92_proving_before_or_after_preparing.

Example C92_proves : exists b0 meta r' b1 r1,
  build (fun i : Z => Some i) 5 ToyBuilder.toy_builder toy_rng = Ret (Ok (Some (b0, meta)), r') /\
  create_proof toy_prover b0 toy_rng = Ret (Ok b1, r1) /\
  create_proof toy_prover (fst (prepare b0 toy_rng toy_sighash)) toy_rng = Ret (Ok (fst (prepare b1 toy_rng toy_sighash)), r1).
Proof.
  destruct toy_proves as (b0 & meta & r' & b1 & r1 & E & CP). exists b0, meta, r', b1, r1. split; [exact E|]. split; [exact CP|].
  exact (C92_proving_before_or_after_preparing _ _ _ _ _ _ _ _ toy_rng toy_sighash CP).
Qed.

(** C92: the prover is given the bundle's own circuits and public inputs, in action order; its answer decides. *)
Theorem C92_what_the_prover_is_given :
  forall (C : Curve) (OR : @Oracles C) (V : Type)
    (halo2_prove : list witness -> list (list Z) -> rng -> option bytes * rng)
    (Sg SA : Type) (b : bundle (in_progress unproven Sg) SA V) (r : rng) (is : list (list Z)),
  b_actions b <> [] -> omap to_halo2_instance (to_instances b) = Ret is ->
  create_proof halo2_prove b r =
    match halo2_prove (up_circuits (ip_proof (b_auth b))) is r with
    | (Some proof, r') => Ret (Ok (mk_bundle (b_actions b) (b_flags b) (b_value_balance b) (b_anchor b) (mk_progress proof (ip_sigs (b_auth b)))), r')
    | (None, r') => Ret (Err BE_Proof, r')
    end.
Proof. exact @what_the_prover_is_given. Qed.
Print Assumptions C92_what_the_prover_is_given.

(** C92: signing again with a key changes nothing and draws nothing from the generator. *)
Theorem C92_signing_again_changes_nothing :
  forall (C : Curve) (OR : @Oracles C) (V P : Type) (b : @partial_bundle C V P) (ask : Z) (r r' : rng),
  bundle_sign (fst (bundle_sign b r ask)) r' ask = (fst (bundle_sign b r ask), r').
Proof. exact @signing_again. Qed.
Print Assumptions C92_signing_again_changes_nothing.

(** C92: of two signatures good for the same action only the first is taken. *)
Theorem C92_second_signature_is_refused :
  forall (C : Curve) (OR : @Oracles C) (V P : Type) (sighash : bytes) (b b1 : @partial_bundle C V P) (s s' : signature),
  authorizable sighash b -> append_signature b s = Ok b1 ->
  (forall j, good_for b sighash s' j -> good_for b sighash s j) ->
  append_signature b1 s' = Err BE_InvalidExternalSignature.
Proof. exact @second_signature. Qed.
Print Assumptions C92_second_signature_is_refused.

Example C92_same_signature_twice :
  exists b1, append_signature open_bundle outside = Ok b1 /\ append_signature b1 outside = Err BE_InvalidExternalSignature.
Proof.
  destruct open_attach as [b1 H]. exists b1.
  split; [exact H|]. exact (C92_second_signature_is_refused _ _ _ _ _ _ _ _ _ open_authorizable H (fun _ G => G)).
Qed.
