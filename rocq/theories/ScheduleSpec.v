(** Small specification for C92: the steps of several signers, in some order. *)
From Coq Require Import String ZArith List Bool.
From Coq Require Import Init.Byte.
From Verif Require Import Prelude Fields Curve Oracles RedPallas Value Keys Note Action Bundle Builder Signing SigningSpec.
Import ListNotations.
Open Scope Z_scope.

Section Spec.
  Context {C : Curve} {OR : @Oracles C} {V : Type}.

  (** One step: sign with a key, using some random number generator, or add a signature made elsewhere. *)
  Inductive step := SignBy (ask : Z) (r : rng) | Attach (s : signature).
  Definition run_step {P} (b : @partial_bundle C V P) (st : step) : result build_error (@partial_bundle C V P) :=
    match st with
    | SignBy ask r => Ok (fst (bundle_sign b r ask))
    | Attach s => append_signature b s
    end.
  Fixpoint run_steps {P} (b : @partial_bundle C V P) (l : list step) : result build_error (@partial_bundle C V P) :=
    match l with
    | [] => Ok b
    | st :: l' => match run_step b st with Ok b' => run_steps b' l' | Err e => Err e end
    end.

  (** The validating keys of the signers, and the signatures made elsewhere. *)
  Definition signer_keys (l : list step) : list point :=
    flat_map (fun st => match st with SignBy ask _ => [ak_of_ask ask] | Attach _ => [] end) l.
  Definition attached (l : list step) : list signature :=
    flat_map (fun st => match st with SignBy _ _ => [] | Attach s => [s] end) l.

  (** The steps do not compete for an action: no key signs twice; each signature made elsewhere is good for
      one action, [target], that is not that of another signature nor one of a signing key. *)
  Record independent {P} (sighash : bytes) (b : @partial_bundle C V P) (target : signature -> nat) (l : list step) : Prop := {
    ind_keys : NoDup (signer_keys l);
    ind_targets : NoDup (map target (attached l));
    ind_good : forall s, In s (attached l) -> good_for b sighash s (target s) /\ (forall j, good_for b sighash s j -> j = target s);
    ind_apart : forall s a p, In s (attached l) -> nth_error (b_actions b) (target s) = Some a -> a_auth a = Unsigned p ->
      ~ In (sp_ak p) (signer_keys l)
  }.
End Spec.
