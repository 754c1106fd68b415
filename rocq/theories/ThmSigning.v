(** Properties C17-C21 (src/builder.rs, from build to the authorized bundle). *)
From Coq Require Import String ZArith List Bool.
From Coq Require Import Init.Byte.
From Verif Require Import Prelude Fields Curve Oracles RedPallas Value Keys Note Tree Action NoteEnc Bundle Builder Signing
  KeysSpec NoteSpec NoteEncSpec BundleSpec BuilderSpec SigningSpec SigningFacts
  Toy ToyFacts ToyKeys ToyNoteEnc ToyBundle ToyBuilder ToySigning.
Import ListNotations.
Open Scope Z_scope.

(** C17. A bundle has at least one action (NonEmpty). *)
Theorem C17_finalize_exactly_when_all_signed :
  forall (C : Curve) (V : Type) (b : @partial_bundle C V bytes),
  b_actions b <> [] ->
  ((exists a, In a (b_actions b) /\ is_unsigned a) -> finalize b = Ret (Err BE_MissingSignatures)) /\
  ((forall a, In a (b_actions b) -> ~ is_unsigned a) ->
     exists bd, finalize b = Ret (Ok bd) /\ effects bd = effects b /\
       map (fun a => Signed (a_auth a)) (b_actions bd) = map a_auth (b_actions b) /\
       au_proof (b_auth bd) = ip_proof (b_auth b) /\ au_binding_sig (b_auth bd) = pa_binding_sig (ip_sigs (b_auth b))).
Proof. exact @finalize_spec. Qed.
Print Assumptions C17_finalize_exactly_when_all_signed.

(** C18. *)
Theorem C18_sign_touches_its_own_actions :
  forall (C : Curve) (OR : @Oracles C) (L : CurveLaws C) (V P : Type) (sighash : bytes)
    (b : @partial_bundle C V P) (r : rng) (ask : Z),
  authorizable sighash b ->
  effects (fst (bundle_sign b r ask)) = effects b /\ b_auth (fst (bundle_sign b r ask)) = b_auth b /\
  Forall2 (sign_effect sighash ask) (b_actions b) (b_actions (fst (bundle_sign b r ask))).
Proof. exact @sign_spec. Qed.
Print Assumptions C18_sign_touches_its_own_actions.

(** C19. *)
Theorem C19_external_signatures :
  forall (C : Curve) (OR : @Oracles C) (V P : Type) (sighash : bytes) (b : @partial_bundle C V P) (s : signature),
  authorizable sighash b ->
  ((forall k, ~ good_for b sighash s k) -> append_signature b s = Err BE_InvalidExternalSignature) /\
  (forall j k, j <> k -> good_for b sighash s j -> good_for b sighash s k -> append_signature b s = Err BE_DuplicateSignature) /\
  (forall k, good_for b sighash s k -> (forall j, good_for b sighash s j -> j = k) ->
     exists b', append_signature b s = Ok b' /\ effects b' = effects b /\ b_auth b' = b_auth b /\
       forall j a, nth_error (b_actions b) j = Some a ->
         exists a', nth_error (b_actions b') j = Some a' /\ a_auth a' = if (j =? k)%nat then Signed s else a_auth a).
Proof. exact @append_spec. Qed.
Print Assumptions C19_external_signatures.

(** C20: any history of proving, preparing, signing and appending that can be finalized. *)
Theorem C20_authorized_bundles_carry_valid_signatures :
  forall (C : Curve) (OR : @Oracles C) (L : CurveLaws C) (V : Type)
    (halo2_prove : list witness -> list (list Z) -> rng -> option bytes * rng)
    (try_from : Z -> option V) (into : V -> Z) (t : bundle_type) (anchor : Z) (b : builder) (fuel : nat) (r : rng)
    (b0 : @unauthorized_bundle C V) (meta : bundle_metadata) (r' : rng) (sighash : bytes)
    (b1 : partial_bundle bytes) (bd : bundle authorized signature V),
  (forall i v, try_from i = Some v -> into v = i) ->
  gd_fallback_ok -> reachable t anchor b -> build try_from fuel b r = Ret (Ok (Some (b0, meta)), r') ->
  history halo2_prove b0 sighash true b1 -> finalize b1 = Ret (Ok bd) ->
  (forall a, In a (b_actions bd) -> verify SpendAuth (a_rk a) sighash (a_auth a) = true) /\
  exists bvk, binding_validating_key into bd = Ret bvk /\ verify Binding bvk sighash (au_binding_sig (b_auth bd)) = true.
Proof. exact @history_valid. Qed.
Print Assumptions C20_authorized_bundles_carry_valid_signatures.

(** C20: apply_signatures succeeds exactly when the keys cover the requested spends. *)
Theorem C20_apply_signatures_exactly_when_covered :
  forall (C : Curve) (OR : @Oracles C) (L : CurveLaws C) (V : Type)
    (halo2_prove : list witness -> list (list Z) -> rng -> option bytes * rng)
    (try_from : Z -> option V) (t : bundle_type) (anchor : Z) (b : builder) (fuel : nat) (r : rng)
    (b0 : @unauthorized_bundle C V) (meta : bundle_metadata) (r' r1 : rng)
    (b1 : bundle (in_progress bytes unauthorized) signing_metadata V) (r2 : rng) (sighash : bytes) (asks : list Z) (r3 : rng),
  gd_fallback_ok -> reachable t anchor b -> build try_from fuel b r = Ret (Ok (Some (b0, meta)), r') ->
  create_proof halo2_prove b0 r1 = Ret (Ok b1, r2) ->
  (covers asks b -> exists bd, apply_signatures b1 r3 sighash asks = Ret (Ok bd)) /\
  (~ covers asks b -> apply_signatures b1 r3 sighash asks = Ret (Err BE_MissingSignatures)).
Proof. exact @apply_signatures_spec. Qed.
Print Assumptions C20_apply_signatures_exactly_when_covered.

(** C21. *)
Theorem C21_authorizing_keeps_the_effects :
  forall (C : Curve) (OR : @Oracles C) (V : Type)
    (halo2_prove : list witness -> list (list Z) -> rng -> option bytes * rng)
    (b0 : @unauthorized_bundle C V) (sighash : bytes) (proved : bool) (b : partial_bundle (proof_stage proved)),
  history halo2_prove b0 sighash proved b -> effects b = effects b0.
Proof. exact @history_keeps_effects. Qed.
Print Assumptions C21_authorizing_keeps_the_effects.

Theorem C21_the_commitment_is_the_same_at_every_stage :
  forall (C : Curve) (OR : @Oracles C) (V : Type)
    (halo2_prove : list witness -> list (list Z) -> rng -> option bytes * rng)
    (b0 : @unauthorized_bundle C V) (sighash : bytes) (b : partial_bundle bytes)
    (bd : bundle authorized signature V) (into : V -> Z),
  history halo2_prove b0 sighash true b -> finalize b = Ret (Ok bd) ->
  effects bd = effects b0 /\ bundle_commitment into b = bundle_commitment into b0 /\
  bundle_commitment into bd = bundle_commitment into b0.
Proof. exact @history_final_effects. Qed.
Print Assumptions C21_the_commitment_is_the_same_at_every_stage.

(** One bundle of four actions meets the premises of C17-C21. *)
Example C17_C21_have_instances : exists b0 meta r' b1 r1 ask b2 bd,
  build (fun i : Z => Some i) 5 toy_builder toy_rng = Ret (Ok (Some (b0, meta)), r') /\
  create_proof toy_prover b0 toy_rng = Ret (Ok b1, r1) /\
  covers [ask] toy_builder /\ apply_signatures b1 toy_rng toy_sighash [ask] = Ret (Ok bd) /\
  history toy_prover b0 toy_sighash true b2 /\ authorizable toy_sighash b2 /\ b_actions b2 <> [] /\
  finalize b2 = Ret (Ok bd).
Proof. exact toy_pipeline. Qed.
