(** Property C86: what the flags of an accepted bundle rule out. *)
From Coq Require Import String ZArith List Bool.
From Coq Require Import Init.Byte.
From Verif Require Import Prelude Fields Curve Oracles Spec RedPallas Value Keys Note Action NoteEnc Bundle Batch BundleSpec Builder
  Circuit CircuitSpec PipelineSpec FlagsSpec FlagsFacts Toy ToyFacts ToyPipeline ToyFlags.
Import ListNotations.
Open Scope Z_scope.

(** C86. In a bundle that passes every check, with [extract], [sx] and [bx] the knowledge extractors of
    halo2 and of the two signature schemes: the extracted witnesses respect the flags, or the cells contain
    an undefined Sinsemilla hash, or there is a known relation between the two value bases. *)
Theorem C86_flags_restrict_bundles :
  forall (C : Curve) (OR : @Oracles C) (L : CurveLaws C) (V : Type) (halo2_verify : bytes -> list (list Z) -> bool)
    (extract : bytes -> list (list Z) -> list action_cells) (sx bx : point -> bytes -> signature -> Z) (into : V -> Z)
    (b : bundle authorized signature V) (sighash : bytes),
  finds_cells halo2_verify extract -> finds_keys SpendAuth sx -> finds_keys Binding bx ->
  is_base (b_anchor b) -> i64_ok (into (b_value_balance b)) -> Z.of_nat (length (b_actions b)) < 2 ^ 180 ->
  bundle_valid halo2_verify into b sighash ->
  exists is bvk, omap to_halo2_instance (to_instances b) = Ret is /\ binding_validating_key into b = Ret bvk /\
    let ks := extract (au_proof (b_auth b)) is in
    let ws := map cells_witness ks in
    let balance := into (b_value_balance b) in
    flags_respected (b_flags b) ws balance \/ (exists k, In k ks /\ undefined_hash k) \/
    (surplus_of ws balance mod qmod <> 0 /\
     pt_mul (surplus_of ws balance) value_base_V =
       pt_mul (bx bvk sighash (au_binding_sig (b_auth b)) - zsum (map w_rcv ws)) value_base_R).
Proof. exact @accepted_respects_flags. Qed.
Print Assumptions C86_flags_restrict_bundles.

(** A coinbase bundle that pays 5 is accepted. *)
Example C86_ex : exists halo2_verify extract bd sighash,
  finds_cells halo2_verify extract /\ finds_keys SpendAuth (toy_log SpendAuth) /\ finds_keys Binding (toy_log Binding) /\
  bundle_valid halo2_verify (fun i : Z => i) bd sighash /\
  is_base (b_anchor bd) /\ i64_ok (b_value_balance bd) /\ length (b_actions bd) = 1%nat /\
  spends_enabled (b_flags bd) = false /\ b_value_balance bd = -5.
Proof. exact cb_sound. Qed.
