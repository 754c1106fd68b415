(** Properties C61-C62: a whole transaction, from the builder to the batch validator. *)
From Coq Require Import String ZArith List Bool.
From Coq Require Import Init.Byte.
From Verif Require Import Prelude Fields Curve Oracles Spec RedPallas Value Keys KeysSpec Note Tree Action NoteEnc NoteEncSpec Bundle Batch BundleSpec
  Builder BuilderSpec Signing SigningSpec Halo2 Circuit CircuitSpec PipelineSpec PipelineFacts BatchFacts
  Toy ToyFacts ToyKeys ToyNoteEnc ToyBundle ToyBuilder ToySigning ToyPipeline.
Import ListNotations.
Open Scope Z_scope.

(** C61. Whatever the order of proving, preparing, signing and adding signatures, a built bundle
    that can be finalized passes every check of the verifier. *)
Theorem C61_authorized_bundles_are_accepted :
  forall (C : Curve) (OR : @Oracles C) (L : CurveLaws C) (V : Type)
    (halo2_prove : list witness -> list (list Z) -> rng -> option bytes * rng) (halo2_verify : bytes -> list (list Z) -> bool)
    (try_from : Z -> option V) (into : V -> Z) (t : bundle_type) (anchor : Z) (b : builder) (fuel : nat) (r : rng)
    (b0 : @unauthorized_bundle C V) (meta : bundle_metadata) (r' : rng) (sighash : bytes)
    (b1 : partial_bundle bytes) (bd : bundle authorized signature V),
  (forall i v, try_from i = Some v -> into v = i) -> proofs_verify halo2_prove halo2_verify ->
  gd_fallback_ok -> basepoint SpendAuth <> pt_id -> is_base anchor -> reachable t anchor b ->
  build try_from fuel b r = Ret (Ok (Some (b0, meta)), r') ->
  history halo2_prove b0 sighash true b1 -> finalize b1 = Ret (Ok bd) ->
  bundle_valid halo2_verify into bd sighash \/ undefined_merkle_hash (up_circuits (ip_proof (b_auth b0))).
Proof. exact @pipeline_valid. Qed.
Print Assumptions C61_authorized_bundles_are_accepted.

(** C61. With keys for every requested spend, create_proof and apply_signatures succeed, and the
    batch validator accepts the result whatever it draws. *)
Theorem C61_pipeline_completes :
  forall (C : Curve) (OR : @Oracles C) (L : CurveLaws C) (V : Type)
    (halo2_prove : list witness -> list (list Z) -> rng -> option bytes * rng) (halo2_verify : bytes -> list (list Z) -> bool)
    (try_from : Z -> option V) (into : V -> Z) (t : bundle_type) (anchor : Z) (b : builder) (fuel : nat) (r : rng)
    (b0 : @unauthorized_bundle C V) (meta : bundle_metadata) (r' : rng) (sighash : bytes) (asks : list Z) (r1 r2 : rng),
  (forall i v, try_from i = Some v -> into v = i) -> proofs_verify halo2_prove halo2_verify -> prover_succeeds halo2_prove ->
  gd_fallback_ok -> basepoint SpendAuth <> pt_id -> is_base anchor -> reachable t anchor b ->
  build try_from fuel b r = Ret (Ok (Some (b0, meta)), r') -> (forall a, In a (b_actions b0) -> a_rk a <> pt_id) -> covers asks b ->
  (exists b1 r3 bd bt,
     create_proof halo2_prove b0 r1 = Ret (Ok b1, r3) /\ apply_signatures b1 r2 sighash asks = Ret (Ok bd) /\
     effects bd = effects b0 /\ bundle_valid halo2_verify into bd sighash /\
     add_all into batch_new [(bd, sighash)] = Ret bt /\ forall r4, validate halo2_verify bt r4 = true) \/
  undefined_merkle_hash (up_circuits (ip_proof (b_auth b0))).
Proof. exact @pipeline_completes. Qed.
Print Assumptions C61_pipeline_completes.

(** C61. The recipients can still read their outputs in the authorized bundle. *)
Theorem C61_recipients_read_the_final_bundle :
  forall (C : Curve) (OR : @Oracles C) (L : CurveLaws C) (V : Type)
    (halo2_prove : list witness -> list (list Z) -> rng -> option bytes * rng)
    (try_from : Z -> option V) (t : bundle_type) (anchor : Z) (b : builder) (fuel : nat) (r : rng)
    (b0 : @unauthorized_bundle C V) (meta : bundle_metadata) (r' : rng) (sighash : bytes)
    (b1 : partial_bundle bytes) (bd : bundle authorized signature V) (i : nat) (o : output_info),
  gd_fallback_ok -> reachable t anchor b -> build try_from fuel b r = Ret (Ok (Some (b0, meta)), r') ->
  history halo2_prove b0 sighash true b1 -> finalize b1 = Ret (Ok bd) ->
  nth_error (bl_outputs b) i = Some o ->
  exists k a n, output_action_index meta i = Some k /\ nth_error (b_actions bd) k = Some a /\
    n_recipient n = o_recipient o /\ n_value n = o_value o /\
    (forall key, ivk_ok key -> owned_by key (o_recipient o) ->
       decrypt_output_with_key bd k key = Ret (Some (n, o_recipient o, o_memo o)) /\
       try_compact_note_decryption key (compact_of_action a) = Ret (Some (n, o_recipient o))) /\
    (forall ovk, o_ovk o = Some ovk ->
       recover_output_with_ovk bd k ovk = Ret (Some (n, o_recipient o, o_memo o))).
Proof. exact @final_readable. Qed.
Print Assumptions C61_recipients_read_the_final_bundle.

Example C61_ex : forall sighash r1 r2 r4, exists b0 meta r' ask b1 r3 bd bt,
  proofs_verify toy_prover toy_verifier /\ prover_succeeds toy_prover /\
  build (fun i : Z => Some i) 5 toy_builder toy_rng = Ret (Ok (Some (b0, meta)), r') /\
  (forall a, In a (b_actions b0) -> a_rk a <> pt_id) /\ covers [ask] toy_builder /\
  create_proof toy_prover b0 r1 = Ret (Ok b1, r3) /\ apply_signatures b1 r2 sighash [ask] = Ret (Ok bd) /\
  bundle_valid toy_verifier (fun i => i) bd sighash /\
  add_all (fun i => i) batch_new [(bd, sighash)] = Ret bt /\ validate toy_verifier bt r4 = true.
Proof.
  intros sighash r1 r2 r4. destruct (toy_accepted sighash r1 r2 r4) as (b0 & meta & r' & ask & b1 & r3 & bd & bt & H1 & H2 & H3 & H4 & H5 & H6 & _ & H7 & H8).
  exists b0, meta, r', ask, b1, r3, bd, bt. split; [exact toy_proofs_verify|]. split; [exact toy_prover_succeeds|].
  repeat (split; [assumption|]). assumption.
Qed.

(** C62. [extract], [sx] and [bx] are the knowledge extractors of halo2 and of the two signature
    schemes. *)
Theorem C62_valid_bundle_means :
  forall (C : Curve) (OR : @Oracles C) (L : CurveLaws C) (V : Type) (halo2_verify : bytes -> list (list Z) -> bool)
    (extract : bytes -> list (list Z) -> list action_cells) (sx bx : point -> bytes -> signature -> Z) (into : V -> Z)
    (b : bundle authorized signature V) (sighash : bytes),
  finds_cells halo2_verify extract -> finds_keys SpendAuth sx -> finds_keys Binding bx ->
  is_base (b_anchor b) -> i64_ok (into (b_value_balance b)) -> Z.of_nat (length (b_actions b)) < 2 ^ 180 ->
  bundle_valid halo2_verify into b sighash ->
  exists is bvk, omap to_halo2_instance (to_instances b) = Ret is /\ binding_validating_key into b = Ret bvk /\
    accepted_means into b (extract (au_proof (b_auth b)) is) (fun a => sx (a_rk a) sighash (a_auth a))
      (bx bvk sighash (au_binding_sig (b_auth b))).
Proof. exact @valid_means. Qed.
Print Assumptions C62_valid_bundle_means.

(** C62. The same for every bundle of an accepted batch, unless the random coefficients cancelled. *)
Theorem C62_accepted_batch_means :
  forall (C : Curve) (OR : @Oracles C) (L : CurveLaws C) (V : Type) (halo2_verify : bytes -> list (list Z) -> bool)
    (extract : bytes -> list (list Z) -> list action_cells) (sx bx : point -> bytes -> signature -> Z) (into : V -> Z)
    (l : list (bundle authorized signature V * bytes)) (bt : batch) (r : rng)
    (b : bundle authorized signature V) (sighash : bytes),
  finds_cells halo2_verify extract -> finds_keys SpendAuth sx -> finds_keys Binding bx ->
  add_all into batch_new l = Ret bt -> validate halo2_verify bt r = true -> In (b, sighash) l ->
  is_base (b_anchor b) -> i64_ok (into (b_value_balance b)) -> Z.of_nat (length (b_actions b)) < 2 ^ 180 ->
  (exists is bvk, omap to_halo2_instance (to_instances b) = Ret is /\ binding_validating_key into b = Ret bvk /\
     accepted_means into b (extract (au_proof (b_auth b)) is) (fun a => sx (a_rk a) sighash (a_auth a))
       (bx bvk sighash (au_binding_sig (b_auth b)))) \/
  (exists es, Forall2 (fun i E => sig_error i = Some E) (bt_signatures bt) es /\
     combination (coefficients (length (bt_signatures bt)) r) es = pt_id /\ exists E, In E es /\ E <> pt_id).
Proof. exact @batch_means. Qed.
Print Assumptions C62_accepted_batch_means.

Example C62_ex : exists halo2_verify extract bd bt r sighash,
  finds_cells halo2_verify extract /\ finds_keys SpendAuth (toy_log SpendAuth) /\ finds_keys Binding (toy_log Binding) /\
  add_all (fun i : Z => i) batch_new [(bd, sighash)] = Ret bt /\ validate halo2_verify bt r = true /\
  is_base (b_anchor bd) /\ i64_ok (b_value_balance bd) /\ Z.of_nat (length (b_actions bd)) < 2 ^ 180 /\ b_actions bd <> [].
Proof. exact toy_sound. Qed.
