(** Properties C64-C66: the model at the curve and the external functions the crate is linked against. *)
From Coq Require Import String ZArith List Bool.
From Coq Require Import Init.Byte.
From Verif Require RealPoints.
From Verif Require Import Prelude Fields Curve Oracles Spec RedPallas Sinsemilla Value Keys KeysSpec Note Action Bundle Batch BundleSpec
  Builder BuilderSpec Signing SigningSpec Halo2 Circuit CircuitSpec PipelineSpec PipelineFacts LedgerSpec LedgerFacts BuilderFacts BuildFacts KeysFacts
  Constants PallasCurve PallasLaws PallasUse Blake2b Poseidon HashToCurve HashToCurveFacts ChaChaPoly RealOracles RealFacts RealLifeFacts NoteEnc Vectors VectorFacts.
Import ListNotations.
Open Scope Z_scope.

(** C64. Hashing to the curve gives a point of the curve for every domain and message: the coordinates it
    computes are canonical and satisfy y^2 = x^3 + 5 (or it is the identity). *)
Theorem C64_hash_to_curve_is_on_the_curve : forall (domain msg : bytes),
  match hash_to_curve_coords domain msg with
  | None => True
  | Some (x, y) => 0 <= x < pmod /\ 0 <= y < pmod /\ (y * y) mod pmod = (x * x * x + 5) mod pmod
  end.
Proof. exact hash_to_curve_on. Qed.
Print Assumptions C64_hash_to_curve_is_on_the_curve.

(** C64. The model cuts the outputs of the external functions to length and range; the functions themselves
    already have that length and range. *)
Theorem C64_outputs_are_not_cut :
  forall (R : Type) (rng_b : R -> nat -> bytes * R) (rng_i : R -> nat -> nat * R) (rng_p : R -> pallas_point * R),
  let OR := real_oracles R rng_b rng_i rng_p in
  (forall n pers msg, (n <= 64)%nat -> @blake2b pallas OR n pers msg = blake2b_real n (bytes_of_string pers) msg) /\
  (forall nk rho, @prf_nf pallas OR nk rho = poseidon_real nk rho) /\
  (forall key ct, @poly_tag pallas OR key ct = tag_real key ct) /\
  (forall dom msg, coords (@hash_to_curve pallas OR dom msg) = hash_to_curve_coords (bytes_of_string dom) msg).
Proof. exact real_wrappers. Qed.
Print Assumptions C64_outputs_are_not_cut.

(** C64. Poseidon runs four full, 56 partial and four full rounds. *)
Theorem C64_poseidon_follows_the_round_schedule : forall (a b : Z), poseidon_real a b = poseidon_spec a b.
Proof. exact poseidon_is_spec. Qed.
Print Assumptions C64_poseidon_follows_the_round_schedule.

(** C64. The keys of the first published key vector come out of BLAKE2b, its default diversifier out of FF1
    with AES-256, and the outgoing ciphertext of the first published note out of ChaCha20-Poly1305. *)
Theorem C64_published_vectors :
  forall (R : Type) (rng_b : R -> nat -> bytes * R) (rng_i : R -> nat -> nat * R) (rng_p : R -> pallas_point * R),
  let OR := real_oracles R rng_b rng_i rng_p in
  @nk_from_sk pallas OR tv_sk = le_val tv_nk /\ @rivk_from_sk pallas OR tv_sk = le_val tv_rivk /\
  @dk_get pallas OR tv_dk (div_index_of_u32 0) = tv_default_d /\ @aead_encrypt pallas OR ne_ock ne_op = ne_c_out.
Proof. exact published_vectors. Qed.
Print Assumptions C64_published_vectors.

(** C65. The nine generators hard-coded for the circuit are the points the rest of the crate derives by
    hashing, and they are pairwise different. *)
Theorem C65_circuit_and_wallet_use_the_same_generators :
  forall (R : Type) (rng_b : R -> nat -> bytes * R) (rng_i : R -> nat -> nat * R) (rng_p : R -> pallas_point * R),
  let OR := real_oracles R rng_b rng_i rng_p in
  map (fun P : pallas_point => coords P)
    [ @sins_Q pallas OR "z.cash:Orchard-NoteCommit-M"; @sins_Q pallas OR "z.cash:Orchard-CommitIvk-M";
      @sins_Q pallas OR "z.cash:Orchard-MerkleCRH"; @commit_R pallas OR "z.cash:Orchard-CommitIvk";
      @commit_R pallas OR "z.cash:Orchard-NoteCommit"; @nullifier_K pallas OR; @basepoint pallas OR SpendAuth;
      @value_base_R pallas OR; @value_base_V pallas OR ] = map Some hard_coded_points /\
  NoDup (map fst hard_coded_points).
Proof. exact real_generators_distinct. Qed.
Print Assumptions C65_circuit_and_wallet_use_the_same_generators.

(** C65. No address has the identity as diversified base, and the bases of signatures and value commitments are
    not the identity. *)
Theorem C65_bases_are_not_the_identity :
  forall (R : Type) (rng_b : R -> nat -> bytes * R) (rng_i : R -> nat -> nat * R) (rng_p : R -> pallas_point * R),
  let OR := real_oracles R rng_b rng_i rng_p in
  (forall d, @diversify_hash pallas OR d <> pt_id) /\
  @basepoint pallas OR SpendAuth <> pt_id /\ @basepoint pallas OR Binding <> pt_id /\ @value_base_V pallas OR <> pt_id.
Proof. exact real_bases. Qed.
Print Assumptions C65_bases_are_not_the_identity.

(** C66. The crate on Pallas with its real hash functions: building fails only on value overflow... *)
Theorem C66_build_on_pallas :
  forall (R : Type) (rng_b : R -> nat -> bytes * R) (rng_i : R -> nat -> nat * R) (rng_p : R -> pallas_point * R),
  let OR := real_oracles R rng_b rng_i rng_p in
  forall (V : Type) (try_from : Z -> option V) (t : bundle_type) (anchor : Z) (b : @builder pallas) (fuel : nat) (r : R),
  @reachable pallas OR t anchor b ->
  (forall why, @build pallas OR V try_from fuel b r = Panic why -> @rng_hits_zero_key pallas OR r) /\
  (forall res r', @build pallas OR V try_from fuel b r = Ret (res, r') -> res = Err BE_ValueSum \/ exists o, res = Ok o).
Proof. exact real_build. Qed.
Print Assumptions C66_build_on_pallas.

(** ... and what is built, proved, signed and finalized is accepted. *)
Theorem C66_pipeline_on_pallas :
  forall (R : Type) (rng_b : R -> nat -> bytes * R) (rng_i : R -> nat -> nat * R) (rng_p : R -> pallas_point * R),
  let OR := real_oracles R rng_b rng_i rng_p in
  forall (V : Type)
    (halo2_prove : list (@witness pallas) -> list (list Z) -> R -> option bytes * R) (halo2_verify : bytes -> list (list Z) -> bool)
    (try_from : Z -> option V) (into : V -> Z) (t : bundle_type) (anchor : Z) (b : @builder pallas) (fuel : nat) (r : R)
    (b0 : @unauthorized_bundle pallas V) (meta : bundle_metadata) (r' : R) (sighash : bytes)
    (b1 : @partial_bundle pallas V bytes) (bd : @bundle pallas authorized signature V),
  (forall i v, try_from i = Some v -> into v = i) -> @proofs_verify pallas OR halo2_prove halo2_verify ->
  is_base anchor -> @reachable pallas OR t anchor b ->
  @build pallas OR V try_from fuel b r = Ret (Ok (Some (b0, meta)), r') ->
  @history pallas OR V halo2_prove b0 sighash true b1 -> finalize b1 = Ret (Ok bd) ->
  @bundle_valid pallas OR V halo2_verify into bd sighash \/ @undefined_merkle_hash pallas OR (up_circuits (ip_proof (b_auth b0))).
Proof. exact real_pipeline. Qed.
Print Assumptions C66_pipeline_on_pallas.

(** The ledger theorem (C63) for the same instance, where an extractor for spend authorization signatures exists. *)
Theorem C66_ledger_on_pallas :
  forall (R : Type) (rng_b : R -> nat -> bytes * R) (rng_i : R -> nat -> nat * R) (rng_p : R -> pallas_point * R),
  let OR := real_oracles R rng_b rng_i rng_p in
  forall (V : Type) (halo2_verify : bytes -> list (list Z) -> bool) (into : V -> Z)
    (extract : bytes -> list (list Z) -> list (@action_cells pallas)) (bx : pallas_point -> bytes -> signature -> Z),
  @finds_cells pallas OR halo2_verify extract -> @finds_keys pallas OR Binding bx ->
  forall (h : list (@tx pallas V)) (lg : ledger), @reached pallas OR V halo2_verify into h lg ->
  @sound_ledger pallas OR V extract h lg \/ @break pallas OR V into extract bx h.
Proof. exact real_ledger_sound. Qed.
Print Assumptions C66_ledger_on_pallas.

Example C64_ex : hash_to_curve_coords (bytes_of_string "z.cash:Orchard-gd") [] = Some RealPoints.point_gd.
Proof. exact (RealPoints.generators "z.cash:Orchard-gd" "" _ _ (nth_error_In RealPoints.gen_inputs 9 eq_refl)). Qed.

Example C66_ex : forall R rng_b rng_i rng_p, exists b,
  @reachable pallas (real_oracles R rng_b rng_i rng_p) bt_default 0 b /\ length (bl_outputs b) = 1%nat.
Proof. exact real_reachable. Qed.
