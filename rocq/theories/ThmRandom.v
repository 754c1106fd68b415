(** Properties C72, C73, C74: the randomness of building and signing. *)
From Coq Require Import String ZArith List Bool.
From Coq Require Import Init.Byte.
From Verif Require Import Prelude Fields Curve Oracles RedPallas Value Keys KeysSpec Note Tree Action NoteEnc Bundle Builder BuilderSpec Signing SigningSpec
  RngSpec RandomSpec RandomFacts SchnorrFacts Toy ToyFacts ToyKeys ToyNote ToyNoteEnc ToyBundle ToyBuilder ToySigning ToyRandom.
Import ListNotations.
Open Scope Z_scope.

(** C72: every secret of a built bundle (value and note randomness, key randomizer, dummy keys and notes, the key and
    plaintext of outputs without an ovk) comes from a draw of its own of the caller's generator. *)
Theorem C72_every_secret_has_its_own_draw :
  forall (C : Curve) (OR : @Oracles C) (L : CurveLaws C) (V : Type) (try_from : Z -> option V)
    (t : bundle_type) (anchor : Z) (b : builder) (fuel : nat) (r : rng)
    (bd : @unauthorized_bundle C V) (meta : bundle_metadata) (r' : rng),
  gd_fallback_ok -> reachable t anchor b -> build try_from fuel b r = Ret (Ok (Some (bd, meta)), r') ->
  exists plan ds, built b plan bd meta /\ length ds = length plan /\ draws r (flat_map draws_of ds) r' /\
    forall k s o, nth_error plan k = Some (s, o) -> exists a w d,
      nth_error (b_actions bd) k = Some a /\ nth_error (up_circuits (ip_proof (b_auth bd))) k = Some w /\ nth_error ds k = Some d /\
      spend_from (bl_spends b) s (dr_spend d) /\ output_from (bl_outputs b) o (dr_output d) /\ drawn_for o a w d.
Proof. exact @build_draws. Qed.
Print Assumptions C72_every_secret_has_its_own_draw.

Example C72_ex : reachable toy_type 7 pay_builder /\ length (bl_spends pay_builder) = 0%nat /\ length (bl_outputs pay_builder) = 2%nat /\
  exists bd meta r', build (fun i : Z => Some i) 5 pay_builder toy_rng = Ret (Ok (Some (bd, meta)), r').
Proof. exact (conj pay_reachable (conj (proj1 pay_holds) (conj (proj2 pay_holds) pay_builds))). Qed.

(** C73: every signature is the RedDSA signature, under the key of its action, with 80 bytes of its own. *)
Theorem C73_apply_signatures_randomness :
  forall (C : Curve) (OR : @Oracles C) (V : Type) (b : bundle (in_progress bytes unauthorized) signing_metadata V)
    (r : rng) (sighash : bytes) (asks : list Z) (bd : bundle authorized signature V),
  apply_signatures b r sighash asks = Ret (Ok bd) ->
  exists rnds rnd r', draws r (map Bytes (rnd :: rnds)) r' /\ length rnd = 80%nat /\
    au_binding_sig (b_auth bd) = reddsa Binding (ua_bsk (ip_sigs (b_auth b))) sighash rnd /\
    Forall3 (fun a a' x => length x = 80%nat /\ exists ask, signer asks a ask /\
      a_auth a' = reddsa SpendAuth ((ask + sp_alpha (sm_parts (a_auth a))) mod qmod) sighash x) (b_actions b) (b_actions bd) rnds.
Proof. exact @apply_signatures_draws. Qed.
Print Assumptions C73_apply_signatures_randomness.

Theorem C73_prepare_randomness :
  forall (C : Curve) (OR : @Oracles C) (V P : Type) (b : bundle (in_progress P unauthorized) signing_metadata V)
    (r : rng) (sighash : bytes) (b' : @partial_bundle C V P) (r' : rng),
  prepare b r sighash = (b', r') ->
  exists xs rnd, draws r (flat_map seed_draws xs ++ [Bytes rnd]) r' /\ length rnd = 80%nat /\
    Forall3 (prepared_from sighash) (b_actions b) (b_actions b') xs /\
    pa_binding_sig (ip_sigs (b_auth b')) = reddsa Binding (ua_bsk (ip_sigs (b_auth b))) sighash rnd /\
    pa_sighash (ip_sigs (b_auth b')) = sighash.
Proof. exact @prepare_draws. Qed.
Print Assumptions C73_prepare_randomness.

Theorem C73_sign_randomness :
  forall (C : Curve) (OR : @Oracles C) (V P : Type) (b : @partial_bundle C V P) (r : rng) (ask : Z)
    (b' : @partial_bundle C V P) (r' : rng),
  bundle_sign b r ask = (b', r') ->
  exists xs, draws r (flat_map seed_draws xs) r' /\ b_auth b' = b_auth b /\
    Forall3 (signed_from (pa_sighash (ip_sigs (b_auth b))) [ask]) (b_actions b) (b_actions b') xs.
Proof. exact @bundle_sign_draws. Qed.
Print Assumptions C73_sign_randomness.

(** The bundle of C17-C21 meets the premises. *)
Example C73_ex : exists b0 meta r' b1 r1 ask b2 bd,
  build (fun i : Z => Some i) 5 toy_builder toy_rng = Ret (Ok (Some (b0, meta)), r') /\
  create_proof toy_prover b0 toy_rng = Ret (Ok b1, r1) /\
  covers [ask] toy_builder /\ apply_signatures b1 toy_rng toy_sighash [ask] = Ret (Ok bd) /\
  history toy_prover b0 toy_sighash true b2 /\ authorizable toy_sighash b2 /\ b_actions b2 <> [] /\
  finalize b2 = Ret (Ok bd).
Proof. exact toy_pipeline. Qed.

(** C74. Two valid signatures that share R but not the challenge reveal the key. *)
Theorem C74_reusing_a_nonce_reveals_the_key :
  forall (C : Curve) (OR : @Oracles C) (L : CurveLaws C) (t : sig_type) (vk : point) (m m' : bytes) (s s' : signature),
  verify t vk m s = true -> verify t vk m' s' = true -> sig_r s = sig_r s' ->
  (challenge vk m s - challenge vk m' s') mod qmod <> 0 ->
  exists u, (u * (challenge vk m s - challenge vk m' s')) mod qmod = 1 /\
    vk = pt_mul ((u * (le_val (sig_s s) - le_val (sig_s s'))) mod qmod) (basepoint t).
Proof. exact @two_answers. Qed.
Print Assumptions C74_reusing_a_nonce_reveals_the_key.

(** A valid signature is determined by its message, key and R. *)
Theorem C74_one_signature_for_each_R :
  forall (C : Curve) (OR : @Oracles C) (L : CurveLaws C) (t : sig_type) (vk : point) (m : bytes) (s s' : signature),
  basepoint t <> pt_id -> wf_sig s -> wf_sig s' ->
  verify t vk m s = true -> verify t vk m s' = true -> sig_r s = sig_r s' -> s = s'.
Proof. exact @one_answer. Qed.
Print Assumptions C74_one_signature_for_each_R.

(** Signing never reuses R for different keys, messages or randomizers, unless the hash of two given inputs collides. *)
Theorem C74_nonces_are_not_reused :
  forall (C : Curve) (OR : @Oracles C) (L : CurveLaws C) (t : sig_type) (sk sk' : Z) (m m' x x' : bytes),
  basepoint t <> pt_id -> length x = length x' ->
  sig_r (reddsa t sk m x) = sig_r (reddsa t sk' m' x') ->
  (x = x' /\ sk mod qmod = sk' mod qmod /\ m = m') \/
  (nonce_input t sk m x <> nonce_input t sk' m' x' /\ hstar (nonce_input t sk m x) = hstar (nonce_input t sk' m' x')).
Proof. exact @nonces. Qed.
Print Assumptions C74_nonces_are_not_reused.

Example C74_ex : exists vk s s',
  @verify toy_curve toy_oracles SpendAuth vk [x01] s = true /\ @verify toy_curve toy_oracles SpendAuth vk [x02] s' = true /\
  sig_r s = sig_r s' /\ (@challenge toy_curve toy_oracles vk [x01] s - @challenge toy_curve toy_oracles vk [x02] s') mod qmod <> 0 /\ wf_sig s.
Proof. exact reuse_ex. Qed.
Example C74_ex_base : @basepoint toy_curve toy_oracles SpendAuth <> pt_id.
Proof. exact toy_basepoint. Qed.
