(** Properties C22-C25, C52, C53 (src/bundle.rs, commitments.rs, batch.rs, instance of circuit.rs). *)
From Coq Require Import String ZArith List Bool.
From Coq Require Import Init.Byte.
From Verif Require Import Prelude Fields Curve Oracles RedPallas Value Keys Note Action NoteEnc Bundle Batch
  KeysSpec NoteSpec NoteEncSpec BundleSpec BundleFacts BatchFacts Toy ToyFacts ToyKeys ToyNoteEnc ToyBundle ToyBatch.
Import ListNotations.
Open Scope Z_scope.

(** C22: equal bundle commitments mean equal effects, or an explicit hash collision. The two bundles
    may be at different authorization stages. *)
Theorem C22_commitment_binds_effects :
  forall (C : Curve) (OR : @Oracles C) (L : CurveLaws C) (T S T' S' V : Type) (into : V -> Z)
    (b : bundle T S V) (b' : bundle T' S' V),
  (forall v w, into v = into w -> v = w) ->
  bundle_ok into b -> bundle_ok into b' -> bundle_commitment into b = bundle_commitment into b' ->
  effects b = effects b' \/ txid_collision into b b'.
Proof. exact @commitment_binds. Qed.
Print Assumptions C22_commitment_binds_effects.

Theorem C22_commitment_depends_only_on_effects :
  forall (C : Curve) (OR : @Oracles C) (T S T' S' V : Type) (into : V -> Z)
    (b : bundle T S V) (b' : bundle T' S' V),
  effects b = effects b' -> bundle_commitment into b = bundle_commitment into b'.
Proof. exact @commitment_of_effects. Qed.
Print Assumptions C22_commitment_depends_only_on_effects.

(** One bundle at two stages. *)
Example C22_example : exists (b : bundle authorized signature Z) (b' : bundle unit unit Z),
  bundle_ok (fun v => v) b /\ bundle_ok (fun v => v) b' /\ effects b = effects b' /\ length (b_actions b) = 2%nat /\
  bundle_commitment (fun v => v) b = bundle_commitment (fun v => v) b'.
Proof.
  exists toy_bundle, toy_stripped. split; [exact toy_bundle_ok|]. split; [exact toy_stripped_ok|]. split; [exact toy_stripped_effects|].
  split; [reflexivity|]. exact (@C22_commitment_depends_only_on_effects _ _ _ _ _ _ _ (fun v => v) _ _ toy_stripped_effects).
Qed.

(** C23: both commitments together bind everything. *)
Theorem C23_both_commitments_bind :
  forall (C : Curve) (OR : @Oracles C) (L : CurveLaws C) (V : Type) (into : V -> Z)
    (b b' : bundle authorized signature V),
  (forall v w, into v = into w -> v = w) ->
  bundle_ok into b -> bundle_ok into b' -> auth_ok b -> auth_ok b' ->
  bundle_commitment into b = bundle_commitment into b' -> authorizing_commitment b = authorizing_commitment b' ->
  b = b' \/ txid_collision into b b' \/ collision "ZTxAuthOrchaHash" (auth_data b) (auth_data b').
Proof. exact @both_bind. Qed.
Print Assumptions C23_both_commitments_bind.

(** C23: the authorizing commitment alone does not, even without any collision: the hashed strings
    of two bundles with different numbers of actions can be the same. *)
Theorem C23_authorizing_commitment_alone_does_not :
  exists (C : Curve) (OR : @Oracles C) (b b' : bundle authorized signature Z),
    CurveLaws C /\ bundle_ok (fun v => v) b /\ bundle_ok (fun v => v) b' /\ auth_ok b /\ auth_ok b' /\
    auth_data b = auth_data b' /\ authorizing_commitment b = authorizing_commitment b' /\
    length (b_actions b) <> length (b_actions b').
Proof. exact auth_alone_does_not_bind. Qed.
Print Assumptions C23_authorizing_commitment_alone_does_not.

Example C22_C23_example : bundle_ok (fun v => v) toy_bundle /\ auth_ok toy_bundle /\ length (b_actions toy_bundle) = 2%nat.
Proof. exact (conj toy_bundle_ok (conj toy_bundle_auth_ok eq_refl)). Qed.

(** C24: valid bundles are accepted, whatever the random coefficients. *)
Theorem C24_valid_batch_accepted :
  forall (C : Curve) (OR : @Oracles C) (L : CurveLaws C) (V : Type)
    (halo2_verify : bytes -> list (list Z) -> bool) (into : V -> Z)
    (l : list (bundle authorized signature V * bytes)) (bt : batch) (r : rng),
  add_all into batch_new l = Ret bt ->
  (forall b sh, In (b, sh) l -> bundle_valid halo2_verify into b sh) -> validate halo2_verify bt r = true.
Proof. exact @complete. Qed.
Print Assumptions C24_valid_batch_accepted.

(** C24: an accepted batch has only valid proofs and parsable signatures, and all its bundles
    are valid unless the drawn coefficients annihilate a non-zero vector of error points. *)
Theorem C24_accepted_batch_valid :
  forall (C : Curve) (OR : @Oracles C) (L : CurveLaws C) (V : Type)
    (halo2_verify : bytes -> list (list Z) -> bool) (into : V -> Z)
    (l : list (bundle authorized signature V * bytes)) (bt : batch) (r : rng),
  add_all into batch_new l = Ret bt -> validate halo2_verify bt r = true ->
  (forall b sh, In (b, sh) l -> verify_proof halo2_verify b = Ret true) /\
  ((forall b sh, In (b, sh) l -> bundle_valid halo2_verify into b sh) \/
   exists es, Forall2 (fun i E => sig_error i = Some E) (bt_signatures bt) es /\
     combination (coefficients (length (bt_signatures bt)) r) es = pt_id /\ exists E, In E es /\ E <> pt_id).
Proof. exact @sound. Qed.
Print Assumptions C24_accepted_batch_valid.

(** C24: how unlikely that is. With the other coefficients fixed, at most one of the 2^128 values of
    an invalid signature's coefficient is accepted. *)
Theorem C24_at_most_one_bad_coefficient :
  forall (C : Curve) (OR : @Oracles C) (L : CurveLaws C) (l : list batch_item) (k : nat) (i : batch_item)
    (r r' : rng) (z z' : Z),
  nth_error l k = Some i -> sig_error i <> Some pt_id ->
  verify_items l r = true -> verify_items l r' = true ->
  (forall j, j <> k -> nth_error (coefficients (length l) r) j = nth_error (coefficients (length l) r') j) ->
  nth_error (coefficients (length l) r) k = Some z -> nth_error (coefficients (length l) r') k = Some z' -> z = z'.
Proof. exact @one_coefficient. Qed.
Print Assumptions C24_at_most_one_bad_coefficient.

(** C24: and a batch with exactly one invalid signature is rejected unless its coefficient is zero. *)
Theorem C24_one_bad_signature_rejected :
  forall (C : Curve) (OR : @Oracles C) (L : CurveLaws C) (l1 : list batch_item) (i : batch_item) (l2 : list batch_item) (r : rng),
  Forall (fun i => sig_error i = Some pt_id) (l1 ++ l2) -> sig_error i <> Some pt_id ->
  nth_error (coefficients (length (l1 ++ i :: l2)) r) (length l1) <> Some 0 -> verify_items (l1 ++ i :: l2) r = false.
Proof. exact @one_bad. Qed.
Print Assumptions C24_one_bad_signature_rejected.

(** [sig_error] is the identity exactly for signatures that verify. *)
Theorem C24_error_point :
  forall (C : Curve) (OR : @Oracles C) (L : CurveLaws C) (t : sig_type) (vk : point) (m : bytes) (s : signature),
  verify t vk m s = true <-> sig_error (mk_item t vk m s) = Some pt_id.
Proof. exact @verify_error. Qed.
Print Assumptions C24_error_point.

Theorem C24_adding_does_not_panic :
  forall (C : Curve) (OR : @Oracles C) (L : CurveLaws C) (V : Type) (into : V -> Z)
    (l : list (bundle authorized signature V * bytes)) (bt : batch),
  (forall b sh, In (b, sh) l ->
     Z.abs (into (b_value_balance b)) < 2 ^ 64 /\ forall a, In a (b_actions b) -> a_rk a <> pt_id) ->
  exists bt', add_all into bt l = Ret bt'.
Proof. exact (fun C OR L V => @add_all_total C OR L V (fun _ _ => true)). Qed.
Print Assumptions C24_adding_does_not_panic.

Theorem C24_empty_batch_accepted :
  forall (C : Curve) (OR : @Oracles C) (halo2_verify : bytes -> list (list Z) -> bool) (r : rng),
  validate halo2_verify batch_new r = true.
Proof. exact (fun C OR h r => eq_refl). Qed.
Print Assumptions C24_empty_batch_accepted.

Example C24_example : exists bt,
  add_all (fun v => v) batch_new [(toy_bundle, toy_sighash); (toy_bundle, toy_sighash)] = Ret bt /\
  forall b sh, In (b, sh) [(toy_bundle, toy_sighash); (toy_bundle, toy_sighash)] ->
    bundle_valid (fun _ _ => true) (fun v => v) b sh.
Proof. exact toy_batch. Qed.

(** A batch with one bad signature between two good ones, and coefficients that reject it. *)
Example C24_example_bad :
  Forall (fun i => sig_error i = Some pt_id) ([good_item 5] ++ [good_item 6]) /\ sig_error bad_item <> Some pt_id /\
  nth_error (coefficients (length ([good_item 5] ++ bad_item :: [good_item 6])) 1) (length [good_item 5]) <> Some 0.
Proof.
  split; [constructor; [apply good_item_good|constructor; [apply good_item_good|constructor]]|].
  split; [exact bad_item_bad|exact nonzero_coefficient].
Qed.

(** The one coefficient that lets a bad signature pass. *)
Example C24_example_coefficient :
  nth_error [bad_item] 0 = Some bad_item /\ sig_error bad_item <> Some pt_id /\
  verify_items [bad_item] zero_rng = true /\ coefficients 1 zero_rng = [0].
Proof.
  split; [reflexivity|]. split; [exact bad_item_bad|]. split; [exact bad_item_passes|exact zero_coefficient].
Qed.

(** C25: scanning with incoming viewing keys and with outgoing viewing keys. *)
Theorem C25_decrypt_outputs_with_keys :
  forall (C : Curve) (OR : @Oracles C) (L : CurveLaws C) (T S V : Type) (into : V -> Z) (b : bundle T S V) (keys : list ivk),
  gd_fallback_ok -> bundle_ok into b -> Forall ivk_ok keys ->
  (exists res, decrypt_outputs_with_keys b keys = Ret (map flatten_entry res) /\
     scan_of (fun k i => decrypt_output_with_key b i k) keys (seq 0 (length (b_actions b))) res) /\
  (forall i k, (length (b_actions b) <= i)%nat -> decrypt_output_with_key b i k = Ret None).
Proof. exact @decrypt_all. Qed.
Print Assumptions C25_decrypt_outputs_with_keys.

Theorem C25_recover_outputs_with_ovks :
  forall (C : Curve) (OR : @Oracles C) (L : CurveLaws C) (T S V : Type) (into : V -> Z) (b : bundle T S V) (keys : list bytes),
  bundle_ok into b ->
  (exists res, recover_outputs_with_ovks b keys = Ret (map flatten_entry res) /\
     scan_of (fun k i => recover_output_with_ovk b i k) keys (seq 0 (length (b_actions b))) res) /\
  (forall i k, (length (b_actions b) <= i)%nat -> recover_output_with_ovk b i k = Ret None).
Proof. exact @recover_all. Qed.
Print Assumptions C25_recover_outputs_with_ovks.

Example C25_example : gd_fallback_ok /\ bundle_ok (fun v => v) toy_bundle /\ Forall ivk_ok [toy_ivk; toy_ivk].
Proof. exact (conj toy_gd (conj toy_bundle_ok (Forall_cons _ toy_ivk_ok (Forall_cons _ toy_ivk_ok (Forall_nil _))))). Qed.

(** C52: the public inputs of one action, and those of a whole bundle. *)
Theorem C52_instance_injective :
  forall (C : Curve) (OR : @Oracles C) (L : CurveLaws C) (i j : instance) (l : list Z),
  to_halo2_instance i = Ret l -> to_halo2_instance j = Ret l -> i = j.
Proof. exact (fun C OR L => @instance_inj C L). Qed.
Print Assumptions C52_instance_injective.

Theorem C52_bundle_instances_injective :
  forall (C : Curve) (OR : @Oracles C) (L : CurveLaws C) (A : Type) (l l' : list (action A)) (f : flags) (an : Z)
    (f' : flags) (an' : Z) (r : list (list Z)),
  l <> [] ->
  omap to_halo2_instance (map (fun a => to_instance a f an) l) = Ret r ->
  omap to_halo2_instance (map (fun a => to_instance a f' an') l') = Ret r ->
  f = f' /\ an = an' /\
  map (fun a => (a_cv a, a_nf a, a_rk a, a_cmx a)) l = map (fun a => (a_cv a, a_nf a, a_rk a, a_cmx a)) l'.
Proof. exact (fun C OR L => @instances_inj C L). Qed.
Print Assumptions C52_bundle_instances_injective.

Example C52_example : exists r, omap to_halo2_instance (to_instances toy_bundle) = Ret r.
Proof. exact toy_instances. Qed.

(** C53 is false: an rk of 32 zero bytes parses, and verify_proof then panics. *)
Theorem C53_verify_proof_no_panic_refuted :
  exists (C : Curve) (OR : @Oracles C) (rk : point) (b : bundle authorized signature Z),
    CurveLaws C /\ vk_from_bytes (repeat x00 32) = Some rk /\
    (exists a, b_actions b = [a] /\ a_rk a = rk) /\ bundle_ok (fun v => v) b /\ auth_ok b /\
    forall halo2, exists why, verify_proof halo2 b = Panic why.
Proof. exact rk_identity_panics. Qed.
Print Assumptions C53_verify_proof_no_panic_refuted.

(** C53: that is the only way. *)
Theorem C53_only_identity_rk_panics :
  forall (C : Curve) (OR : @Oracles C) (L : CurveLaws C) (halo2_verify : bytes -> list (list Z) -> bool) (V : Type)
    (b : bundle authorized signature V),
  (exists ok, verify_proof halo2_verify b = Ret ok) <-> (forall a, In a (b_actions b) -> a_rk a <> pt_id).
Proof. exact (fun C OR L => @verify_proof_total C L). Qed.
Print Assumptions C53_only_identity_rk_panics.

Example C53_example : (forall a, In a (b_actions toy_bundle) -> a_rk a <> pt_id) /\ length (b_actions toy_bundle) = 2%nat.
Proof. split; [exact toy_rks|reflexivity]. Qed.
