{
 "claims": [
  {
   "property": "C01",
   "status": "proved",
   "theorems": [
    "C01_sub_exact"
   ],
   "note": ""
  },
  {
   "property": "C02",
   "status": "proved",
   "theorems": [
    "C02_add_exact",
    "C02_sum_exact"
   ],
   "note": ""
  },
  {
   "property": "C03",
   "status": "proved",
   "theorems": [
    "C03_i64_exact",
    "C03_magnitude_sign",
    "C03_note_value_bytes"
   ],
   "note": ""
  },
  {
   "property": "C04",
   "status": "proved",
   "theorems": [
    "C04_derive_total",
    "C04_commitments_add_up"
   ],
   "note": ""
  },
  {
   "property": "C05",
   "status": "proved",
   "theorems": [
    "C05_flags_byte",
    "C05_named_flags"
   ],
   "note": ""
  },
  {
   "property": "C06",
   "status": "proved",
   "theorems": [
    "C06_num_actions",
    "C06_named_types"
   ],
   "note": ""
  },
  {
   "property": "C07",
   "status": "proved",
   "theorems": [
    "C07_calls_follow_the_rules",
    "C07_histories_accept_only_legal_items",
    "C07_histories_never_panic"
   ],
   "note": ""
  },
  {
   "property": "C08",
   "status": "proved",
   "theorems": [
    "C08_build_fails_only_on_overflow"
   ],
   "note": ""
  },
  {
   "property": "C09",
   "status": "proved",
   "theorems": [
    "C09_shape_of_the_built_bundle"
   ],
   "note": ""
  },
  {
   "property": "C10",
   "status": "proved",
   "theorems": [
    "C10_metadata_points_at_the_right_actions"
   ],
   "note": ""
  },
  {
   "property": "C11",
   "status": "proved",
   "theorems": [
    "C11_items_appear_once_and_padding_has_no_value"
   ],
   "note": ""
  },
  {
   "property": "C12",
   "status": "proved",
   "theorems": [
    "C12_value_balance_is_exact",
    "C12_value_balance_succeeds_exactly"
   ],
   "note": ""
  },
  {
   "property": "C13",
   "status": "proved",
   "theorems": [
    "C13_overflow_depends_on_order_refuted"
   ],
   "note": "Refuted: the property as stated is false of the code."
  },
  {
   "property": "C14",
   "status": "proved",
   "theorems": [
    "C14_each_action_binds_its_own_notes"
   ],
   "note": ""
  },
  {
   "property": "C15",
   "status": "proved",
   "theorems": [
    "C15_binding_key_matches"
   ],
   "note": ""
  },
  {
   "property": "C16",
   "status": "proved",
   "theorems": [
    "C16_recipients_can_read"
   ],
   "note": ""
  },
  {
   "property": "C17",
   "status": "proved",
   "theorems": [
    "C17_finalize_exactly_when_all_signed"
   ],
   "note": ""
  },
  {
   "property": "C18",
   "status": "proved",
   "theorems": [
    "C18_sign_touches_its_own_actions"
   ],
   "note": ""
  },
  {
   "property": "C19",
   "status": "proved",
   "theorems": [
    "C19_external_signatures"
   ],
   "note": ""
  },
  {
   "property": "C20",
   "status": "proved",
   "theorems": [
    "C20_authorized_bundles_carry_valid_signatures",
    "C20_apply_signatures_exactly_when_covered"
   ],
   "note": ""
  },
  {
   "property": "C21",
   "status": "proved",
   "theorems": [
    "C21_authorizing_keeps_the_effects",
    "C21_the_commitment_is_the_same_at_every_stage"
   ],
   "note": ""
  },
  {
   "property": "C22",
   "status": "proved",
   "theorems": [
    "C22_commitment_binds_effects",
    "C22_commitment_depends_only_on_effects"
   ],
   "note": ""
  },
  {
   "property": "C23",
   "status": "proved",
   "theorems": [
    "C23_both_commitments_bind",
    "C23_authorizing_commitment_alone_does_not"
   ],
   "note": ""
  },
  {
   "property": "C24",
   "status": "proved",
   "theorems": [
    "C24_valid_batch_accepted",
    "C24_accepted_batch_valid",
    "C24_at_most_one_bad_coefficient",
    "C24_one_bad_signature_rejected",
    "C24_error_point",
    "C24_adding_does_not_panic",
    "C24_empty_batch_accepted"
   ],
   "note": ""
  },
  {
   "property": "C25",
   "status": "proved",
   "theorems": [
    "C25_decrypt_outputs_with_keys",
    "C25_recover_outputs_with_ovks"
   ],
   "note": ""
  },
  {
   "property": "C26",
   "status": "proved",
   "theorems": [
    "C26_encryption_round_trip"
   ],
   "note": ""
  },
  {
   "property": "C27",
   "status": "proved",
   "theorems": [
    "C27_full_decryption_sound",
    "C27_compact_decryption_sound",
    "C27_output_recovery_sound"
   ],
   "note": ""
  },
  {
   "property": "C28",
   "status": "proved",
   "theorems": [
    "C28_compact_agrees"
   ],
   "note": ""
  },
  {
   "property": "C29",
   "status": "proved",
   "theorems": [
    "C29_batch_kdf_aligned"
   ],
   "note": ""
  },
  {
   "property": "C30",
   "status": "proved",
   "theorems": [
    "C30_spending_key_usable",
    "C30_spending_keys_accepted_exactly"
   ],
   "note": ""
  },
  {
   "property": "C31",
   "status": "proved",
   "theorems": [
    "C31_from_bytes_no_panic_refuted",
    "C31_from_bytes_panics_iff_ask_zero"
   ],
   "note": "Refuted: the property as stated is false of the code; the theorems give a witness and the exact panic condition (ask = 0)."
  },
  {
   "property": "C32",
   "status": "proved",
   "theorems": [
    "C32_fvk_codec",
    "C32_valid_fvk_never_panics",
    "C32_sk_gives_valid_fvk"
   ],
   "note": ""
  },
  {
   "property": "C33",
   "status": "proved",
   "theorems": [
    "C33_ivk_codec",
    "C33_address_codec",
    "C33_derived_addresses_valid"
   ],
   "note": ""
  },
  {
   "property": "C34",
   "status": "proved",
   "theorems": [
    "C34_codecs",
    "C34_noncanonical_rejected"
   ],
   "note": ""
  },
  {
   "property": "C35",
   "status": "proved",
   "theorems": [
    "C35_diversifier_index",
    "C35_distinct_indices_distinct_addresses",
    "C35_every_diversifier_has_an_index",
    "C35_numbered_indices"
   ],
   "note": ""
  },
  {
   "property": "C36",
   "status": "proved",
   "theorems": [
    "C36_scope_for_address"
   ],
   "note": ""
  },
  {
   "property": "C37",
   "status": "proved",
   "theorems": [
    "C37_ask_normalised",
    "C37_fvk_has_the_same_ak",
    "C37_randomised_signature_verifies",
    "C37_verify_is_schnorr"
   ],
   "note": ""
  },
  {
   "property": "C38",
   "status": "proved",
   "theorems": [
    "C38_key_agreement"
   ],
   "note": ""
  },
  {
   "property": "C39",
   "status": "proved",
   "theorems": [
    "C39_path_in_two_parts",
    "C39_path_key",
    "C39_child_derivation",
    "C39_from_zip32_seed",
    "C39_key_indices"
   ],
   "note": ""
  },
  {
   "property": "C40",
   "status": "proved",
   "theorems": [
    "C40_no_panic_long_path_refuted",
    "C40_no_panic_bad_seed_refuted",
    "C40_only_zero_ask_panics"
   ],
   "note": "Refuted: the property as stated is false of the code (seed length assertion, u8 depth overflow); C40_only_zero_ask_panics proves what remains true."
  },
  {
   "property": "C41",
   "status": "proved",
   "theorems": [
    "C41_path_gives_root",
    "C41_empty_roots"
   ],
   "note": ""
  },
  {
   "property": "C42",
   "status": "proved",
   "theorems": [
    "C42_root_binds_leaf"
   ],
   "note": ""
  },
  {
   "property": "C43",
   "status": "proved",
   "theorems": [
    "C43_bits",
    "C43_bits_k"
   ],
   "note": ""
  },
  {
   "property": "C44",
   "status": "proved",
   "theorems": [
    "C44_message_determines_note",
    "C44_equal_notes",
    "C44_from_parts",
    "C44_new_notes"
   ],
   "note": ""
  },
  {
   "property": "C45",
   "status": "proved",
   "theorems": [
    "C45_esk_same_rho",
    "C45_esk_never_panics_refuted"
   ],
   "note": "Refuted for a seed parsed with another rho; proved for the same rho."
  },
  {
   "property": "C46",
   "status": "proved",
   "theorems": [
    "C46_action_gate"
   ],
   "note": ""
  },
  {
   "property": "C47",
   "status": "proved",
   "theorems": [
    "C47_commit_ivk_message",
    "C47_commit_ivk_assignable",
    "C47_commit_ivk_sound"
   ],
   "note": ""
  },
  {
   "property": "C48",
   "status": "proved",
   "theorems": [
    "C48_note_commit_message",
    "C48_note_commit_assignable",
    "C48_note_commit_sound"
   ],
   "note": ""
  },
  {
   "property": "C49",
   "status": "proved",
   "theorems": [
    "C49_circuit_proves_the_statement",
    "C49_statement_is_provable",
    "C49_spent_notes_are_in_the_tree"
   ],
   "note": "Given the halo2 gadget contracts of Halo2.v (listed in DESIGN.md); the exceptional case is an explicit undefined Sinsemilla hash in the cells."
  },
  {
   "property": "C50",
   "status": "proved",
   "theorems": [
    "C50_built_bundles_satisfy_the_circuit"
   ],
   "note": "For actions whose rk is not the identity (C53) and unless a Merkle layer hash is undefined."
  },
  {
   "property": "C51",
   "status": "proved",
   "theorems": [
    "C51_value_is_conserved",
    "C51_disabled_side_is_empty"
   ],
   "note": "In reduction form: a non-zero surplus is an explicit discrete-log relation between the value bases."
  },
  {
   "property": "C52",
   "status": "proved",
   "theorems": [
    "C52_instance_injective",
    "C52_bundle_instances_injective"
   ],
   "note": ""
  },
  {
   "property": "C53",
   "status": "proved",
   "theorems": [
    "C53_verify_proof_no_panic_refuted",
    "C53_only_identity_rk_panics"
   ],
   "note": "Refuted: the property as stated is false of the code."
  },
  {
   "property": "C54",
   "status": "proved",
   "theorems": [
    "C54_one_nullifier_per_note",
    "C54_new_notes_are_distinct"
   ],
   "note": "In reduction form: the exceptions are explicit NoteCommit or CommitIvk collisions, i.e. discrete-log relations."
  },
  {
   "property": "C55",
   "status": "proved",
   "theorems": [
    "C55_inputs_distinct",
    "C55_inputs_are_these"
   ],
   "note": ""
  },
  {
   "property": "C56",
   "status": "proved",
   "theorems": [
    "C56_primes",
    "C56_no_zero_coordinate",
    "C56_mod_r_p",
    "C56_constants",
    "C56_generators_on_curve"
   ],
   "note": ""
  },
  {
   "property": "C57",
   "status": "proved",
   "theorems": [
    "C57_value_commit_gadget",
    "C57_derive_nullifier_gadget"
   ],
   "note": ""
  },
  {
   "property": "C58",
   "status": "proved",
   "theorems": [
    "C58_shuffle_permutes"
   ],
   "note": ""
  },
  {
   "property": "C59",
   "status": "proved",
   "theorems": [
    "C59_hash_is_linear",
    "C59_hash_collision",
    "C59_commit_collision",
    "C59_hash_undefined",
    "C59_merkle_collision"
   ],
   "note": ""
  },
  {
   "property": "C60",
   "status": "proved",
   "theorems": [
    "C60_pallas_satisfies_the_laws",
    "C60_points_are_the_solutions",
    "C60_prime_order",
    "C60_decoding_is_exact",
    "C60_hard_coded_generators"
   ],
   "note": ""
  },
  {
   "property": "C61",
   "status": "proved",
   "theorems": [
    "C61_authorized_bundles_are_accepted",
    "C61_pipeline_completes",
    "C61_recipients_read_the_final_bundle"
   ],
   "note": "Given completeness of halo2 (an honest proof is made and verifies), for actions whose rk is not the identity (C53) and unless a Merkle layer hash is undefined."
  },
  {
   "property": "C62",
   "status": "proved",
   "theorems": [
    "C62_valid_bundle_means",
    "C62_accepted_batch_means"
   ],
   "note": "Given knowledge soundness of halo2 and of the signature scheme in the idealised form of an extractor; the exceptions are explicit discrete-log relations or a cancellation of the batch coefficients."
  },
  {
   "property": "C63",
   "status": "proved",
   "theorems": [
    "C63_ledger_is_sound",
    "C63_no_commitment_is_an_empty_leaf"
   ],
   "note": "Given the extractors of C62; the exceptions are explicit discrete-log relations; the empty-leaf exception is impossible on Pallas (second theorem)."
  },
  {
   "property": "C64",
   "status": "proved",
   "theorems": [
    "C64_hash_to_curve_is_on_the_curve",
    "C64_outputs_are_not_cut",
    "C64_poseidon_follows_the_round_schedule",
    "C64_published_vectors"
   ],
   "note": ""
  },
  {
   "property": "C65",
   "status": "proved",
   "theorems": [
    "C65_circuit_and_wallet_use_the_same_generators",
    "C65_bases_are_not_the_identity"
   ],
   "note": ""
  },
  {
   "property": "C66",
   "status": "proved",
   "theorems": [
    "C66_build_on_pallas",
    "C66_pipeline_on_pallas",
    "C66_ledger_on_pallas",
    "C66_key_extractors_exist"
   ],
   "note": "Instances of C11, C61 and C63 at Pallas with the external functions written out; halo2 and the signature extractors stay premises."
  },
  {
   "property": "C67",
   "status": "proved",
   "theorems": [
    "C67_direct_calls_follow_the_builder",
    "C67_outcomes_of_direct_calls",
    "C67_dummy_outputs_are_items"
   ],
   "note": "Stated for items made by the public constructors (SpendInfo::new, OutputInfo::new, OutputInfo::dummy)."
  },
  {
   "property": "C68",
   "status": "proved",
   "theorems": [
    "C68_generators_coincide_only_on_a_hash_collision"
   ],
   "note": "In reduction form: the exception is a collision of the group hash on two given, different inputs."
  },
  {
   "property": "C69",
   "status": "proved",
   "theorems": [
    "C69_received_notes_can_be_spent"
   ],
   "note": ""
  },
  {
   "property": "C70",
   "status": "proved",
   "theorems": [
    "C70_received_notes_have_distinct_nullifiers"
   ],
   "note": "In reduction form: the exception is an explicit discrete-log relation computed from the two notes."
  },
  {
   "property": "C71",
   "status": "proved",
   "theorems": [
    "C71_only_the_owner_nullifies"
   ],
   "note": "Given the extractors of C62; the exceptions are explicit discrete-log relations."
  },
  {
   "property": "C72",
   "status": "proved",
   "theorems": [
    "C72_every_secret_has_its_own_draw"
   ],
   "note": ""
  },
  {
   "property": "C73",
   "status": "proved",
   "theorems": [
    "C73_apply_signatures_randomness",
    "C73_prepare_randomness",
    "C73_sign_randomness"
   ],
   "note": ""
  },
  {
   "property": "C74",
   "status": "proved",
   "theorems": [
    "C74_reusing_a_nonce_reveals_the_key",
    "C74_one_signature_for_each_R",
    "C74_nonces_are_not_reused"
   ],
   "note": "The last part is in reduction form: the exception is a collision of the RedPallas hash on two given inputs."
  },
  {
   "property": "C75",
   "status": "proved",
   "theorems": [
    "C75_viewing_keys_are_totally_ordered",
    "C75_incoming_viewing_keys_are_totally_ordered",
    "C75_field_elements_are_ordered_as_integers",
    "C75_addresses_and_extended_keys_are_compared_in_full"
   ],
   "note": ""
  },
  {
   "property": "C76",
   "status": "proved",
   "theorems": [
    "C76_value_commitments_hide",
    "C76_note_commitments_hide",
    "C76_randomized_keys_hide",
    "C76_incoming_viewing_keys_hide",
    "C76_wide_reduction_is_almost_uniform"
   ],
   "note": ""
  },
  {
   "property": "C77",
   "status": "proved",
   "theorems": [
    "C77_ciphertexts_use_these_keys",
    "C77_outgoing_keys_are_bound_to_the_action",
    "C77_note_keys_are_not_reused"
   ],
   "note": "In reduction form: the exceptions are collisions on two given inputs and a relation between two given bases."
  },
  {
   "property": "C78",
   "status": "proved",
   "theorems": [
    "C78_sinsemilla",
    "C78_merkle_tree",
    "C78_notes",
    "C78_value_commitments",
    "C78_keys",
    "C78_diversifiers",
    "C78_encodings",
    "C78_signatures",
    "C78_digests"
   ],
   "note": "The group hash, BLAKE2b, Poseidon and the FF1 round function are shared between specification and model; C64 writes them out for Pallas."
  },
  {
   "property": "C79",
   "status": "proved",
   "theorems": [
    "C79_shuffle_is_fair",
    "C79_places_are_fair"
   ],
   "note": "The indices themselves come from rand's gen_index, which is an oracle of the model; only the use made of them is proved fair."
  },
  {
   "property": "C80",
   "status": "proved",
   "theorems": [
    "C80_own_transactions_are_accepted",
    "C80_payments_arrive_and_can_be_spent",
    "C80_own_transactions_are_accepted_on_pallas",
    "C80_payments_arrive_and_can_be_spent_on_pallas"
   ],
   "note": "The chain is the one of C63; halo2 completeness is a hypothesis as in C61. The exceptions name data of the given transaction."
  },
  {
   "property": "C81",
   "status": "proved",
   "theorems": [
    "C81_consumed_notes_are_seen",
    "C81_unspent_notes_are_backed",
    "C81_unspent_notes_are_backed_on_pallas"
   ],
   "note": "The chain, the extractors and the exceptions are those of C63 and C71. On Pallas the extractor for spend authorization signatures is not assumed."
  },
  {
   "property": "C82",
   "status": "proved",
   "theorems": [
    "C82_the_bound_on_retries_does_not_matter",
    "C82_build_ends",
    "C82_direct_calls_end"
   ],
   "note": "That unusable strings are rare is a property of BLAKE2b and Sinsemilla and is not claimed."
  },
  {
   "property": "C83",
   "status": "proved",
   "theorems": [
    "C83_readers_agree",
    "C83_light_clients_agree",
    "C83_one_recipient"
   ],
   "note": "The exceptions are about the two notes that were read. The hypothesis on actions is that their fields have the sizes of their Rust types."
  },
  {
   "property": "C84",
   "status": "proved",
   "theorems": [
    "C84_signature_has_one_message",
    "C84_signatures_fix_effects",
    "C84_binding_signature_stays"
   ],
   "note": "Moving a signature to another key is not covered: keys are chosen by the signer. The sighash is any function of the bundle commitment."
  },
  {
   "property": "C85",
   "status": "proved",
   "theorems": [
    "C85_batch_decryption",
    "C85_batch_compact_decryption"
   ],
   "note": "The loop of zcash_note_encryption::batch is modelled from its documentation and use; orchard's own part is batch_kdf."
  },
  {
   "property": "C86",
   "status": "proved",
   "theorems": [
    "C86_flags_restrict_bundles"
   ],
   "note": "Stated with knowledge extractors, like C62; the extracted witnesses are the ones meant."
  },
  {
   "property": "C87",
   "status": "proved",
   "theorems": [
    "C87_one_owner",
    "C87_external_address_has_one_key",
    "C87_scopes_do_not_overlap",
    "C87_one_spender"
   ],
   "note": "Across scopes, equality of the scope's randomness is what can hold: the internal viewing key of a wallet is itself a full viewing key whose external addresses are the wallet's change addresses (the Example)."
  },
  {
   "property": "C88",
   "status": "proved",
   "theorems": [
    "C88_map_authorization",
    "C88_map_authorization_keeps_the_checks",
    "C88_try_map_authorization_succeeds",
    "C88_try_map_authorization_fails",
    "C88_try_map_authorization_panics",
    "C88_try_map_value_balance",
    "C88_same_balance_same_checks"
   ],
   "note": "Closures are functions that return the new context; the bundle-level closure of the fallible form may panic, which is passed on."
  },
  {
   "property": "C89",
   "status": "proved",
   "theorems": [
    "C89_balance_follows_payments",
    "C89_account_book",
    "C89_no_note_is_born_spent",
    "C89_account_book_on_pallas"
   ],
   "note": "A wallet's spends are those of notes it found (account); spending a note it was only told about is outside the statement. The account book needs no extractor; the statement about any chain uses those of C63."
  },
  {
   "property": "C90",
   "status": "proved",
   "theorems": [
    "C90_views_hide",
    "C90_pallas_bases",
    "C90_transactions_show_a_view",
    "C90_transactions_hide"
   ],
   "note": "About commitments, randomized keys and signatures. Note commitments and nullifiers have their own statements (C76); ciphertexts are outside, since their hiding is computational. On the crate's curve the premises on the bases are C90_pallas_bases."
  },
  {
   "property": "C91",
   "status": "proved",
   "theorems": [
    "C91_recipient_reads_exactly_on_pallas",
    "C91_light_client_reads_exactly_on_pallas",
    "C91_recipient_reads_exactly",
    "C91_light_client_reads_exactly",
    "C91_sender_recovers_exactly",
    "C91_recovery_inverts_encryption",
    "C91_one_ciphertext_per_note_and_memo"
   ],
   "note": "The generic functions of zcash_note_encryption 0.4 are modelled from their published source, as in C26 and C27; that the sealed form is the encryptor's is C91_recovery_inverts_encryption and C77."
  },
  {
   "property": "C92",
   "status": "proved",
   "theorems": [
    "C92_steps_in_any_order",
    "C92_proving_at_any_moment",
    "C92_proving_before_or_after_preparing",
    "C92_what_the_prover_is_given",
    "C92_signing_again_changes_nothing",
    "C92_second_signature_is_refused"
   ],
   "note": "Each signer has its own generator; a generator shared by several signers makes the signatures themselves depend on the order. Which steps compete is said in ScheduleSpec.v."
  },
  {
   "property": "C93",
   "status": "proved",
   "theorems": [
    "C93_light_client_reads_the_same",
    "C93_light_client_balance",
    "C93_light_account_book",
    "C93_a_spoiled_tag_is_seen_only_in_full"
   ],
   "note": "The chain and the account are those of C89. Outputs not written by the encryptor are covered one by one by C28 and C91."
  },
  {
   "property": "C94",
   "status": "proved",
   "theorems": [
    "C94_coins_are_the_balance",
    "C94_the_builder_accepts_any_choice",
    "C94_the_choice_is_legal",
    "C94_the_builder_delivers",
    "C94_the_payment_is_accepted_and_the_rest_remains",
    "C94_the_payment_is_accepted_on_pallas"
   ],
   "note": "Ledger and tree are those of C63; paths are the authentication paths of C41 in the tree of the ledger's commitments. Proof success and completeness are premises, as in C61."
  },
  {
   "property": "C95",
   "status": "proved",
   "theorems": [
    "C95_stays_valid_exactly",
    "C95_taken_together_exactly",
    "C95_any_order",
    "C95_conflicting_transactions"
   ],
   "note": "The ledger rule (verification, known anchor, fresh nullifiers, room in the tree) is that of C63; the rule itself belongs to the consensus code, which is not in this repository. Which transactions verify does not depend on the state."
  },
  {
   "property": "C96",
   "status": "proved",
   "theorems": [
    "C96_balances_are_backed",
    "C96_balances_are_backed_on_pallas"
   ],
   "note": "Soundness of the proof system and knowledge soundness of the signatures enter as premises about extractors, as in C63 and C81; the on-Pallas statement needs none for spend authorization signatures."
  },
  {
   "property": "C97",
   "status": "proved",
   "theorems": [
    "C97_recovered_payments_reach_the_recipient_on_pallas",
    "C97_sender_sees_exactly_what_was_sent",
    "C97_recovered_payments_reach_the_recipient"
   ],
   "note": "The draws of C72 name the random keys of outputs without an outgoing viewing key. ChaCha20-Poly1305 does not commit to its key, so the exception about two keys cannot be excluded; it is an equation between two computed tags."
  },
  {
   "property": "C98",
   "status": "proved",
   "theorems": [
    "C98_payment_from_an_older_root",
    "C98_survives_a_fork",
    "C98_payment_from_an_older_root_on_pallas"
   ],
   "note": "Ledger, coins and exceptions are those of C63 and C94. That the selected notes are still unspent is said with the coins of the later chain."
  },
  {
   "property": "C99",
   "status": "proved",
   "theorems": [
    "C99_the_balance_changes_by_what_is_taken_and_what_arrives",
    "C99_each_note_is_taken_by_its_owner",
    "C99_no_loss_without_the_owner",
    "C99_no_loss_on_pallas"
   ],
   "note": "Soundness of the proof system and of the signatures enters as extractors, as in C62 to C71. The exceptions are explicit relations between generators."
  },
  {
   "property": "C100",
   "status": "proved",
   "theorems": [
    "C100_scanned_notes_are_the_balance_on_pallas",
    "C100_scanning_finds_the_coins",
    "C100_scanned_notes_are_the_balance"
   ],
   "note": "The scanning loop belongs to the wallet, not to this crate; it is written out in ScanSpec.v from the crate's decryption and nullifier functions. Chain and exceptions are those of C89."
  },
  {
   "property": "C101",
   "status": "proved",
   "theorems": [
    "C101_light_coins_are_the_light_balance",
    "C101_the_download_gives_the_tree",
    "C101_a_light_client_misses_nothing",
    "C101_the_same_coins_as_a_full_wallet",
    "C101_scanning_finds_the_light_coins",
    "C101_the_builder_accepts_any_choice",
    "C101_the_choice_is_legal",
    "C101_the_payment_is_accepted",
    "C101_the_payment_is_accepted_on_pallas"
   ],
   "note": "The tree and the ledger are those of C87 and C94. Hypotheses on the proof system are proofs_verify and prover_succeeds, as in C94. That the note a light client reads is the note a full wallet reads is claimed only for chains made with the crate."
  },
  {
   "property": "C102",
   "status": "proved",
   "theorems": [
    "C102_balances_add_up_to_the_pool",
    "C102_a_payment_only_moves_value",
    "C102_light_balances_add_up_to_the_pool",
    "C102_balances_add_up_on_pallas"
   ],
   "note": "C96 is the inequality on any accepted chain, C102 the equation on chains made with the crate inside the group. Pool and chain are those of C63, made and account those of C80 and C89; the conversion of the value balance type is assumed to be exact, as in C12."
  },
  {
   "property": "C103",
   "status": "proved",
   "theorems": [
    "C103_recipient_sees_exactly_what_was_sent",
    "C103_recipient_reads_its_whole_history",
    "C103_light_client_reads_its_whole_history",
    "C103_recipient_reads_its_whole_history_on_pallas"
   ],
   "note": "The dual of C97. Payments of value zero are left out on both sides, because padding has value zero and nobody is to tell it from a payment of nothing. made is that of C93."
  }
 ]
}