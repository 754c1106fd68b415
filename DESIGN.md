# Formal model of zcash/orchard in Rocq (Coq 8.16.1)

## 1. What is modelled

The model follows `/repo/src` function by function (`value`, `bundle`, `bundle/commitments`,
`bundle/batch`, `builder`, `action`, `note`, `address`, `keys`, `spec`, `tree`, `zip32`,
`note_encryption`, `primitives/redpallas`, `constants`, `circuit` and its gadgets and custom gates).
Every definition of a model file cites the lines it models and says where it simplifies.

Conventions:

* integers are `Z`; Rust overflow is explicit where the code can overflow (`checked_*`, `u8 + 1`);
* `Option`/`Result` stay data; a Rust panic (`assert!`, `unwrap`, `expect`, overflow) is the value
  `Panic`; an unbounded rejection loop is a fuelled recursion whose exhaustion is `OutOfFuel`,
  and every theorem about such a function says what holds when it is neither;
* bytes are `Coq.Init.Byte.byte`; a Rust `[u8; n]` is a `list byte` with a length hypothesis;
* `pallas::Base` / `pallas::Scalar` are `Z` reduced modulo p / q;
* the curve is a record `Curve` (points, addition, negation, affine coordinates, decoding) used
  through an explicit law record `CurveLaws`: abelian group, `[q]P = O`, coordinates determine a point,
  x is shared by exactly P and -P, the identity has coordinates (0,0) and nothing else has a zero
  coordinate, the 32-byte encoding is x plus the parity of y and decoding is its exact inverse.
  Two instances are given: a small computable one (used in most `Example`s) and Pallas itself,
  for which all the laws are proved (C60: `PallasCurve.v`, `pallas_laws`);
* external functions (BLAKE2b, Poseidon, hash-to-curve, ChaCha20 key stream, Poly1305 tag, FF1 round
  function, the RNG, the halo2 prover/verifier) are fields of a record `Oracles`; theorems hold for every
  such record. Nothing is assumed about them beyond output length/range, which the model enforces
  by normalising their output (the identity on the real functions: C64). One instance is the real functions:
  `RealOracles.v` writes out BLAKE2b, Poseidon, hash-to-curve, ChaCha20-Poly1305 and FF1-AES256
  (`Blake2b.v`, `Poseidon.v`, `HashToCurve.v`, `ChaChaPoly.v`, `Ff1Aes.v`);
* everything that can be built from those is built rather than assumed: RedDSA (Schnorr) signatures,
  ChaCha20-Poly1305 as xor + tag, FF1 as a 10-round Feistel network, Sinsemilla with incomplete
  addition, Fisher-Yates shuffle, the generic note encryption and batched trial decryption of `zcash_note_encryption` 0.4.

## 2. Trusted base

* Coq 8.16.1's kernel (with `vm_compute`).
* `Print Assumptions` beneath each property theorem: "Closed under the global context" for all of them
  (see the table at the end).
* The reading of Rust as Gallina (this document and the comments in the model), and of the behaviour of the
  external crates named in the model's comments (`reddsa`, `zcash_note_encryption`, `fpe`, `rand`,
  `zip32`, `zcash_spec`, `pasta_curves`, `halo2_proofs`, `halo2_gadgets`), which are not in /repo.
* `halo2_proofs::plonk::BatchVerifier::finalize` and `reddsa`'s batch verification: the former is
  taken to be the conjunction of the individual verifications (`Batch.v`); the latter is modelled
  as the random linear combination it is.
* The halo2 gadget contracts of `Halo2.v`, the only place where circuit behaviour outside /repo is
  stated: running sums and 10-bit lookups; short range checks; the Sinsemilla chip forces the hash
  where it is defined and leaves the result UNCONSTRAINED where an incomplete addition is
  exceptional; fixed-base scalars are 255-bit integers, short scalars a 64-bit magnitude and a sign;
  ECC additions and multiplications and Poseidon are exact; Merkle layers hash 255-bit strings that
  represent the nodes modulo p, not necessarily canonically; the swap bit is boolean. A prover chooses
  every other cell freely. A prover that cannot assign a cell (a hash is undefined)
  is `None` in the honest assignment.
* Premises of C61-C63 (`PipelineSpec.v`), stated in the theorems: an honest halo2 proof is made and verifies
  (`prover_succeeds`, `proofs_verify`); there are functions that find satisfying cells for an accepted proof
  (`finds_cells`) and the secret key behind an accepted signature (`finds_keys`). The last two idealise knowledge
  soundness: real extractors are probabilistic and rewind the prover. The theorems use them only to name the
  witnesses, so that every exceptional case is an explicit relation between named values.
* Where a statement is cryptographic ("binds", "conserves value"), it is proved in reduction form: the claim
  or an explicit collision / discrete-log relation computed from the given data. No injectivity
  of a compressing hash is assumed.

Not modelled: constant-time behaviour, memory layout, serde/Debug/Display, `dev-graph`, benches, the
placement of regions in the circuit's table (the gates, their cells and rotations are), halo2 proving and verification (oracle), the
fixed-base window tables' use inside halo2_gadgets' ECC chip (contract).

### Conformance run

The model with Pallas and the real external functions was extracted to OCaml and run on every test
vector stored in /repo: key components, default diversifiers and addresses, internal keys, note
commitments, nullifiers (`keys.rs`), note encryption, decryption, compact decryption and recovery
(`note_encryption.rs`), empty roots (`commitment_tree.rs`), 16 x 16 authentication paths
(`merkle_path.rs`), the anchor of `tree.rs`, and the nine hard-coded generators. Last run: 668
checks, 0 mismatches. It is a test of the model's fidelity, not part of
any proof, and cannot be repeated from this repository alone: OCaml files are not allowed in it, so
the driver is not committed. It found one
error in the model, since corrected: FF1 numerals are taken bit by bit, so each half of a
diversifier index is bit-reversed before it is read as a number (`ff1_split`, `ff1_join`).

## 3. Layout

`theories/<Area>.v` are definitions only (the model), `<Area>Spec.v` small independent
specifications, `<Area>Facts.v` proofs, and `Thm<Area>.v` the property theorems: statement, `exact`,
`Print Assumptions`, and an `Example` meeting the hypotheses.

## 4. Plan per property

| id | modelled | proof |
|----|----------|-------|
| C01-C03 | value.rs arithmetic with explicit i128 checks and panics | linear arithmetic; induction on lists for sums |
| C04 | `ValueCommitment::derive`, sums, `into_bsk/into_bvk` over `Curve` | linearity of scalar multiplication, order q |
| C05 | Flags byte codec | all 256 bytes / bit lemmas |
| C06 | BundleType::num_actions | case analysis + lia |
| C07 | Builder as a state machine `step` over add_spend/add_output | invariant by induction on histories |
| C08, C09, C11, C12, C14, C15 | `bundle()` with RNG-state threading, Fisher-Yates shuffle, padding, ActionInfo::build | permutation reasoning over the pre-actions; invariants of the loops; C04 for the assertion |
| C10 | BundleMetadata updates | NoDup of indices + Permutation |
| C13 | refutation with computed witness; positive theorem C12 | vm_compute |
| C16 | builder + note encryption | composition of C10, C14, C26 |
| C17-C20 | signing state machine; RedDSA concretely | induction on histories; Schnorr equation |
| C21 | map/try_map authorization | list induction |
| C22, C23 | hash preimages as byte strings | fixed-width concatenation is injective; counterexample for auth alone |
| C24 | BatchValidator as list of items; batch verification oracle = conjunction | induction |
| C25 | decrypt/recover loops | list induction against a `filter/first-match` spec |
| C26-C28 | zcash_note_encryption functions + OrchardDomain | xor/tag cancellation, key agreement, plaintext layout |
| C29 | batch_to_affine/batch_kdf | list induction |
| C30-C33 | key derivation, parsing and serialising | codec lemmas; sign normalisation from y <> 0 |
| C34 | 32-byte codecs | LE codec lemmas |
| C35, C36 | FF1 Feistel, diversifier keys | Feistel inversion by induction on rounds |
| C37, C38 | keys over `Curve` | scalar-multiplication algebra, primality of q |
| C39, C40 | zip32.rs with explicit u8 overflow | fold lemmas; computed witness |
| C41, C42 | MerklePath::root against an inductive complete tree | induction on depth |
| C43 | bit conversions | induction |
| C44, C45 | NoteCommitment message, Note constructors | fixed-width concatenation |
| C46-C48 | polynomial gates over F_p with the range-check contract stated on field elements | integer reasoning modulo p, primality of p |
| C49, C50, C57 | synthesize at gadget level | composition of the above |
| C51, C54 | reduction statements | group algebra |
| C52, C53 | to_halo2_instance | coordinates determine points; computed witness |
| C55 | PRF inputs with domain bytes | fixed-width concatenation |
| C56 | Pocklington certificates, Euler criterion | own proof of Fermat and Pocklington; vm_compute |
| C58 | Fisher-Yates | induction |
| C60 | y^2 = x^3 + 5 in affine coordinates, Tonelli-Shanks square root, point codec | generic group law over a field by `field`; [q]G = O by a checked chain of slopes; #E < 2q counts points, so G generates everything |
| C61, C62 | build, create_proof, history, finalize, validate composed | composition of C11, C12, C16, C20, C27, C49-C51; halo2's completeness and the extractors are explicit premises (`PipelineSpec.v`) |
| C63 | a ledger (leaves, nullifiers, pool) with the protocol's acceptance rules, `LedgerSpec.v`; not code of the crate, but the setting its guarantees are for | invariant by induction on histories; membership (C49), C51, C54; a counting lemma for solvency |
| C64 | hash_to_curve (SWU, 3-isogeny, hash_to_field), BLAKE2b, Poseidon, ChaCha20-Poly1305 written out | Euler's criterion for SWU, a field identity for the isogeny; the length and range normalisation of `Oracles.v` is the identity; Poseidon equals its layout in `Vectors.v` for all inputs; the vectors of `Vectors.v` are recomputed (a test, kept to pin the constants) |
| C65 | the hard-coded points of constants/ and their personalizations | certificates for the square roots and quotients of each hash, checked by a sound checker in the kernel |
| C66 | C11, C61 and C63 at Pallas with the real functions | instantiation; the premises of the general theorems (laws, non-zero bases) are discharged; extractors exist since every point has a logarithm |
| C67 | `builder::bundle` called directly with lists of items (`DirectSpec.v`) | case analysis; equals `build` of the builder holding the items, so C08-C16 apply |
| C68 | the inputs of the group hash behind each generator, listed in `GenSpec.v` | injectivity of the (domain, message) pairs; Q, S and bases are `hash_to_curve` of them |
| C69 | a wallet on the chain of C63: trial decryption (`receives`), path in the current tree (`WalletSpec.v`) | soundness of decryption (C35), position of the commitment in the tree, C19 |
| C70 | as C69 | rho of a received note is the nullifier of its action, fresh in the chain; equal nullifiers give a relation between K, R, Q and S |
| C71 | as C69, with the extractors of C62 | nullifier and commitment of the extracted witness against those of the note; unforgeability through the signature extractor |
| C72 | the successive draws from the RNG (`RngSpec.v`), and which secret is which draw (`RandomSpec.v`) | the draws are tracked through padding, shuffling, pairing and action building; permutation argument |
| C73 | as C72 for prepare, sign, apply_signatures; `reddsa` written out from the protocol specification | induction over the actions and over the signing keys; an action is signed at most once |
| C74 | the verification equation of C37 | linear algebra over the prime-order group |
| C75 | derived and hand-written Ord/Eq (`Order.v`), laws in `OrderSpec.v` | lexicographic orders; the byte order of representations is the integer order |
| C76 | `Value.v`, `Note.v`, `RedPallas.v` at `RealOracles.v`; uniqueness in `HidingSpec.v` | Pallas is cyclic of prime order and the real generators are not the identity, so discrete logs exist and are unique; counting of 64-byte strings per residue |
| C77 | `NoteEnc.v` (encryptor, recovery), key inputs written out in `EncKeySpec.v` | fixed-width injectivity of the hashed strings; unique discrete logs for a fixed base |
| C78 | all function-level definitions; the protocol functions written again in `ProtocolSpec.v` from the specification | bit and byte strings are the same lists; padding does not change pieces; folds over pieces, siblings and Feistel rounds agree by induction |
| C79 | the shuffles of `pre_actions` and the recorded positions; fairness in `ShuffleSpec.v` | Fisher-Yates as a function of its indices is a bijection onto orderings, by induction on the last position |
| C80 | `made` (builder to finalized bundle) on the chain of C63, in `LifeSpec.v` | composition of C61, C63 and C69; the nullifiers of requests are those of their notes, so a repeat is padding, a spent note or a relation |
| C81 | `holding`s on the chain of C63, in `BackedSpec.v` | the commitment of a found note opens to the note the action created, so its value was counted; a consumed one reveals the nullifier of its owner; positions of consumed and held notes are disjoint, so both sums fit in what was created |
| C82 | the fuelled loops of `Keys.v`, `Note.v`, `Builder.v`; rejected draws in `FuelSpec.v` | monotonicity in the fuel through every bind; the draws of a loop that ran out are all rejected |
| C83 | `reads`, `reads_note`, `ambiguous` in `ReadersSpec.v` over `NoteEnc.v` | both readers' notes open the action's commitment, so binding (C44) equates their contents; the same note has the same ephemeral secret, key and plaintext, hence memo |
| C84 | `challenge_collision` in `ReadersSpec.v` over `RedPallas.v`, `Bundle.v` | the two verification equations subtract to [c]vk = [c']vk; with C22 equal messages mean equal effects |
| C85 | `BatchDec.v` (the loop of zcash_note_encryption's `batch` module over orchard's `BatchDomain`), `entry_for`, `batch_finds` in `BatchDecSpec.v` | the flat list of shared secrets is cut back into one chunk per action; inside a chunk the first success is the first key that decrypts (batch_kdf is pointwise, C29) |
| C86 | `flags_respected` in `FlagsSpec.v` over the extracted witnesses of C62 | the Action statement's enable clauses and the balance of C62 |
| C87 | `derives` (KeysSpec), `ivk_relation` (WalletSpec) | a common pk_d on a common non-identity g_d means one ivk; two openings of CommitIvk agree or give a relation; even y fixes the sign of ak |
| C88 | `runs` in `MapSpec.v` (a callback run over a list in order, sharing a context), `effects` (BundleSpec) | induction over the actions; the first failing call is unique |
| C89 | `opens`, `worth`, `balance`, `receipts`, `payments`, `account` in `BalanceSpec.v` | the plan of the builder (C11, C14) gives each new action's contribution; a double sum over old notes and new nullifiers is exchanged; uniqueness of nullifiers; induction over the chain |
| C90 | `secret`, `blinding`, `publish`, `view`, `shifts`, `shown` in `ViewSpec.v` | with V = [l]R the trapdoor moves by (v − v')·l and the randomizer by ask − ask', so commitments, randomized keys and each signing scalar stay; equal totals keep the binding key; the draws of C72 and C73 give the view of a built transaction |
| C91 | `sealed`, `compact_sealed`, `sealed_for_sender` in `SealedSpec.v` | opening inverts sealing on both sides (a ciphertext that opens is the encryption of what it opens to), a plaintext that parses is the plaintext of what it parses to, and the agreed key is the note's own by C38; with the soundness of C27 |
| C92 | `run_steps`, `independent` in `ScheduleSpec.v` over `bundle_sign`, `append_signature`, `create_proof`, `prepare` | two passes over the actions that touch different actions commute; independence is kept by a step and by permuting, so induction on the permutation; `create_proof` reads only what the steps keep |
| C93 | `opens_compact`, `light_balance`, `tag_replaced` in `LightSpec.v`, with `opens`, `balance`, `account` of C89 | a note read in compact form has the commitment of the note sent, so the same base and key or two openings; then the key owns the sent note's address and C26 gives both readings; sums over the chain agree term by term |
| C94 | `coins`, `value_of`, `spend_of`, `purse_built` in `PurseSpec.v`, with `balance` of C89, `reached` of C63 and `auth_path` of C41 | the coins are the terms of the balance; `add_spend` accepts each because its path gives the root of the ledger (C69) and its note is well formed; distinct positions give different notes (C70); then C61 completes the pipeline, C80 gives acceptance and C89 the new balance |
| C95 | `applied`, `tx_nfs`, `tx_size`, `disjoint` in `MempoolSpec.v`, with `accepts`, `reached` of C63 and `balance` of C89 | an earlier root stays a known root as the tree only grows; acceptance in a later state is then freshness and room, by induction over the list; both are invariant under permutation, as is the balance, which depends on the nullifiers only as a set |
| C96 | `differ`, `all_differ`, `shared`, `all_balances` in `TotalSpec.v`, with `coins` of C94, `balance` of C89, `other_opening` of C81 and `break` of C63 | the coins of a wallet are holdings of C81; two wallets at one position read one note (C83), whose address then has two owners (C87); otherwise the positions are distinct and C81 bounds the sum |
| C97 | `sent`, `requested`, `misread` in `SentSpec.v`, with the draws of C72 | action by action along the plan of C72: the encryptor's output is recovered with its own key (C26), and any other recovery needs the tag of a second key; the plan's outputs are the requested ones and dummies, which carry no key |
| C98 | `coins`, `purse_built` of C94, `applied` and `disjoint` of C95 | the tree only grows, so the earlier root is still known; coins of the later chain have no nullifier in its ledger; then as C94. For branches, freshness is split into what came before the branches part, which the first acceptance gives, and what came after |
| C99 | `taken`, `arrived`, `reveals`, `by_owner`, `by_relation` in `SafeSpec.v`, with `coins` of C94 and `applied` of C95 | the list of coins splits at the length of the earlier chain, and a coin stays exactly when the new nullifiers miss it; a coin that goes is a wallet note whose nullifier is on the chain, so C71 applies, and the transaction is one of the new ones because the nullifier was fresh before |
| C100 | `wallet`, `scan`, `found_too_late` in `ScanSpec.v`, with `coins` of C94 and `balance` of C89 | induction from the end of the chain: one more action removes the coins whose nullifier it reveals and adds its own (the split of C99); a note of value found too late is excluded by C89 on accepted chains |
| C101 | `light_coin`, `light_coins`, `light_scan`, `light_too_late` in `LightPurseSpec.v`, with `compact_chain` of C93 and `purse_built` of C94 | soundness of compact decryption (C28) gives commitment, rho and owner of each found note; then as C94 with these facts in place of full decryption |
| C102 | `one_owner`, `inside`, `economy` in `EconomySpec.v`, with `all_balances` of C96 | the account book of C89 for each wallet; the double sum over wallets and requests is exchanged, and each request of value counts once because its address has one owner; the value balance of each transaction is exact by C12; induction over the chain |
| C103 | `received`, `owed`, `two_readings` in `ReceivedSpec.v`, with the payments of C97 | action by action along the plan of C11: an output to an address of the key is read back (C26); reading any other output opens its commitment, and if the opening is the maker's the address belongs to the key; induction over the chain |
| C59 | Sinsemilla on words | the hash as an explicit linear combination; weights of different messages differ |

## 5. Findings

Each is a theorem about the faithful model; the witnesses are concrete.

* **A. `SpendingKey::from_bytes` panics instead of returning `None` when the derived `ask` is zero**
  (C31; `C31_from_bytes_no_panic_refuted`, exact condition `C31_from_bytes_panics_iff_ask_zero`).
  `from_bytes` takes care to call `derive_inner` for its own check ("`from` would panic on ask = 0"),
  but the next line, `let fvk = (&sk).into()`, goes through `SpendAuthorizingKey::from`, which panics
  before the `CtOption` is built. Consequences: `SpendingKey::random`, and so the builder's dummy
  spends, and ZIP 32 derivation inherit the panic (the exception `rng_hits_zero_key` of C08, and
  `C40_only_zero_ask_panics`). Negligible probability, but the documented behaviour is `None`.
* **B. Whether `build` reports `OverflowError` depends on the order of the actions** (C13). The value
  fold range-checks every prefix, so a bundle with an in-range total can be rejected under one shuffle
  and accepted under another. Witness: spends {M, M, 0, 0}, outputs {M, 0, M, 0} with M = 2^64-1.
* **C. The authorizing commitment alone does not determine the authorizing data** (C23): the proof
  bytes are hashed without a length, so proof bytes and signatures can trade places between bundles with a different
  number of actions. Together with the effects commitment it does (C23_both_commitments_bind).
* **D. `Bundle::verify_proof` panics on an action whose `rk` is the identity** (C53): such a key parses
  from 32 zero bytes, and `to_halo2_instance` unwraps its coordinates.
* **E. ZIP 32 derivation panics on a path of 256 steps (u8 depth overflow) and on a seed shorter than
  32 or longer than 252 bytes** (C40), although the API returns `Result`.
* **F. `Note::esk` can panic** for a note assembled from a `RandomSeed` that was validated against a
  different `rho` (C45); for the same `rho` it never does.

## Assumptions of each theorem

`Print Assumptions` answers "Closed under the global context" for each of these 282 theorems: no axiom, not even one of the
standard library.

| File | Theorems |
|---|---|
| `ThmBacked.v` | `C81_consumed_notes_are_seen`, `C81_unspent_notes_are_backed`, `C81_unspent_notes_are_backed_on_pallas` |
| `ThmBalance.v` | `C89_account_book`, `C89_balance_follows_payments`, `C89_no_note_is_born_spent` |
| `ThmBatchDec.v` | `C85_batch_compact_decryption`, `C85_batch_decryption` |
| `ThmBuilder.v` | `C07_calls_follow_the_rules`, `C07_histories_accept_only_legal_items`, `C07_histories_never_panic`, `C08_build_fails_only_on_overflow`, `C09_shape_of_the_built_bundle`, `C10_metadata_points_at_the_right_actions`, `C11_items_appear_once_and_padding_has_no_value`, `C12_value_balance_is_exact`, `C12_value_balance_succeeds_exactly`, `C13_overflow_depends_on_order_refuted`, `C14_each_action_binds_its_own_notes`, `C15_binding_key_matches`, `C16_recipients_can_read` |
| `ThmBundle.v` | `C22_commitment_binds_effects`, `C22_commitment_depends_only_on_effects`, `C23_authorizing_commitment_alone_does_not`, `C23_both_commitments_bind`, `C24_accepted_batch_valid`, `C24_adding_does_not_panic`, `C24_at_most_one_bad_coefficient`, `C24_empty_batch_accepted`, `C24_error_point`, `C24_one_bad_signature_rejected`, `C24_valid_batch_accepted`, `C25_decrypt_outputs_with_keys`, `C25_recover_outputs_with_ovks`, `C52_bundle_instances_injective`, `C52_instance_injective`, `C53_only_identity_rk_panics`, `C53_verify_proof_no_panic_refuted` |
| `ThmCircuit.v` | `C46_action_gate`, `C47_commit_ivk_assignable`, `C47_commit_ivk_message`, `C47_commit_ivk_sound`, `C48_note_commit_assignable`, `C48_note_commit_message`, `C48_note_commit_sound`, `C49_circuit_proves_the_statement`, `C49_spent_notes_are_in_the_tree`, `C49_statement_is_provable`, `C50_built_bundles_satisfy_the_circuit`, `C51_disabled_side_is_empty`, `C51_value_is_conserved`, `C54_new_notes_are_distinct`, `C54_one_nullifier_per_note`, `C57_derive_nullifier_gadget`, `C57_value_commit_gadget` |
| `ThmCodec.v` | `C05_flags_byte`, `C05_named_flags`, `C06_named_types`, `C06_num_actions`, `C29_batch_kdf_aligned`, `C34_codecs`, `C34_noncanonical_rejected`, `C43_bits`, `C43_bits_k`, `C58_shuffle_permutes` |
| `ThmDirect.v` | `C67_direct_calls_follow_the_builder`, `C67_dummy_outputs_are_items`, `C67_outcomes_of_direct_calls` |
| `ThmEconomy.v` | `C102_a_payment_only_moves_value`, `C102_balances_add_up_on_pallas`, `C102_balances_add_up_to_the_pool`, `C102_light_balances_add_up_to_the_pool` |
| `ThmEncKey.v` | `C77_ciphertexts_use_these_keys`, `C77_note_keys_are_not_reused`, `C77_outgoing_keys_are_bound_to_the_action` |
| `ThmFields.v` | `C56_constants`, `C56_generators_on_curve`, `C56_mod_r_p`, `C56_no_zero_coordinate`, `C56_primes` |
| `ThmFlags.v` | `C86_flags_restrict_bundles` |
| `ThmFuel.v` | `C82_build_ends`, `C82_direct_calls_end`, `C82_the_bound_on_retries_does_not_matter` |
| `ThmGen.v` | `C68_generators_coincide_only_on_a_hash_collision` |
| `ThmHiding.v` | `C76_incoming_viewing_keys_hide`, `C76_note_commitments_hide`, `C76_randomized_keys_hide`, `C76_value_commitments_hide`, `C76_wide_reduction_is_almost_uniform` |
| `ThmKeys.v` | `C30_spending_key_usable`, `C30_spending_keys_accepted_exactly`, `C31_from_bytes_no_panic_refuted`, `C31_from_bytes_panics_iff_ask_zero`, `C32_fvk_codec`, `C32_sk_gives_valid_fvk`, `C32_valid_fvk_never_panics`, `C33_address_codec`, `C33_derived_addresses_valid`, `C33_ivk_codec`, `C35_distinct_indices_distinct_addresses`, `C35_diversifier_index`, `C35_every_diversifier_has_an_index`, `C35_numbered_indices`, `C36_scope_for_address`, `C37_ask_normalised`, `C37_fvk_has_the_same_ak`, `C37_randomised_signature_verifies`, `C37_verify_is_schnorr`, `C38_key_agreement` |
| `ThmLater.v` | `C98_payment_from_an_older_root`, `C98_survives_a_fork` |
| `ThmLedger.v` | `C63_ledger_is_sound`, `C63_no_commitment_is_an_empty_leaf` |
| `ThmLife.v` | `C80_own_transactions_are_accepted`, `C80_payments_arrive_and_can_be_spent` |
| `ThmLight.v` | `C93_a_spoiled_tag_is_seen_only_in_full`, `C93_light_account_book`, `C93_light_client_balance`, `C93_light_client_reads_the_same` |
| `ThmLightPurse.v` | `C101_a_light_client_misses_nothing`, `C101_light_coins_are_the_light_balance`, `C101_scanning_finds_the_light_coins`, `C101_the_builder_accepts_any_choice`, `C101_the_choice_is_legal`, `C101_the_download_gives_the_tree`, `C101_the_payment_is_accepted`, `C101_the_same_coins_as_a_full_wallet` |
| `ThmMap.v` | `C88_map_authorization`, `C88_map_authorization_keeps_the_checks`, `C88_same_balance_same_checks`, `C88_try_map_authorization_fails`, `C88_try_map_authorization_panics`, `C88_try_map_authorization_succeeds`, `C88_try_map_value_balance` |
| `ThmMempool.v` | `C95_any_order`, `C95_conflicting_transactions`, `C95_stays_valid_exactly`, `C95_taken_together_exactly` |
| `ThmNote.v` | `C44_equal_notes`, `C44_from_parts`, `C44_message_determines_note`, `C44_new_notes`, `C45_esk_never_panics_refuted`, `C45_esk_same_rho`, `C59_commit_collision`, `C59_hash_collision`, `C59_hash_is_linear`, `C59_hash_undefined`, `C59_merkle_collision` |
| `ThmNoteEnc.v` | `C26_encryption_round_trip`, `C27_compact_decryption_sound`, `C27_full_decryption_sound`, `C27_output_recovery_sound`, `C28_compact_agrees` |
| `ThmOrder.v` | `C75_addresses_and_extended_keys_are_compared_in_full`, `C75_field_elements_are_ordered_as_integers`, `C75_incoming_viewing_keys_are_totally_ordered`, `C75_viewing_keys_are_totally_ordered` |
| `ThmOwner.v` | `C87_external_address_has_one_key`, `C87_one_owner`, `C87_one_spender`, `C87_scopes_do_not_overlap` |
| `ThmPallas.v` | `C60_decoding_is_exact`, `C60_hard_coded_generators`, `C60_pallas_satisfies_the_laws`, `C60_points_are_the_solutions`, `C60_prime_order` |
| `ThmPipeline.v` | `C61_authorized_bundles_are_accepted`, `C61_pipeline_completes`, `C61_recipients_read_the_final_bundle`, `C62_accepted_batch_means`, `C62_valid_bundle_means` |
| `ThmProtocol.v` | `C78_digests`, `C78_diversifiers`, `C78_encodings`, `C78_keys`, `C78_merkle_tree`, `C78_notes`, `C78_signatures`, `C78_sinsemilla`, `C78_value_commitments` |
| `ThmPurse.v` | `C94_coins_are_the_balance`, `C94_the_builder_accepts_any_choice`, `C94_the_builder_delivers`, `C94_the_choice_is_legal`, `C94_the_payment_is_accepted_and_the_rest_remains` |
| `ThmRandom.v` | `C72_every_secret_has_its_own_draw`, `C73_apply_signatures_randomness`, `C73_prepare_randomness`, `C73_sign_randomness`, `C74_nonces_are_not_reused`, `C74_one_signature_for_each_R`, `C74_reusing_a_nonce_reveals_the_key` |
| `ThmReaders.v` | `C83_light_clients_agree`, `C83_one_recipient`, `C83_readers_agree`, `C84_binding_signature_stays`, `C84_signature_has_one_message`, `C84_signatures_fix_effects` |
| `ThmReal.v` | `C64_hash_to_curve_is_on_the_curve`, `C64_outputs_are_not_cut`, `C64_poseidon_follows_the_round_schedule`, `C64_published_vectors`, `C65_bases_are_not_the_identity`, `C65_circuit_and_wallet_use_the_same_generators`, `C66_build_on_pallas`, `C66_ledger_on_pallas`, `C66_pipeline_on_pallas` |
| `ThmRealLife.v` | `C66_key_extractors_exist`, `C80_own_transactions_are_accepted_on_pallas`, `C80_payments_arrive_and_can_be_spent_on_pallas` |
| `ThmRealPurse.v` | `C101_the_payment_is_accepted_on_pallas`, `C94_the_payment_is_accepted_on_pallas` |
| `ThmRealWallet.v` | `C100_scanned_notes_are_the_balance_on_pallas`, `C89_account_book_on_pallas`, `C91_light_client_reads_exactly_on_pallas`, `C91_recipient_reads_exactly_on_pallas`, `C97_recovered_payments_reach_the_recipient_on_pallas`, `C98_payment_from_an_older_root_on_pallas` |
| `ThmReceived.v` | `C103_light_client_reads_its_whole_history`, `C103_recipient_reads_its_whole_history`, `C103_recipient_reads_its_whole_history_on_pallas`, `C103_recipient_sees_exactly_what_was_sent` |
| `ThmSafe.v` | `C99_each_note_is_taken_by_its_owner`, `C99_no_loss_on_pallas`, `C99_no_loss_without_the_owner`, `C99_the_balance_changes_by_what_is_taken_and_what_arrives` |
| `ThmScan.v` | `C100_scanned_notes_are_the_balance`, `C100_scanning_finds_the_coins` |
| `ThmSchedule.v` | `C92_proving_at_any_moment`, `C92_proving_before_or_after_preparing`, `C92_second_signature_is_refused`, `C92_signing_again_changes_nothing`, `C92_steps_in_any_order`, `C92_what_the_prover_is_given` |
| `ThmSealed.v` | `C91_light_client_reads_exactly`, `C91_one_ciphertext_per_note_and_memo`, `C91_recipient_reads_exactly`, `C91_recovery_inverts_encryption`, `C91_sender_recovers_exactly` |
| `ThmSent.v` | `C97_recovered_payments_reach_the_recipient`, `C97_sender_sees_exactly_what_was_sent` |
| `ThmShuffle.v` | `C79_places_are_fair`, `C79_shuffle_is_fair` |
| `ThmSigning.v` | `C17_finalize_exactly_when_all_signed`, `C18_sign_touches_its_own_actions`, `C19_external_signatures`, `C20_apply_signatures_exactly_when_covered`, `C20_authorized_bundles_carry_valid_signatures`, `C21_authorizing_keeps_the_effects`, `C21_the_commitment_is_the_same_at_every_stage` |
| `ThmTotal.v` | `C96_balances_are_backed`, `C96_balances_are_backed_on_pallas` |
| `ThmTree.v` | `C41_empty_roots`, `C41_path_gives_root`, `C42_root_binds_leaf` |
| `ThmValue.v` | `C01_sub_exact`, `C02_add_exact`, `C02_sum_exact`, `C03_i64_exact`, `C03_magnitude_sign`, `C03_note_value_bytes`, `C04_commitments_add_up`, `C04_derive_total` |
| `ThmView.v` | `C90_pallas_bases`, `C90_transactions_hide`, `C90_transactions_show_a_view`, `C90_views_hide` |
| `ThmWallet.v` | `C69_received_notes_can_be_spent`, `C70_received_notes_have_distinct_nullifiers`, `C71_only_the_owner_nullifies` |
| `ThmZip32.v` | `C39_child_derivation`, `C39_from_zip32_seed`, `C39_key_indices`, `C39_path_in_two_parts`, `C39_path_key`, `C40_no_panic_bad_seed_refuted`, `C40_no_panic_long_path_refuted`, `C40_only_zero_ask_panics`, `C55_inputs_are_these`, `C55_inputs_distinct` |
