{"id": "C01", "title": "Subtracting note values is exact and never panics", "statement": "For any two note values a and b, `a - b` returns a ValueSum equal to the integer a - b; the internal `expect` can never fire, and the result lies in [-(2^64-1), 2^64-1].", "quantifier": "all pairs of u64 note values", "why_tests_cant": "2^128 input pairs; the claim is the absence of a panic for every one of them", "anchors": ["src/value.rs: impl Sub for NoteValue", "src/value.rs: VALUE_SUM_RANGE"]}
{"id": "C02", "title": "Summing values is exact or reports overflow", "statement": "Adding two value sums returns the exact integer sum when it lies in the permitted range and None otherwise, and summing a list returns Ok(s) exactly when every running total stays in range, with s the exact integer sum; no result ever wraps.", "quantifier": "all value sums and all lists of value sums, of any length", "why_tests_cant": "unbounded lists and 128-bit operands", "anchors": ["src/value.rs: impl Add for ValueSum", "src/value.rs: impl Sum for Result<ValueSum, OverflowError>"]}
{"id": "C03", "title": "Conversions out of a value sum are exact", "statement": "Converting a ValueSum to i64 succeeds exactly when the value fits and then preserves it; magnitude_sign never panics on an in-range sum and magnitude*sign gives back the sum.", "quantifier": "all value sums", "why_tests_cant": "boundary behaviour over a 65-bit domain", "anchors": ["src/value.rs: TryFrom<ValueSum> for i64", "src/value.rs: ValueSum::magnitude_sign", "src/value.rs: ValueSum::from_raw"]}
{"id": "C04", "title": "Value commitments add up", "statement": "Deriving a value commitment never panics for an in-range sum, and for any list of (value, trapdoor) pairs the sum of the commitments minus the zero-trapdoor commitment to the total value is exactly [sum of trapdoors]R; so the bundle's binding verification key is the verification key of the summed trapdoor.", "quantifier": "all lists of in-range values and trapdoors, any prime-order group and any base points", "why_tests_cant": "holds for all lists and scalars; a test fixes a handful", "anchors": ["src/value.rs: ValueCommitment::derive", "src/value.rs: ValueCommitTrapdoor::into_bsk", "src/value.rs: ValueCommitment::into_bvk"]}
{"id": "C05", "title": "Bundle flags encode to one byte and back", "statement": "Flags::from_byte(flags.to_byte()) is that flags value; from_byte(b) succeeds exactly when all bits other than the two defined ones are zero, and then to_byte gives b back.", "quantifier": "all flags values and all byte values", "why_tests_cant": "stated for the whole domain, both directions, including every rejected byte", "anchors": ["src/bundle.rs: Flags::to_byte", "src/bundle.rs: Flags::from_byte"]}
{"id": "C06", "title": "The number of actions follows the bundle type", "statement": "num_actions returns an error exactly when the bundle type forbids the requested spends or outputs; otherwise a transactional bundle has max(spends, outputs) actions raised to at least two (or zero when nothing is requested and no bundle is required), and a coinbase bundle has exactly one action per output.", "quantifier": "all bundle types and all numbers of spends and outputs", "why_tests_cant": "unbounded counts and all flag combinations", "anchors": ["src/builder.rs: BundleType::num_actions", "src/builder.rs: BundleType::flags"]}
{"id": "C07", "title": "A builder only ever accepts legal spends and outputs", "statement": "After any sequence of add_spend and add_output calls, every held spend is enabled by the bundle type, is owned by the full viewing key it was added with in its recorded scope, and (unless its value is zero) has a Merkle path to the builder's anchor; every held output is enabled. A rejected call returns the documented error and leaves the builder unchanged, and an accepted call appends exactly the given item.", "quantifier": "all builders and all histories of calls with all arguments", "why_tests_cant": "quantifies over unbounded call histories", "anchors": ["src/builder.rs: Builder::add_spend", "src/builder.rs: Builder::add_output", "src/builder.rs: SpendInfo::new", "src/builder.rs: SpendInfo::has_matching_anchor"]}
{"id": "C08", "title": "Building from an accepted history fails only on value overflow", "statement": "If a builder was filled through add_spend/add_output, build never returns SpendsDisabled, OutputsDisabled, AnchorMismatch or BundleTypeNotSatisfiable: it either succeeds or reports that the value balance overflows, and it never panics, except when the RNG hands a dummy a 32-byte spending key whose spend authorizing key is zero (the panic of C31).", "quantifier": "all builders reachable through the API, all RNG behaviours", "why_tests_cant": "depends on histories and on randomness", "anchors": ["src/builder.rs: bundle", "src/builder.rs: Builder::build"]}
{"id": "C09", "title": "Shape of the built bundle", "statement": "build returns no bundle exactly when num_actions is zero; otherwise the bundle has exactly num_actions actions, the bundle type's flags and the builder's anchor.", "quantifier": "all builders and all RNG behaviours", "why_tests_cant": "over all randomness and sizes", "anchors": ["src/builder.rs: bundle"]}
{"id": "C10", "title": "Bundle metadata points at the right actions", "statement": "For each requested spend n, spend_action_index(n) is the index of an action whose nullifier is that spend's nullifier; for each requested output n, output_action_index(n) is the index of the action carrying that output's recipient, value and memo; different requests map to different actions; indices past the requests give None.", "quantifier": "all builders, all shuffles and all RNG behaviours", "why_tests_cant": "the mapping must hold for every permutation the shuffle can produce", "anchors": ["src/builder.rs: BundleMetadata", "src/builder.rs: bundle"]}
{"id": "C11", "title": "Requested items appear once and padding has no value", "statement": "Every requested spend and output is used in exactly one action of the built bundle, and every other spend or output in it is a freshly generated dummy of value zero.", "quantifier": "all builders, all shuffles and all RNG behaviours", "why_tests_cant": "a multiset statement over every permutation", "anchors": ["src/builder.rs: bundle", "src/builder.rs: SpendInfo::dummy", "src/builder.rs: OutputInfo::dummy"]}
{"id": "C12", "title": "The built value balance is the exact net value", "statement": "When build succeeds, the bundle's value balance equals (sum of requested spend values) - (sum of requested output values) as an integer, whatever the shuffle; Builder::value_balance succeeds exactly when the spend total fits in u64, the net fits i64 and the target type accepts it, and then returns the same number; build never succeeds on a net that does not fit; when the spend total and the output total each fit in u64 and the net fits i64 both always succeed.", "quantifier": "all builders, all shuffles and all RNG behaviours", "why_tests_cant": "integer exactness with no wrap for all values and all orders", "anchors": ["src/builder.rs: bundle", "src/builder.rs: Builder::value_balance"]}
{"id": "C13", "title": "build and value_balance agree on overflow (refuted)", "statement": "Whether the value balance overflows does not depend on the order in which values are added: value_balance and build succeed on the same builders, and build's success does not depend on the shuffle. (Expected false of the code: the running total is range-checked, so order matters.)", "quantifier": "all builders and all shuffles", "why_tests_cant": "a counterexample needs extreme values and a particular shuffle", "anchors": ["src/builder.rs: Builder::value_balance", "src/builder.rs: bundle", "src/value.rs: impl Add for ValueSum"]}
{"id": "C14", "title": "Each output note is bound to the spend of its own action", "statement": "In a built bundle each action's new note has rho equal to that action's nullifier, the published cmx is that note's extracted commitment, and each proof witness is the one of its own action, in order.", "quantifier": "all built bundles", "why_tests_cant": "over all builders and randomness", "anchors": ["src/builder.rs: ActionInfo::build", "src/note.rs: Rho::from_nf_old", "src/circuit.rs: Circuit::from_action_context_unchecked"]}
{"id": "C15", "title": "The binding key check in build cannot fire", "statement": "The assertion in build that the signing key's verification key equals the computed bvk never fails, and the same key is what Bundle::binding_validating_key returns for the built bundle.", "quantifier": "all builders and all RNG behaviours", "why_tests_cant": "absence of a panic for all values and trapdoors", "anchors": ["src/builder.rs: bundle", "src/bundle.rs: Bundle::binding_validating_key"]}
{"id": "C16", "title": "Recipients can read what the builder sent", "statement": "For each requested output whose recipient address belongs to an incoming viewing key, decrypting the action at output_action_index with that key returns exactly the note value, the recipient and the memo that were requested; with an ovk supplied, recovery with that ovk does too; the compact form returns the same note.", "quantifier": "all builders, outputs, keys, shuffles and RNG behaviours", "why_tests_cant": "end-to-end over all keys and randomness", "anchors": ["src/builder.rs: ActionInfo::build", "src/bundle.rs: decrypt_output_with_key", "src/bundle.rs: recover_output_with_ovk", "src/note_encryption.rs"]}
{"id": "C17", "title": "Signing completes exactly when every action is signed", "statement": "finalize succeeds exactly when no action is missing its signature and otherwise reports MissingSignatures; the finalized signatures are the ones collected, in action order, with the proof and binding signature unchanged.", "quantifier": "all partially signed bundles, all signing histories", "why_tests_cant": "quantifies over histories of sign/append calls", "anchors": ["src/builder.rs: Bundle::finalize", "src/builder.rs: MaybeSigned::finalize"]}
{"id": "C18", "title": "sign touches exactly the actions of that key", "statement": "sign(ask) adds a signature to exactly those unsigned actions whose recorded validating key is that of ask, leaves every other action and everything else in the bundle unchanged, and every signature it adds verifies under that action's rk for the sighash given to prepare.", "quantifier": "all partially signed bundles and all signing keys", "why_tests_cant": "over all histories and keys", "anchors": ["src/builder.rs: Bundle::sign", "src/primitives/redpallas.rs: SigningKey::sign"]}
{"id": "C19", "title": "External signatures are accepted for exactly one action", "statement": "append_signature returns InvalidExternalSignature when the signature verifies for no unsigned action, DuplicateSignature when it verifies for more than one, and otherwise sets exactly the one matching action's signature; an action that already has a signature is never overwritten.", "quantifier": "all partially signed bundles and all signatures", "why_tests_cant": "a counting argument over unbounded bundles", "anchors": ["src/builder.rs: Bundle::append_signature", "src/builder.rs: append_signatures"]}
{"id": "C20", "title": "A fully authorized bundle carries only valid signatures", "statement": "If a bundle produced by build is prepared, signed through any sequence of sign and append_signature calls and finalized, then every spend authorization signature verifies under its action's rk and the binding signature verifies under binding_validating_key, all for the sighash given to prepare. apply_signatures succeeds exactly when the supplied keys cover every non-dummy spend.", "quantifier": "all built bundles, all signing histories and all RNG behaviours", "why_tests_cant": "end-to-end over histories", "anchors": ["src/builder.rs: Bundle::prepare", "src/builder.rs: apply_signatures", "src/builder.rs: sign", "src/bundle.rs: binding_validating_key"]}
{"id": "C21", "title": "Authorizing never changes the transaction effects", "statement": "create_proof, prepare, sign, append_signature and finalize leave actions' nullifier, rk, cmx, ciphertexts and cv_net, the flags, value balance and anchor unchanged, so the bundle commitment is the same at every stage.", "quantifier": "all bundles and all authorization histories", "why_tests_cant": "over all histories and generic authorization mappings", "anchors": ["src/bundle.rs: map_authorization", "src/bundle.rs: try_map_authorization", "src/bundle.rs: commitment"]}
{"id": "C22", "title": "The bundle commitment binds every effect", "statement": "Two bundles with equal commitments have equal flags, value balance, anchor and equal actions (everything but authorization), unless two distinct strings among those hashed for the two bundles collide under the personalised hash.", "quantifier": "all pairs of bundles with any number of actions", "why_tests_cant": "injectivity of a serialisation over unbounded inputs", "anchors": ["src/bundle/commitments.rs: hash_bundle_txid_data", "src/bundle.rs: commitment"]}
{"id": "C23", "title": "commitment and authorizing_commitment together bind the whole bundle", "statement": "Two authorized bundles with equal commitment and equal authorizing commitment are equal in every field including proof and signatures, unless two of the hashed strings collide. The authorizing commitment alone does not: two bundles with different action counts can share it.", "quantifier": "all pairs of authorized bundles", "why_tests_cant": "injectivity over unbounded inputs plus a negative result", "anchors": ["src/bundle/commitments.rs: hash_bundle_auth_data", "src/bundle.rs: authorizing_commitment"]}
{"id": "C24", "title": "Batch validation accepts exactly when every bundle is valid", "statement": "After any sequence of add_bundle calls, validate returns true exactly when every spend authorization signature, every binding signature and every proof of every added bundle verifies against its own bundle's data and sighash (with batch verification of signatures and proofs meaning the conjunction); an empty batch is accepted.", "quantifier": "all sequences of bundles and sighashes", "why_tests_cant": "unbounded batches", "anchors": ["src/bundle/batch.rs: BatchValidator"]}
{"id": "C25", "title": "Scanning a bundle with many keys", "statement": "decrypt_outputs_with_keys returns, in increasing action order, one entry for each action that some key decrypts, with the first such key, and each entry agrees with decrypt_output_with_key at that index; out-of-range indices give None; the ovk variant behaves the same way.", "quantifier": "all bundles and key lists", "why_tests_cant": "unbounded lists and first-match semantics", "anchors": ["src/bundle.rs: decrypt_outputs_with_keys", "src/bundle.rs: decrypt_output_with_key", "src/bundle.rs: recover_outputs_with_ovks", "src/bundle.rs: recover_output_with_ovk"]}
{"id": "C26", "title": "Note encryption round-trips", "statement": "A note encrypted to its recipient decrypts with the matching incoming viewing key to exactly the same note, address and memo; compact decryption of the first 52 ciphertext bytes returns the same note and address; recovery with the outgoing viewing key returns the same note, address and memo.", "quantifier": "all notes, memos, keys, value commitments and RNG behaviours", "why_tests_cant": "for all keys and notes, through two layers of encryption", "anchors": ["src/note_encryption.rs: OrchardDomain", "src/note_encryption.rs: orchard_parse_note_plaintext_without_memo"]}
{"id": "C27", "title": "Decryption never returns a note that does not match the action", "statement": "Whenever full, compact or outgoing decryption returns a note for any (possibly adversarial) action, that note's extracted commitment is the action's cmx, its rho is the action's nullifier, its ephemeral key is the action's, and with an incoming viewing key its recipient address belongs to that key.", "quantifier": "all actions including malformed ones, all keys", "why_tests_cant": "adversarial inputs of any content", "anchors": ["src/note_encryption.rs: impl Domain for OrchardDomain"]}
{"id": "C28", "title": "Compact and full decryption agree", "statement": "If full decryption of an action succeeds then compact decryption of the corresponding compact action returns the same note and address.", "quantifier": "all actions and incoming viewing keys", "why_tests_cant": "all ciphertexts", "anchors": ["src/note_encryption.rs: CompactAction"]}
{"id": "C29", "title": "Batched key derivation is aligned with its inputs", "statement": "batch_kdf gives, for each (shared secret, ephemeral key) pair, exactly what kdf gives for that pair alone, with None exactly where the secret is missing, for any pattern of missing entries.", "quantifier": "all lists of optional secrets", "why_tests_cant": "an alignment property over all patterns and lengths", "anchors": ["src/note_encryption.rs: batch_kdf", "src/keys.rs: SharedSecret::batch_to_affine"]}
{"id": "C30", "title": "A spending key that parses is usable", "statement": "If SpendingKey::from_bytes returns a key then deriving its full viewing key, both incoming viewing keys and any address never panics, and the derived ak has sign bit zero so that it can be serialised. Exactly the keys whose full viewing key is valid in both scopes are accepted.", "quantifier": "all 32-byte strings and all hash behaviours", "why_tests_cant": "panic freedom over all keys and negligible-probability branches", "anchors": ["src/keys.rs: SpendingKey::from_bytes", "src/keys.rs: SpendAuthorizingKey", "src/keys.rs: KeyAgreementPrivateKey"]}
{"id": "C31", "title": "SpendingKey::from_bytes reports invalid bytes without panicking (refuted)", "statement": "from_bytes returns None, rather than panicking, for bytes that do not give a valid key. (Expected false of the code: for ask = 0 it derives the full viewing key first, which asserts ask != 0.)", "quantifier": "all 32-byte strings and all hash behaviours", "why_tests_cant": "the branch has negligible probability so no test reaches it", "anchors": ["src/keys.rs: SpendingKey::from_bytes", "src/keys.rs: impl From<&SpendingKey> for SpendAuthorizingKey"]}
{"id": "C32", "title": "Full viewing keys round-trip and parse canonically", "statement": "Every valid full viewing key serialises to 96 bytes that parse back to it; any 96 bytes that parse are exactly the serialisation of the resulting key, so no two encodings denote one key; a parsed key never panics when deriving viewing keys in either scope.", "quantifier": "all keys and all 96-byte strings", "why_tests_cant": "both directions over the full domain", "anchors": ["src/keys.rs: FullViewingKey::to_bytes", "src/keys.rs: FullViewingKey::from_bytes", "src/keys.rs: FullViewingKey::read/write"]}
{"id": "C33", "title": "Incoming viewing keys and addresses round-trip", "statement": "Incoming viewing keys (64 bytes) and raw addresses (43 bytes) parse back to the value they were serialised from, and any accepted string is the serialisation of the result.", "quantifier": "all keys, addresses and byte strings", "why_tests_cant": "full domain, including rejection of non-canonical encodings", "anchors": ["src/keys.rs: IncomingViewingKey::to_bytes/from_bytes", "src/address.rs: Address::to_raw_address_bytes/from_raw_address_bytes"]}
{"id": "C34", "title": "Field-sized values round-trip and reject non-canonical bytes", "statement": "Nullifiers, rho, extracted note commitments, anchors, tree hashes and value commitments parse back from their 32-byte encodings, reject every other encoding of the same value, and encode injectively.", "quantifier": "all values and all 32-byte strings", "why_tests_cant": "full 256-bit domain", "anchors": ["src/note/nullifier.rs", "src/note.rs: Rho", "src/note/commitment.rs: ExtractedNoteCommitment", "src/tree.rs: Anchor, MerkleHashOrchard", "src/value.rs: ValueCommitment"]}
{"id": "C35", "title": "Diversifier indices invert", "statement": "For an incoming viewing key and any index j, diversifier_index(address_at(j)) = Some(j); and diversifier_index(addr) = Some(j) exactly when addr is the address at j of that key; so distinct indices give distinct addresses. An index made from a 32-bit number has that little-endian value, so different numbers give different addresses.", "quantifier": "all incoming viewing keys, all 88-bit indices and all addresses", "why_tests_cant": "a 2^88 domain per key", "anchors": ["src/keys.rs: IncomingViewingKey::diversifier_index", "src/keys.rs: DiversifierKey", "src/keys.rs: IncomingViewingKey::address_at"]}
{"id": "C36", "title": "scope_for_address finds the right scope", "statement": "scope_for_address returns a scope exactly when the address was derived from the full viewing key in that scope (External is preferred when both apply) and None exactly when neither scope derives it.", "quantifier": "all full viewing keys and all addresses", "why_tests_cant": "all keys and addresses", "anchors": ["src/keys.rs: FullViewingKey::scope_for_address"]}
{"id": "C37", "title": "Spend authorization keys are sign-normalised and randomise consistently", "statement": "The ask derived from a spending key satisfies [ask]G = ak with the y sign bit of ak zero, and for every randomizer alpha the verification key of ask.randomize(alpha) is ak.randomize(alpha); so signatures made with the randomised key verify under the action's rk.", "quantifier": "all spending keys and randomizers", "why_tests_cant": "all scalars", "anchors": ["src/keys.rs: SpendAuthorizingKey", "src/keys.rs: SpendValidatingKey::randomize", "src/primitives/redpallas.rs"]}
{"id": "C38", "title": "Sender and recipient agree on the shared secret", "statement": "For every incoming viewing key, diversifier and ephemeral secret, [esk]pk_d equals [ivk]epk, and neither is ever the identity.", "quantifier": "all keys, diversifiers and ephemeral secrets", "why_tests_cant": "all scalars", "anchors": ["src/keys.rs: EphemeralSecretKey::agree", "src/keys.rs: PreparedEphemeralPublicKey::agree", "src/spec.rs: ka_orchard"]}
{"id": "C39", "title": "ZIP 32 derivation follows the path", "statement": "from_path is the left-to-right iteration of derive_child from the master key: deriving a path in two parts gives the same key, depth and parent tag; from_zip32_seed uses exactly the path [32', coin_type', account'] and rejects coin types of 2^31 or more; the hashed inputs of distinct (chain code, key, index) triples are distinct.", "quantifier": "all seeds, all paths, all indices", "why_tests_cant": "unbounded paths", "anchors": ["src/zip32.rs: ExtendedSpendingKey::from_path", "src/zip32.rs: derive_child", "src/keys.rs: SpendingKey::from_zip32_seed"]}
{"id": "C40", "title": "ZIP 32 derivation is panic-free on every path (refuted)", "statement": "from_path returns a Result, never panics, for every path and seed. (Expected false: the seed length is asserted and depth is a u8 incremented without check, so a 256-step path overflows.)", "quantifier": "all seeds and paths", "why_tests_cant": "needs a 256-step path", "anchors": ["src/zip32.rs: ExtendedSpendingKey::derive_child", "src/zip32.rs: ExtendedSpendingKey::master"]}
{"id": "C41", "title": "Merkle paths compute the tree root", "statement": "For any 32-level commitment tree, the authentication path of any position together with the leaf at that position gives the tree's root; the empty-root table holds the roots of all-empty trees of every height.", "quantifier": "all trees, all positions, all leaves", "why_tests_cant": "2^32 positions and unbounded leaf contents", "anchors": ["src/tree.rs: MerklePath::root", "src/tree.rs: EMPTY_ROOTS", "src/tree.rs: MerkleHashOrchard::combine"]}
{"id": "C42", "title": "A Merkle root binds the leaf at each position", "statement": "Two (leaf, path) pairs with the same position and the same root have the same leaf, unless the two evaluations contain two different node inputs of the same level that hash alike.", "quantifier": "all positions, leaves and paths", "why_tests_cant": "induction over the levels for all contents", "anchors": ["src/tree.rs: MerklePath::root", "src/tree.rs: MerkleHashOrchard::combine"]}
{"id": "C43", "title": "Bit-string conversions are inverse", "statement": "i2lebsp and lebs2ip are inverse on their domains for every length up to 64, lebs2ip_k/i2lebsp_k for 10-bit words, and the out-of-domain inputs panic as documented.", "quantifier": "all lengths, all bit strings, all integers", "why_tests_cant": "all lengths and 64-bit integers", "anchors": ["src/spec.rs: lebs2ip, i2lebsp", "src/constants/sinsemilla.rs: lebs2ip_k, i2lebsp_k"]}
{"id": "C44", "title": "The note commitment message determines the note", "statement": "The bit string committed to for a note determines the diversified base, pk_d, value, rho and psi; two notes that are equal as Rust values have equal extracted commitments; from_parts only returns notes whose commitment exists, so commitment() never panics on such a note.", "quantifier": "all notes", "why_tests_cant": "injectivity over a >1000-bit domain", "anchors": ["src/note/commitment.rs: NoteCommitment::derive", "src/note.rs: Note::from_parts, Note::commitment"]}
{"id": "C45", "title": "Note::esk never panics (refuted for a mismatched rho)", "statement": "A RandomSeed accepted by from_bytes always gives an esk. True when the note uses the rho the seed was parsed with. (Expected false in general: Note::from_parts accepts a seed parsed for another rho.)", "quantifier": "all seeds and rhos, all hash behaviours", "why_tests_cant": "negligible-probability branch", "anchors": ["src/note.rs: RandomSeed::from_bytes", "src/note.rs: RandomSeed::esk", "src/note.rs: Note::from_parts"]}
{"id": "C46", "title": "The action gate enforces integer value balance and flag rules", "statement": "For 64-bit old and new values, a 64-bit magnitude and a sign of +-1, the q_orchard gate holds exactly when old - new = sign*magnitude over the integers, the anchor matches unless the old value is zero, and a disabled side has value zero.", "quantifier": "all field elements meeting the range contracts", "why_tests_cant": "a statement over a 255-bit field: no wrap-around witness exists", "anchors": ["src/circuit.rs: gate \"Orchard circuit checks\"", "src/circuit/gadget/add_chip.rs"]}
{"id": "C47", "title": "The CommitIvk gate admits exactly the canonical decomposition", "statement": "Any assignment satisfying the CommitIvk gate and its range checks hashes exactly the 510 canonical bits ak || nk, and for all field elements ak, nk a satisfying assignment exists.", "quantifier": "all field elements ak, nk and all witness assignments", "why_tests_cant": "soundness needs all malicious witnesses, including non-canonical ones near the modulus", "anchors": ["src/circuit/commit_ivk.rs"]}
{"id": "C48", "title": "The NoteCommit gates admit exactly the canonical decomposition", "statement": "Any assignment satisfying the NoteCommit gates and range checks hashes exactly the canonical bits of g_d, pk_d, v, rho and psi with v < 2^64, and a satisfying assignment exists for all valid notes.", "quantifier": "all notes and all witness assignments", "why_tests_cant": "soundness needs all malicious witnesses", "anchors": ["src/circuit/note_commit.rs"]}
{"id": "C49", "title": "A satisfying circuit assignment proves the Action statement", "statement": "Given the contracts of the halo2 gadgets, every satisfying assignment of the action circuit yields values satisfying the Action statement: note commitment, Merkle path, value commitment, nullifier, rk, address ownership, new commitment with rho = nullifier, and the flag rules.", "quantifier": "all instances and witnesses", "why_tests_cant": "soundness over all witnesses", "anchors": ["src/circuit.rs: synthesize", "src/circuit/gadget.rs"]}
{"id": "C50", "title": "Everything the builder makes satisfies the circuit", "statement": "For every bundle returned by build, each action's public instance together with the witness the builder stored satisfies all circuit constraints.", "quantifier": "all builders and RNG behaviours", "why_tests_cant": "completeness over all inputs", "anchors": ["src/builder.rs: ActionInfo::build", "src/circuit.rs: Circuit::from_action_context_unchecked", "src/circuit.rs: Instance"]}
{"id": "C51", "title": "Valid bundles conserve value", "statement": "If every action of a bundle satisfies the Action statement and the binding verification key is a known multiple of R, then the bundle's value balance equals the total of spent values minus the total of created values over the integers, unless the parties hold a discrete-log relation between V and R; with spends (outputs) disabled every spent (created) note has value zero.", "quantifier": "all bundles with fewer than 2^180 actions and all witnesses", "why_tests_cant": "the central security property of the pool; needs all witnesses", "anchors": ["src/bundle.rs: binding_validating_key", "src/circuit.rs", "src/value.rs"]}
{"id": "C52", "title": "Public instances determine the action's public data", "statement": "The nine field elements given to the verifier determine anchor, cv_net, nullifier, rk, cmx and the flags.", "quantifier": "all pairs of instances", "why_tests_cant": "injectivity over the full domain", "anchors": ["src/circuit.rs: Instance::to_halo2_instance", "src/bundle.rs: to_instances"]}
{"id": "C53", "title": "Proof creation and verification do not panic on parsed bundles (refuted)", "statement": "verify_proof returns Ok or Err for every bundle assembled from parsed parts. (Expected false: an identity rk parses, and building the instance unwraps its coordinates.)", "quantifier": "all bundles", "why_tests_cant": "needs the all-zero rk encoding", "anchors": ["src/circuit.rs: Instance::to_halo2_instance", "src/primitives/redpallas.rs: VerificationKey"]}
{"id": "C54", "title": "Nullifiers are unique per note", "statement": "Two spends of the same note that both satisfy the Action statement publish the same nullifier, unless the two witnesses give a collision of CommitIvk.", "quantifier": "all pairs of witnesses", "why_tests_cant": "double-spend prevention over all witnesses", "anchors": ["src/note/nullifier.rs: Nullifier::derive", "src/circuit.rs", "src/spec.rs: commit_ivk"]}
{"id": "C55", "title": "Key derivation never reuses a PRF input", "statement": "The PRF^expand inputs used for ask, nk, rivk, esk, rcm, psi, dk/ovk, internal rivk and child keys are pairwise distinct for different roles and, within a role, different for different arguments.", "quantifier": "all keys, seeds, rhos and indices", "why_tests_cant": "injectivity over all inputs", "anchors": ["src/keys.rs", "src/note.rs: RandomSeed", "src/zip32.rs: derive_child"]}
{"id": "C56", "title": "The Pallas field facts the code relies on are true", "statement": "Both moduli are prime; the base modulus is smaller than the scalar modulus so mod_r_p loses nothing; 0 is not the x-coordinate and not the y-coordinate of any Pallas point; INV_TWO_POW_K is the inverse of 2^10; C is the largest c with 2^c <= (r-1)/2; T_P and T_Q are the stated offsets.", "quantifier": "the constants of the crate, and all points of the curve", "why_tests_cant": "primality and non-residuosity are universally quantified statements", "anchors": ["src/constants.rs", "src/constants/sinsemilla.rs", "src/spec.rs: mod_r_p, NonZeroPallasBase", "src/keys.rs: comments on x = 0"]}
{"id": "C57", "title": "The in-circuit gadgets equal the native functions", "statement": "The value_commit and derive_nullifier gadgets compute exactly ValueCommitment::derive and Nullifier::derive on every witness.", "quantifier": "all witnesses", "why_tests_cant": "equality of two implementations on all inputs", "anchors": ["src/circuit/gadget.rs: value_commit, derive_nullifier", "src/value.rs", "src/note/nullifier.rs"]}
{"id": "C58", "title": "Shuffling is a permutation", "statement": "For every RNG behaviour the in-place shuffle used by build returns a permutation of its input, so no item is dropped or duplicated.", "quantifier": "all lists and RNG behaviours", "why_tests_cant": "all sizes and all random choices", "anchors": ["src/builder.rs: bundle (SliceRandom::shuffle)"]}
{"id": "C59", "title": "A Sinsemilla collision is a discrete-log relation", "statement": "The Sinsemilla hash is a linear combination of Q and the 1024 generators with coefficients read off the message. Two different messages of the same length with equal hash (or two different openings of one commitment), or a message whose hash is undefined, give an explicit non-trivial relation between these points; so Merkle nodes and note commitments are binding as long as nobody can find one.", "quantifier": "all messages of up to 253 words and all generators", "why_tests_cant": "collision resistance by reduction over all pairs of messages", "anchors": ["src/constants/sinsemilla.rs", "src/note/commitment.rs: NoteCommitment::derive", "src/tree.rs: MerkleHashOrchard::combine", "src/spec.rs: commit_ivk"]}
{"id": "C60", "title": "The Pallas curve is a prime-order group with an exact encoding", "statement": "The points of y^2 = x^3 + 5 over the base field, with the chord-and-tangent operations the crate uses through pasta_curves, form a cyclic group of order exactly q in which every point has one discrete logarithm; no point but the identity has a zero coordinate; the 32-byte encoding is canonical: a string decodes iff it is the encoding of a point, and each point has one encoding; every hard-coded generator is a non-identity point. All key, note, signature and circuit guarantees that assume these laws therefore apply to the real curve.", "quantifier": "all points, scalars and 32-byte strings", "why_tests_cant": "the group has about 2^254 elements; associativity, the group order and canonicity of the encoding range over all of them", "anchors": ["src/spec.rs: NonIdentityPallasPoint", "src/constants/fixed_bases.rs", "src/constants/sinsemilla.rs", "src/keys.rs: SpendValidatingKey::from_bytes", "src/value.rs: ValueCommitment::from_bytes"]}
{"id": "C61", "title": "A transaction built, proved and signed through the API is accepted", "statement": "If a builder built by any sequence of calls yields a bundle, and the bundle is then proved, prepared, signed and given external signatures in any order until it can be finalized, the finalized bundle passes verify_proof, every spend-authorization signature and the binding signature verify, and the batch validator accepts it for every random draw. With keys covering the requested spends, create_proof and apply_signatures succeed and lead there. Recipients can still decrypt their outputs from the final bundle, and senders can recover them with the ovk.", "quantifier": "all builder call histories, all randomness, all orders of the authorization steps, all sighashes", "why_tests_cant": "needs the composition of build, witness generation, the circuit, signing and validation over all histories; tests run a handful of fixed transactions, and none with all keys and flags", "anchors": ["src/builder.rs: Builder::build, Bundle::create_proof, Bundle::prepare, sign, append_signatures, finalize, apply_signatures", "src/circuit.rs: Circuit::synthesize", "src/bundle/batch.rs: BatchValidator", "src/bundle.rs: Bundle::verify_proof"]}
{"id": "C62", "title": "An accepted bundle balances, spends owned notes and is signed by the owners", "statement": "If a bundle passes the individual checks, or the batch validator accepts a batch containing it, then every action satisfies the Action statement of the protocol, the revealed value balance is exactly the sum of the spent values minus the sum of the new values, and each spend-authorization signature was made by someone who knew the spending key of the note spent. The only exceptions are explicit discrete-log relations between independent generators, or cancellation of the random batch coefficients.", "quantifier": "all accepted bundles and batches, whoever made them", "why_tests_cant": "it is a statement about every adversarially produced bundle; tests only submit honest ones and a few corrupted ones", "anchors": ["src/bundle/batch.rs: BatchValidator::validate", "src/bundle.rs: Bundle::verify_proof, Bundle::binding_validating_key", "src/circuit.rs: Circuit::synthesize", "src/value.rs"]}
{"id": "C63", "title": "A chain of accepted bundles never creates or double-spends value", "statement": "On a chain that starts empty and applies only bundles that pass the crate's checks, whose anchors are earlier roots of the note commitment tree and whose nullifiers are fresh: the pool always holds exactly the value of the notes created minus the notes spent and is never negative; every spend of a non-zero value is of a note that an earlier transaction created, with the same value, address and rho; no note is spent twice; and no two created notes share a commitment. The only exceptions are explicit discrete-log relations computed from the history.", "quantifier": "all histories of accepted transactions of any length, whoever made them", "why_tests_cant": "it is an invariant over unbounded adversarial histories, combining the tree, the circuit, nullifiers and the binding signature", "anchors": ["src/bundle.rs: Bundle::verify_proof, binding_validating_key", "src/bundle/batch.rs", "src/tree.rs: Anchor, MerkleHashOrchard", "src/note/nullifier.rs: Nullifier::derive", "src/note/commitment.rs: NoteCommitment::derive", "src/circuit.rs: Circuit::synthesize"]}
{"id": "C64", "title": "Hashing to the curve always gives a curve point", "statement": "For every domain and message the group hash used for diversified bases, value bases and Sinsemilla generators returns canonical coordinates of a point of the Pallas curve (or the identity). BLAKE2b, Poseidon and Poly1305 always return values of their declared length and range; Poseidon runs its rounds in the published order; and the written-out functions reproduce the published key, diversifier and ciphertext vectors.", "quantifier": "all domain strings and messages", "why_tests_cant": "the map goes through a square-root case distinction, a curve addition and a 3-isogeny with exceptional cases; tests try a few messages", "anchors": ["src/spec.rs: diversify_hash, prf_nf", "src/constants/fixed_bases.rs", "src/note_encryption.rs", "src/keys.rs"]}
{"id": "C65", "title": "The circuit and the wallet use the same generators", "statement": "Each of the nine generators written as constants for the circuit equals the point the rest of the crate obtains by hashing the documented personalization, no two are equal, and no diversified base, signature base or value base is the identity.", "quantifier": "all hard-coded generators; all diversifiers for the diversified base", "why_tests_cant": "the non-identity of the diversified base ranges over all 2^88 diversifiers; a wrong or duplicated generator would break binding without failing a round-trip test", "anchors": ["src/constants/fixed_bases.rs", "src/constants/fixed_bases/*.rs: generator", "src/constants/sinsemilla.rs: Q_*", "src/spec.rs: diversify_hash", "src/value.rs", "src/primitives/redpallas.rs"]}
{"id": "C66", "title": "The end-to-end guarantees hold for the curve and functions actually linked", "statement": "Building fails only on value overflow, what is built, proved and signed is accepted, and a chain of accepted bundles never creates or double-spends value, for Pallas and the written-out BLAKE2b, Poseidon, hash-to-curve, ChaCha20-Poly1305 and FF1-AES, without assuming anything about the curve or the generators.", "quantifier": "all histories of builder calls, bundles and chains at the concrete curve", "why_tests_cant": "same as C11, C61 and C63: unbounded histories; here no abstract hypothesis about the group is left", "anchors": ["src/builder.rs", "src/circuit.rs", "src/bundle.rs", "src/bundle/batch.rs"]}
{"id": "C67", "title": "The public bundle function behaves like a builder", "statement": "Calling the bundle-construction function directly with lists of spends and outputs refuses the inputs exactly when a builder would have refused them (spends or outputs disabled, a spend whose path does not lead to the anchor), and otherwise gives exactly the result of building a builder that holds those items, for the same randomness. It panics only if the caller's RNG hits a zero spending key.", "quantifier": "all lists of spends and outputs made by the public constructors, all anchors, bundle types and RNG states", "why_tests_cant": "ranges over all combinations of flags, item lists and anchors; the function re-implements checks that the builder does incrementally, and tests use only one of the two entry points", "anchors": ["src/builder.rs: bundle, SpendInfo, OutputInfo, Builder::add_spend, Builder::add_output"]}
{"id": "C68", "title": "No two generators coincide unless the group hash collides", "statement": "The 1024 Sinsemilla generators, the Q points of the four Sinsemilla domains, the commitment randomness bases, the value bases, the spend authorization base, the nullifier base and the diversified bases of all diversifiers are pairwise different, unless two different inputs of the group hash, given explicitly, collide.", "quantifier": "all pairs of generators, including the diversified bases of all 2^88 diversifiers", "why_tests_cant": "a truncated index or shared personalization would make two generators equal and break binding, while all round-trip tests still pass", "anchors": ["src/spec.rs: diversify_hash", "src/constants/sinsemilla.rs", "src/constants/fixed_bases.rs", "src/value.rs", "src/note/nullifier.rs"]}
{"id": "C69", "title": "A note received on chain can be spent", "statement": "If a wallet finds a note by trial decryption of an action in a chain of accepted bundles, then adding it as a spend to a builder for the current tree root, with the authentication path of its position, succeeds.", "quantifier": "all chains of accepted bundles, whoever made them, all viewing keys and positions, all builders with spends enabled", "why_tests_cant": "the ciphertext and commitment are chosen by the sender; the claim is that no accepted ciphertext makes a note that decrypts but has another commitment", "anchors": ["src/note_encryption.rs: OrchardDomain", "src/builder.rs: Builder::add_spend", "src/tree.rs: MerklePath::root", "src/note.rs: Note::from_parts"]}
{"id": "C70", "title": "Received notes have distinct nullifiers", "statement": "Two notes received at different positions of the chain have different nullifiers, for the same or different recipients, so spending one never blocks the other (the Faerie Gold attack), unless an explicit discrete-log relation can be read off the two notes.", "quantifier": "all chains of accepted bundles with adversarial senders, all pairs of received notes", "why_tests_cant": "it is a statement about adversarially chosen notes over all histories", "anchors": ["src/note/nullifier.rs: Nullifier::derive", "src/note.rs: Note::nullifier, Rho", "src/note_encryption.rs: OrchardDomain", "src/action.rs"]}
{"id": "C71", "title": "Only the owner can nullify a note", "statement": "If the nullifier of a note in a wallet appears in an accepted chain, then some accepted action spends exactly this note with the keys of the wallet, and its spend authorization signature was made by someone who knew the spend authorizing key (up to sign). The only exceptions are explicit discrete-log relations computed from the history.", "quantifier": "all chains of accepted bundles, whoever made them, all notes of all wallets", "why_tests_cant": "it is a statement about every adversarial history; tests only nullify notes honestly", "anchors": ["src/note/nullifier.rs: Nullifier::derive", "src/circuit.rs: Circuit::synthesize", "src/bundle/batch.rs", "src/primitives/redpallas.rs"]}
{"id": "C72", "title": "Every secret of a built bundle comes from its own randomness", "statement": "Each value commitment trapdoor, key randomizer, random seed of a new note, key and note of a dummy spend, key of a dummy output, and random outgoing ciphertext of an output without outgoing viewing key is computed from a separate draw from the caller's random number generator, of the full length the protocol demands. Nothing is reused within or between actions, and nothing is constant.", "quantifier": "all histories of builder calls, all RNG states and all shuffles", "why_tests_cant": "reused or constant randomness leaves all functional tests passing; the claim ranges over all numbers of actions and orders", "anchors": ["src/builder.rs: build, ActionInfo::new, ActionInfo::build, SpendInfo::dummy, OutputInfo::dummy", "src/value.rs: ValueCommitTrapdoor::random", "src/note.rs: RandomSeed::random, Note::dummy", "src/keys.rs: SpendingKey::random"]}
{"id": "C73", "title": "Every signature uses its own randomness", "statement": "Preparing, signing and applying signatures draw 80 fresh bytes for the binding signature and for each spend authorization signature made, and each signature is exactly the RedDSA signature with these bytes, of the sighash, under the randomized key of its own action.", "quantifier": "all bundles, sets of signing keys, sighashes and RNG states", "why_tests_cant": "a repeated nonce still gives valid signatures, so no test of validity can notice it", "anchors": ["src/builder.rs: prepare, sign, apply_signatures", "src/primitives/redpallas.rs: SigningKey::sign, SigningKey::randomize"]}
{"id": "C74", "title": "Signatures are Schnorr signatures with unique answers and no nonce reuse", "statement": "Two valid signatures under one key that share R but have different challenges reveal the signing key; a valid signature is determined by key, message and R, so it cannot be mauled into another with the same R; and the signer never produces the same R for different keys, messages or random bytes, unless two given inputs of the hash collide.", "quantifier": "all keys, messages, signatures and random bytes, both signature types", "why_tests_cant": "quantifies over all signatures, including adversarial ones", "anchors": ["src/primitives/redpallas.rs: SigningKey::sign, VerificationKey::verify"]}
{"id": "C75", "title": "Comparisons are total orders consistent with equality", "statement": "Full viewing keys, incoming viewing keys, nullifiers and tree nodes can be sorted and used as map keys: their comparison is a total order, it says Equal exactly when the equality test does, and that is exactly when all components agree. Field elements are ordered as integers. Addresses and extended spending keys are equal exactly when all components are.", "quantifier": "all pairs and triples of valid keys, nullifiers, nodes, addresses", "why_tests_cant": "transitivity and consistency range over all triples; derived and hand-written comparisons are mixed in the same type", "anchors": ["src/keys.rs: SpendValidatingKey, FullViewingKey, IncomingViewingKey", "src/primitives/redpallas.rs: VerificationKey", "src/note/nullifier.rs", "src/tree.rs: MerkleHashOrchard", "src/address.rs", "src/zip32.rs: ExtendedSpendingKey"]}
{"id": "C76", "title": "Commitments and randomized keys hide perfectly", "statement": "On Pallas with the real generators, each curve point is the value commitment of a given value for exactly one trapdoor, the commitment of a given note for exactly one trapdoor, and the randomization of a given validating key for exactly one randomizer. Incoming viewing keys hide as well: for two pairs of keys, shifting the trapdoor by a fixed amount gives the same incoming viewing keys. So a uniform trapdoor makes the published point independent of what it hides. The trapdoors are 64 random bytes reduced modulo the group order, and each scalar has the same number of preimages up to one.", "quantifier": "all values, notes, keys and curve points", "why_tests_cant": "distribution claim over 2^255 trapdoors; depends on the group order being prime and no generator being the identity", "anchors": ["src/value.rs: ValueCommitment::derive", "src/note/commitment.rs: NoteCommitment::derive", "src/keys.rs: SpendValidatingKey::randomize", "src/spec.rs: to_scalar"]}
{"id": "C77", "title": "Encryption keys are bound to the action and not reused", "statement": "The note ciphertext is sealed with a key derived from the shared secret and the ephemeral key, the outgoing ciphertext with a key derived from the outgoing viewing key, value commitment, note commitment and ephemeral key of the same action. Equal outgoing keys mean the same viewing key and the same action data; equal note keys mean the same rho, seed and recipient. The exceptions are explicit hash collisions and an explicit relation between two diversified bases.", "quantifier": "all notes, memos, outgoing viewing keys and actions", "why_tests_cant": "the cipher runs with a constant nonce, so key reuse would leak plaintext without failing any round trip", "anchors": ["src/note_encryption.rs: prf_ock_orchard, OrchardDomain::kdf, derive_outgoing_cipher_key", "src/keys.rs: SharedSecret::kdf_orchard, EphemeralSecretKey", "src/note.rs: RandomSeed::esk"]}
{"id": "C78", "title": "The crate computes the functions of the protocol specification", "statement": "Sinsemilla hashes and commitments, tree nodes and roots, note commitments, nullifiers, value commitments, key components, diversifiers, addresses, byte encodings and the ZIP 244 digests are, for all inputs, the functions the Zcash protocol specification and ZIP 244 define, with their domain strings, bit order, argument order and layer numbering.", "quantifier": "all keys, notes, messages, paths and bundles", "why_tests_cant": "test vectors are a few dozen points of functions on 2^255-sized domains; bit order and padding errors can hide on them", "anchors": ["src/spec.rs", "src/keys.rs", "src/note.rs, src/note/commitment.rs, src/note/nullifier.rs", "src/tree.rs: MerkleHashOrchard::combine, MerklePath::root", "src/value.rs: ValueCommitment::derive", "src/bundle/commitments.rs", "src/address.rs"]}
{"id": "C79", "title": "Shuffling is fair, so positions do not reveal the dummies", "statement": "The order of a built bundle's actions is decided by index draws alone: in a bundle of n actions the positions of the requested spends and of the requested outputs are given by two separate shuffles, and each shuffle reaches every ordering of the n positions for exactly one sequence of indices. With uniform indices all placements are equally likely, and the placement of spends says nothing about that of outputs.", "quantifier": "all builders reached by any history of calls, all numbers of actions, all RNG behaviours", "why_tests_cant": "a test sees a few orders of small bundles; an off-by-one in the shuffle biases the order without ever failing a test", "anchors": ["src/builder.rs: bundle (spends.shuffle, outputs.shuffle), BundleMetadata"]}
{"id": "C80", "title": "A payment made with the crate is accepted, found and spendable", "statement": "A transaction made with the builder for a root of the note commitment tree, spending different notes that are unspent, is accepted by a chain that applies the protocol's rules, whatever the order of proving and signing. From then on, whatever follows in the chain, the owner of each recipient address finds the output at its position with its value and memo, and a builder for the current tree accepts the note. The only exceptions are an undefined Merkle hash, a padding action whose nullifier repeats by chance, and a discrete-log relation between two of the spent notes.", "quantifier": "all chains, all builders reached by any history of calls, all orders of proving and signing, all RNG behaviours, all later chains", "why_tests_cant": "it composes building, proving, signing, validation, the chain's rules, trial decryption and tree paths over unbounded histories", "anchors": ["src/builder.rs: Builder, add_spend, build, create_proof, apply_signatures", "src/note_encryption.rs", "src/tree.rs: MerklePath", "src/bundle/batch.rs: BatchValidator"]}
{"id": "C81", "title": "The unspent notes of wallets are covered by the pool", "statement": "On any chain of accepted bundles, take notes that wallets found by trial decryption at different positions and whose nullifiers have not appeared: their values add up to no more than the value left in the pool. And a note that an accepted action consumed is never shown as unspent: its owner sees the nullifier. Otherwise a commitment with two openings (a discrete-log relation) can be read off the notes and the chain.", "quantifier": "all chains of accepted bundles, all wallets and keys, all sets of found notes", "why_tests_cant": "it is an accounting invariant over unbounded histories made by adversarial senders, joining decryption, commitments, nullifiers, proofs and the binding signature", "anchors": ["src/note_encryption.rs", "src/note/nullifier.rs: Nullifier::derive", "src/note.rs: Note::nullifier", "src/circuit.rs", "src/bundle.rs: Bundle::binding_validating_key", "src/bundle/batch.rs: BatchValidator"]}
{"id": "C82", "title": "Building a bundle ends", "statement": "The loops of the builder that retry after an unusable random string (spending keys of padding, random seeds of notes) stop at the first usable one. Whatever the requests are, the call does not return only if the random number generator keeps giving unusable strings: if it has not returned after k rounds, the generator gave at least k unusable 32-byte strings in a row. Bounding the retries does not change any result.", "quantifier": "all builders and direct calls, all random number generators, all bounds", "why_tests_cant": "termination depends on an unbounded stream of random bytes; a test never sees a rejected one", "anchors": ["src/builder.rs: bundle, SpendInfo::dummy, OutputInfo::dummy", "src/keys.rs: SpendingKey::random", "src/note.rs: RandomSeed::random, Note::new, Note::dummy"]}
{"id": "C83", "title": "Everyone who can read an output reads the same payment", "statement": "For any action, made by anyone and however malformed: whenever two readers succeed, be it with incoming viewing keys, outgoing viewing keys or a light client's compact form, they get the same note and address, and the two full readers the same memo; and only one incoming viewing key finds it. The only exception is a pair of notes, the two that were read, that is itself a collision: of the note commitment (a discrete-log relation), of the hash to a diversified base, or of the derivation of psi and rcm from the seed.", "quantifier": "all actions including adversarial ones, all incoming and outgoing viewing keys, all memos", "why_tests_cant": "an equivocating sender chooses the ciphertexts; tests only decrypt honest ones", "anchors": ["src/note_encryption.rs: OrchardDomain, CompactAction", "src/note/commitment.rs: NoteCommitment::derive", "src/note.rs: RandomSeed", "src/keys.rs: EphemeralPublicKey::agree, DiversifiedTransmissionKey::derive"]}
{"id": "C84", "title": "A signature cannot be moved to another transaction", "statement": "A spend authorization or binding signature that verifies under one key (not the identity) for two messages shows a collision of the challenge hash. So when the sighash is computed from the bundle commitment, two valid bundles that share one spend authorization have the same actions, flags, balance and anchor, or a collision of a named hash on named strings is at hand.", "quantifier": "all keys, messages and signatures; all pairs of bundles that validate", "why_tests_cant": "it is a statement about every signature that could verify, not about the ones the signer makes", "anchors": ["src/primitives/redpallas.rs: VerificationKey::verify", "src/bundle.rs: Bundle::commitment, Bundle::binding_validating_key", "src/bundle/commitments.rs: hash_bundle_txid_data", "src/action.rs: Action::authorization, Action::rk"]}
{"id": "C85", "title": "Batched trial decryption finds what one-by-one decryption finds", "statement": "Trying any list of viewing keys on any list of actions through the batch interface gives, for each action, the note, recipient and memo that trying the keys on it one after another would give, together with the position of the first key that works; the same for compact actions. A batch never panics.", "quantifier": "all lists of viewing keys, all lists of well-formed actions and compact actions", "why_tests_cant": "the batch shares one conversion of all shared secrets and maps flat results back to actions; a test uses one shape of batch", "anchors": ["src/note_encryption.rs: impl BatchDomain for OrchardDomain, batch_kdf", "src/keys.rs: SharedSecret::batch_to_affine, SharedSecret::kdf_orchard_inner"]}
{"id": "C86", "title": "Flags restrict what an accepted bundle does", "statement": "In every bundle that passes verification: if spends are disabled, no action spends a note of non-zero value and the bundle only adds to the pool, by exactly the value of its outputs; if outputs are disabled, no action creates a note of non-zero value and the bundle only takes out of the pool, exactly the value of its spends. The only exceptions are a relation between the generators computed from the extracted witnesses.", "quantifier": "all bundles that validate, whoever made them", "why_tests_cant": "it is about every bundle a prover could make, not the ones the builder makes", "anchors": ["src/bundle.rs: Flags, Bundle::flags, Action::to_instance", "src/circuit.rs: Circuit::configure, Instance", "src/bundle/batch.rs: BatchValidator::validate"]}
{"id": "C87", "title": "An address belongs to one wallet", "statement": "Two full viewing keys that derive a common address, in any scopes and at any indices, have the same spend validating key, nullifier key and commitment randomness for that scope, or their components are two explicit openings of one incoming viewing key (a discrete-log relation between the generators). An address that is external for both fixes the whole full viewing key; the external and the change addresses of one wallet do not overlap, with the same exception or a coincidence of its two randomness values; spending keys with a common address have the same spend authorizing key.", "quantifier": "all pairs of full viewing keys, scopes, diversifier indices and spending keys", "why_tests_cant": "a collision between wallets cannot be searched for", "anchors": ["src/keys.rs: FullViewingKey::address_at, IncomingViewingKey::address_at, FullViewingKey::rivk, SpendAuthorizingKey::from", "src/spec.rs: commit_ivk, diversify_hash, ka_orchard"]}
{"id": "C88", "title": "Mapping over a bundle changes only what is mapped", "statement": "Moving a bundle to another authorization type calls the caller's closure once on each action's authorization, in action order and with the context left by the call before, then calls the bundle-level closure once; nullifiers, keys, commitments, ciphertexts, flags, balance and anchor are unchanged, so the commitment, the public inputs and the binding key are too. The fallible form succeeds exactly when every call does, otherwise returns the first error without making further calls, and never panics on its own. Mapping the balance fails exactly when the closure does and otherwise changes nothing else.", "quantifier": "all bundles, contexts and closures", "why_tests_cant": "the closures are arbitrary code with mutable state; tests use a few", "anchors": ["src/bundle.rs: Bundle::map_authorization, Bundle::try_map_authorization, Bundle::try_map_value_balance", "src/action.rs: Action::map, Action::try_map"]}
{"id": "C89", "title": "A wallet that scans the chain knows its balance", "statement": "The balance a wallet computes by trial-decrypting every action with its two incoming viewing keys and leaving out notes whose nullifier has appeared changes, with every accepted transaction made by the builder, by exactly what the builder's requests pay to the wallet's addresses less what they spend of its notes; over a chain of such transactions it equals total receipts less total payments, padding and change included. On any accepted chain, whoever made it, a note found with non-zero value is not spent already. The exceptions are explicit discrete-log relations computed from the notes and witnesses.", "quantifier": "all wallets, chains, builders, requests and RNG states; any number of wallets interleaved on the chain", "why_tests_cant": "it composes the builder's padding and shuffling, encryption, nullifiers and verification over every history", "anchors": ["src/builder.rs: Builder::build, pad_spend, ActionInfo::build", "src/note_encryption.rs: try_note_decryption", "src/note.rs: Note::nullifier", "src/keys.rs: FullViewingKey::to_ivk, FullViewingKey::scope_for_address"]}
{"id": "C90", "title": "Values and spending keys are hidden jointly", "statement": "The value commitments, randomized keys, spend authorization signatures and binding signature of a transaction, taken together, say nothing about its values and spending keys beyond the number of actions and the value balance. For any two lists of values and keys with equal length and total, moving the trapdoors and randomizers by constants turns one view into the other, and this is one to one. What a transaction made by the builder publishes is such a view of its own values and keys, with the trapdoors, randomizers and signature randomness that were drawn for it; so any other values and keys with the same balance explain the same transaction.", "quantifier": "all builders, keys, values, RNG states and messages", "why_tests_cant": "hiding is about all trapdoors at once; a test sees one transaction", "anchors": ["src/builder.rs: Builder::build, ActionInfo::build, Bundle::apply_signatures", "src/value.rs: ValueCommitment::derive, ValueCommitTrapdoor", "src/keys.rs: SpendAuthorizingKey::randomize, SpendValidatingKey::randomize", "src/primitives/redpallas.rs: SigningKey::sign"]}
{"id": "C91", "title": "An output is readable exactly when it is the honest encryption", "statement": "On any action whatever, made by anyone, an incoming viewing key reads a note and memo exactly when the action carries that note's commitment, nullifier and ephemeral key, its note ciphertext is byte for byte what the encryptor makes of that note and memo, and the recipient is an address of the key. The compact form is read exactly when its 52 bytes are the start of that ciphertext. An outgoing viewing key recovers the output exactly when the outgoing ciphertext, too, is the encryptor's. So a note and memo have one ciphertext: it cannot be altered and still be read as the same.", "quantifier": "all actions including malformed ones, all keys, notes and memos", "why_tests_cant": "an equivalence over all ciphertexts; a test of tampering sees a few bit flips", "anchors": ["src/note_encryption.rs: impl Domain for OrchardDomain", "src/note_encryption.rs: CompactAction", "src/bundle.rs: Bundle::decrypt_output_with_key, recover_output_with_ovk"]}
{"id": "C92", "title": "The order in which provers and signers act does not matter", "statement": "Steps that do not compete for an action (signing with different keys, adding signatures made elsewhere) may be taken in any order on a partially authorized bundle: every order succeeds and all end in the same bundle. The proof may be made before preparing, between any two steps or after them, with the same result, and an order that fails does so with the same error. The prover is given the bundle's own circuits and public inputs in action order, and its answer alone decides. Signing again with a key already used changes nothing and draws no randomness. Of two signatures good for one action, only the first is taken and the second is refused.", "quantifier": "all partially authorized bundles, lists of steps, permutations of them, provers and RNG states", "why_tests_cant": "the number of orders is factorial, and a test follows one", "anchors": ["src/builder.rs: Bundle::create_proof, Bundle::prepare, Bundle::sign, Bundle::append_signatures"]}
{"id": "C93", "title": "A light client computes the same balance", "statement": "A wallet that downloads only compact actions (nullifier, commitment, ephemeral key and the first 52 ciphertext bytes) finds in transactions made with the crate the same notes as one that decrypts in full, and so computes the same balance; on an accepted chain of such transactions it is what was received less what was spent. The exception is an explicit pair of openings of one note commitment. The limit of this is exact: if a sender spoils only the tag of an output, the light client reads the note and the full wallet does not.", "quantifier": "all wallets, lists of transactions, builders and RNG states; all outputs for the statement about one output", "why_tests_cant": "the two scans see different bytes of every transaction and must agree on all of them", "anchors": ["src/note_encryption.rs: CompactAction, impl From<&Action<T>> for CompactAction, impl Domain for OrchardDomain", "src/builder.rs: Builder::build", "src/note.rs: Note::nullifier"]}
{"id": "C94", "title": "A wallet can spend what it found, up to its whole balance", "statement": "The notes a wallet finds on the chain and has not seen spent add up to its balance. A new builder at the current root accepts any selection of them, each with its path in the tree, together with any payments; every call succeeds and the builder then holds exactly these. Building gives a bundle whose value balance is the selection less the payments whenever these values fit their types. The bundle can be proved, signed with the wallet's one spending key, and is accepted by the ledger; afterwards the balance is the old one less the selection plus what was paid to the wallet's own addresses. The exceptions are explicit: a collision among requests, an undefined Merkle hash, a padding nullifier that repeats, a discrete-log relation, or an RNG that gives a zero key or a run of rejected samples.", "quantifier": "all wallets, accepted chains, selections of notes, payments, RNG states and messages", "why_tests_cant": "it joins scanning, paths, building, proving, signing and verification for every history and every selection", "anchors": ["src/builder.rs: Builder::new, Builder::add_spend, Builder::add_output, Builder::build, Bundle::create_proof, Bundle::apply_signatures", "src/tree.rs: MerklePath::root", "src/note_encryption.rs: try_note_decryption", "src/note.rs: Note::nullifier"]}
{"id": "C95", "title": "A waiting transaction stays valid, and independent transactions may be taken in any order", "statement": "A transaction accepted in some state of the chain is still accepted after any further transactions exactly when none of these revealed one of its nullifiers and the tree has room for its commitments; its anchor may by then be an old root. Several transactions each accepted now can all be taken one after another exactly when no nullifier occurs twice and the tree has room, and then in every order: the pool, the nullifiers, the commitments as a collection and every wallet's balance come out the same. No chain holds two transactions with a common nullifier.", "quantifier": "all chains, transactions, orders and verifiers", "why_tests_cant": "the number of orders is factorial and the state in which a transaction is finally taken is not known when it is made", "anchors": ["src/bundle.rs: Bundle::actions, Bundle::anchor, Bundle::verify_proof, Bundle::value_balance", "src/action.rs: Action::nullifier, Action::cmx", "src/note_encryption.rs: try_note_decryption"]}
{"id": "C96", "title": "The balances of all wallets are backed by the pool", "statement": "On any accepted chain, whoever made its transactions, the balances that any different wallets compute by scanning it with their viewing keys are not negative and add up to no more than the value in the pool. The exceptions are explicit: two wallets that found a note at one position (two readings of one output, or two openings of one incoming viewing key), a found note with a second opening of its commitment, or one of the breaks under which the ledger itself fails. Wallets are different when their spend validating or nullifier deriving keys differ.", "quantifier": "all accepted chains, including transactions made by others, and all lists of wallets", "why_tests_cant": "it is about the sum over every wallet and history, including forged outputs no test would contain", "anchors": ["src/note_encryption.rs: try_note_decryption", "src/note.rs: Note::nullifier, Note::commitment", "src/circuit.rs: Circuit::synthesize", "src/bundle.rs: Bundle::binding_validating_key, Bundle::verify_proof", "src/keys.rs: FullViewingKey::to_ivk"]}
{"id": "C97", "title": "An outgoing viewing key shows exactly what was sent with it", "statement": "From a transaction built by the crate, in any later state of its authorization, an outgoing viewing key recovers the payments (recipient, value and memo) that were requested with this key, each once, and no others: not those requested with another key or without one, and not the padding. The exception is an outgoing ciphertext whose tag is right for two keys, the one it was made with and the one of the reader. In any action, made by anyone, a payment recovered with an outgoing viewing key is the one its recipient reads.", "quantifier": "all builders, RNG states, outgoing viewing keys and later states of the bundle; all actions for the second statement", "why_tests_cant": "exactness is about every key that was not used, and tests try a few", "anchors": ["src/builder.rs: Builder::add_output, Builder::build, OutputInfo", "src/bundle.rs: Bundle::recover_output_with_ovk, Bundle::recover_outputs_with_ovks", "src/note_encryption.rs: prf_ock_orchard, impl Domain for OrchardDomain"]}
{"id": "C98", "title": "A payment prepared at an older root is accepted, and a transaction survives a change of branch", "statement": "A wallet may prepare a payment from its notes at the root of one state of the chain while others go on using the chain. As long as the selected notes are still unspent, the payment can be proved and signed and is accepted in the later state, although its anchor is by then an old root; afterwards the balance is the later balance less the selection plus what was paid to the wallet's own addresses, with the exceptions of C94. A transaction accepted on one branch of the chain, whose anchor is from before the branches part, is accepted on the other branch exactly when nothing there revealed one of its nullifiers and the tree has room.", "quantifier": "all wallets, chains, later transactions, branches, selections of notes, payments, RNG states and messages", "why_tests_cant": "what happens on the chain between preparing and sending a payment is unbounded and not known when it is prepared", "anchors": ["src/builder.rs: Builder::new, Builder::add_spend, Builder::build, Bundle::create_proof, Bundle::apply_signatures", "src/tree.rs: MerklePath::root", "src/bundle.rs: Bundle::anchor, Bundle::verify_proof", "src/action.rs: Action::nullifier"]}
{"id": "C99", "title": "Nobody else can take a wallet's notes", "statement": "Whatever transactions are accepted after some state of the chain, made with this crate or not, a wallet's unspent notes afterwards are the earlier ones less those whose nullifier was revealed, plus those that arrived, and its balance changes by exactly their values. Each earlier note whose nullifier was revealed was spent as that very note with the wallet's own keys, in an action signed for its transaction by someone who knew the wallet's spend authorizing key; otherwise a relation between generators can be read off the proof. So the balance of a wallet never goes down unless its owner signs.", "quantifier": "all wallets, accepted chains and further transactions by anyone, and all proof systems and signature extractors", "why_tests_cant": "the transactions of other users are unbounded and adversarial, and no test can enumerate them", "anchors": ["src/bundle.rs: Bundle::verify_proof", "src/bundle/batch.rs: BatchValidator::validate", "src/circuit.rs: Circuit::synthesize", "src/note.rs: Note::nullifier", "src/note_encryption.rs: try_note_decryption", "src/action.rs: Action::nullifier, Action::rk"]}
{"id": "C100", "title": "A wallet may scan the chain as it grows", "statement": "A wallet that looks at each action once, in order, dropping a note when its nullifier is revealed and adding the note it finds with its position in the tree, holds in the end exactly the notes that a scan of the whole chain would give, and the same wherever it stopped and resumed, unless it found a note whose nullifier had been revealed before. On an accepted chain the notes it holds are worth its balance, or a relation between generators can be read off a proof.", "quantifier": "all wallets, chains, and points at which scanning stops and resumes", "why_tests_cant": "the equality is between an incremental and a global computation over histories of any length, and its only exception is one no honest test meets", "anchors": ["src/note_encryption.rs: try_note_decryption", "src/note.rs: Note::nullifier", "src/action.rs: Action::nullifier, Action::cmx", "src/keys.rs: FullViewingKey::to_ivk"]}
{"id": "C101", "title": "A light client can spend what it finds", "statement": "From the nullifier, commitment, ephemeral key and 52 bytes of each action alone a client knows the commitment tree and the nullifier set of the ledger, finds a note wherever a full wallet does (on a chain made with the crate the same notes, or two openings of one commitment), may look at each action once, stopping and resuming anywhere, and can spend any choice of its unspent notes: the builder accepts them with their paths, they are legal to spend, and the bundle is proved, signed with the one spend authorizing key and accepted by the ledger, also if memo or tag, which it never saw, are spoiled. The exceptions are a repeated random padding nullifier, an undefined Merkle hash and two requests with colliding nullifiers, each named.", "quantifier": "all accepted chains, full viewing keys, choices of found notes, payments and RNGs", "why_tests_cant": "it needs every accepted chain, also with spoiled ciphertexts, every choice of notes and a whole pipeline from download to acceptance", "anchors": ["src/note_encryption.rs: CompactAction", "src/builder.rs: Builder::add_spend, Builder::build", "src/tree.rs: MerklePath", "src/builder.rs: Bundle::create_proof, Bundle::apply_signatures"]}
{"id": "C102", "title": "In a group of wallets that only pay each other the balances add up to the pool", "statement": "On a chain of any length whose transactions were made with this crate, spend and send value only at addresses that belong to exactly one wallet of a group, and spend only notes their owners found, the balances that the wallets of the group compute by scanning the chain add up to exactly the value in the pool: nothing is lost on the way and nothing is counted twice. A further transaction changes their sum by exactly its value balance, whoever pays whom in it. Clients that download only compact actions come to the same sum. The exceptions are two openings of one note commitment or incoming viewing key, or two notes with one nullifier, each named with the wallet concerned.", "quantifier": "all groups of wallets, all chains made with the crate inside the group, all RNGs", "why_tests_cant": "it is an equation between every wallet's scan of an unbounded history and the ledger's pool", "anchors": ["src/builder.rs: Builder::build", "src/bundle.rs: Bundle::value_balance", "src/note_encryption.rs: OrchardDomain", "src/keys.rs: FullViewingKey::scope_for_address", "src/note.rs: Note::nullifier"]}
{"id": "C103", "title": "An incoming viewing key shows exactly what was sent to its addresses", "statement": "From a transaction built by the crate, in any later state of its authorization, an incoming viewing key decrypts the payments of value (recipient, value and memo) that were requested to addresses of this key, each once, and no others: not those to other addresses, not the padding. Over a chain of any length of such transactions, made by anyone, it decrypts all the payments made to it; a client that downloads only compact actions reads the same recipients and values. The exception is a note commitment that the key opens in another way than the one who made it.", "quantifier": "all builders, RNG states, incoming viewing keys and later states of the bundle; all lists of transactions made with the crate", "why_tests_cant": "exactness is about every key the payment was not made to, and about histories of any length", "anchors": ["src/builder.rs: Builder::add_output, Builder::build, OutputInfo", "src/bundle.rs: Bundle::decrypt_output_with_key, Bundle::decrypt_outputs_with_keys", "src/keys.rs: IncomingViewingKey::address", "src/note_encryption.rs: impl Domain for OrchardDomain"]}
