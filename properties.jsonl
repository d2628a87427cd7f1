{"id": "C01", "title": "Zero-test gadget is exact", "statement": "In any assignment that satisfies the circuit, on every enabled row the zero-test query returned by IsZeroGadget::current evaluates to 1 if the tested cell is 0 and to 0 otherwise; and the values written by assign_value_and_inverse always satisfy the gadget's constraints.", "quantifier": "all field values of the tested cell, all prover-chosen inverse cells, all rows with the selector on", "why_tests_cant": "Soundness quantifies over adversarial witnesses in a 254-bit field; a MockProver test only exercises the honest witness.", "anchors": ["src/gadgets/is_zero.rs: IsZeroGadget::configure, current, assign_value_and_inverse"]}
{"id": "C02", "title": "One-hot enum encoding is exact", "statement": "In any satisfying assignment, on every enabled row exactly one enum variant is encoded; current_matches/previous_matches/next_matches(vs) is 1 if the encoded variant is in vs and 0 otherwise, for every duplicate-free vs, and current() is the variant's index in declaration order; assign(v) produces the encoding of v.", "quantifier": "all satisfying witnesses, all rows with the selector on (and the neighbouring row enabled too), all duplicate-free lists of variants, all three enum types used", "why_tests_cant": "Quantifies over adversarial witnesses and all variant subsets.", "anchors": ["src/gadgets/one_hot.rs: OneHot::configure, matches, current, assign"]}
{"id": "C03", "title": "Nested conditions gate constraints and lookups as written", "statement": "A constraint or lookup added inside any nesting of ConstraintBuilder::condition calls is enforced on exactly those rows where the selector and every enclosing condition is 1 and imposes nothing on rows where one of them is 0; and/or/not/select on 0-1 queries are the Boolean operations; poseidon_lookup is governed by the enclosing conditions but not by the selector.", "quantifier": "all programs of assert/condition/lookup calls (any nesting depth), all assignments whose condition queries are 0/1 valued, all rows", "why_tests_cant": "The builder is a generic combinator: the claim is over all programs using it and all witnesses.", "anchors": ["src/constraint_builder.rs: condition, assert_zero, add_lookup, poseidon_lookup, build", "src/constraint_builder/binary_query.rs: and, or, not, select"]}
{"id": "C04", "title": "Field constants embed exactly and interpolation interpolates", "statement": "Query::from(x: Fr) evaluates to x for every x; lagrange_polynomial(q, points) evaluates to y_i on any row where q evaluates to x_i, for any list of at least 2 points with distinct x_i.", "quantifier": "all field elements, all point lists, all rows and assignments", "why_tests_cant": "Unbounded over field values and point lists.", "anchors": ["src/constraint_builder/query.rs: From<Fr> for Query", "src/util.rs: lagrange_polynomial"]}
{"id": "C05", "title": "Byte/bit table is exact", "statement": "A triple (byte, index, bit) can be looked up in the byte-bit table by an enabled lookup iff 0<=byte<256, 0<=index<8 and bit is bit `index` of byte; the 8-range and 256-range lookups accept exactly 0..7 and 0..255.", "quantifier": "all field-element triples, all n_rows >= n_rows_required, all row counts of the proving domain", "why_tests_cant": "The negative direction ranges over the whole field.", "anchors": ["src/gadgets/byte_bit.rs: ByteBitGadget::assign, lookup"]}
{"id": "C06", "title": "Byte-count range check and RLC lookup are sound", "statement": "If (v, n) (resp. (v, n, y)) with n <= 30 is accepted by the BytesLookup (resp. RlcLookup) of the byte representation gadget then v is an integer below 256^(n+1) (resp. and y is the RLC of its n+1 big-endian bytes).", "quantifier": "all satisfying witnesses, all looked-up values, all challenge values, all n_rows", "why_tests_cant": "Adversarial witnesses: tests only run the honest assignment.", "anchors": ["src/gadgets/byte_representation.rs: ByteRepresentationConfig::configure, RlcLookup, BytesLookup"]}
{"id": "C07", "title": "Byte representation assignment is complete", "statement": "For every list of u32/u64/u128/31-byte-Fr values, ByteRepresentationConfig::assign writes rows that satisfy the gadget's constraints, and afterwards every listed value can be looked up with its byte length and its RLC.", "quantifier": "all value lists fitting in n_rows, all challenges", "why_tests_cant": "Unbounded lists and values.", "anchors": ["src/gadgets/byte_representation.rs: assign, n_rows_required"]}
{"id": "C08", "title": "Canonical byte decomposition is sound", "statement": "If (v, i, b) is accepted by the canonical-representation lookup then 0<=i<32 and b is the i-th big-endian byte of the canonical representative of v below the modulus; non-canonical encodings (v + modulus) are rejected.", "quantifier": "all satisfying witnesses, all looked-up triples, all n_rows", "why_tests_cant": "Needs exclusion of overflow encodings for all 254-bit values and all adversarial witnesses.", "anchors": ["src/gadgets/canonical_representation.rs: CanonicalRepresentationConfig::configure, CanonicalRepresentationLookup"]}
{"id": "C09", "title": "Root RLC lookup is sound", "statement": "If (v, y) is accepted by the FrRlcLookup then y is the RLC of the 32 canonical big-endian bytes of v.", "quantifier": "all satisfying witnesses, all n_rows, all challenges", "why_tests_cant": "Adversarial witnesses over a 254-bit field.", "anchors": ["src/gadgets/canonical_representation.rs: FrRlcLookup"]}
{"id": "C10", "title": "Canonical representation assignment is complete", "statement": "For every list of field elements that fits, CanonicalRepresentationConfig::assign (with padding) satisfies the gadget's constraints and afterwards every listed element's 32 bytes and RLC can be looked up.", "quantifier": "all lists of field elements with values.len() <= n_rows/32, all n_rows, all challenges", "why_tests_cant": "Unbounded lists, every field element including 0 and modulus-1.", "anchors": ["src/gadgets/canonical_representation.rs: assign"]}
{"id": "C11", "title": "Key-bit lookup is sound", "statement": "If (k, i, b) is accepted by the key-bit lookup then i is an integer in 0..255 and b is bit i (little-endian numbering) of the canonical representative of k.", "quantifier": "all satisfying witnesses, all looked-up triples", "why_tests_cant": "Adversarial witnesses.", "anchors": ["src/gadgets/key_bit.rs: KeyBitConfig::configure, KeyBitLookup"]}
{"id": "C12", "title": "Key-bit assignment is complete", "statement": "For every list of correct (key, index, bit) triples, KeyBitConfig::assign produces rows that satisfy the gadget whenever the keys are in the canonical table, and every listed triple can afterwards be looked up.", "quantifier": "all lists of triples", "why_tests_cant": "Unbounded lists.", "anchors": ["src/gadgets/key_bit.rs: assign, assign_internal"]}
{"id": "C13", "title": "256-bit word gadget is sound", "statement": "Where the word gadget is enforced, there is a 256-bit word w such that the hash cell is Poseidon(w>>128, w mod 2^128) and the value cell is the RLC of w's 32 big-endian bytes.", "quantifier": "all satisfying witnesses, all challenges", "why_tests_cant": "Adversarial witnesses; composition of two range checks, RLCs and a hash.", "anchors": ["src/gadgets/mpt_update/word_rlc.rs: configure"]}
{"id": "C14", "title": "Non-existence gadget is sound", "statement": "Where enforced, the claimed value is 0 and either (type 2) the node hash is 0 and other_key = key, or (type 1) other_key <> key and the node hash is the leaf hash of other_key with some data; never both.", "quantifier": "all satisfying witnesses", "why_tests_cant": "Adversarial witnesses.", "anchors": ["src/gadgets/mpt_update/nonexistence_proof.rs: configure"]}
{"id": "C15", "title": "Every exposed update is a complete, well-formed segment sequence", "statement": "Every enabled Start row before the last enabled row begins a sequence of rows that follows the segment and path transition tables for its proof type and ends at another Start row inside the enabled region; claim columns (type, values, storage key) are constant along it.", "quantifier": "all satisfying witnesses, all rows, any number and length of updates", "why_tests_cant": "Ranges over all witnesses and unbounded sequences; tests run a fixed set of traces.", "anchors": ["src/gadgets/mpt_update/segment.rs: transitions", "src/gadgets/mpt_update/path.rs: forward_transitions", "src/gadgets/mpt_update.rs: configure_segment_transitions", "src/mpt.rs: configure (final mpt update is padding)"]}
{"id": "C16", "title": "Table rows are sound for nonce claims", "statement": "If the circuit is satisfied and its table exposes (address, _, NonceChanged, new_root, old_root, new, old), then in every state trie with root old_root the account at `address` has nonce = old (0 if the account does not exist), and the trie obtained by setting only that field to new has root new_root.", "quantifier": "all satisfying witnesses, all tries with the given root whose Poseidon inputs are collision-free, all addresses and values", "why_tests_cant": "Cryptographic-protocol soundness: all adversarial witnesses, tries of unbounded size.", "anchors": ["src/gadgets/mpt_update.rs: configure_nonce, configure_common_path, configure_extension_new", "src/mpt.rs: lookup_exprs"]}
{"id": "C17", "title": "Table rows are sound for balance claims", "statement": "If the circuit is satisfied and its table exposes (address, _, BalanceChanged, new_root, old_root, new, old), then in every state trie with root old_root the account at `address` has balance = old (0 if the account does not exist), and the trie obtained by setting only that field to new has root new_root.", "quantifier": "all satisfying witnesses, all tries with the given root whose Poseidon inputs are collision-free, all addresses and values", "why_tests_cant": "Cryptographic-protocol soundness: all adversarial witnesses, tries of unbounded size.", "anchors": ["src/gadgets/mpt_update.rs: configure_balance, configure_common_path, configure_extension_new", "src/mpt.rs: lookup_exprs"]}
{"id": "C18", "title": "Table rows are sound for code size claims", "statement": "If the circuit is satisfied and its table exposes (address, _, CodeSizeExists, new_root, old_root, new, old), then in every state trie with root old_root the account at `address` has code size = old (0 if the account does not exist), and the trie obtained by setting only that field to new has root new_root.", "quantifier": "all satisfying witnesses, all tries with the given root whose Poseidon inputs are collision-free, all addresses and values", "why_tests_cant": "Cryptographic-protocol soundness: all adversarial witnesses, tries of unbounded size.", "anchors": ["src/gadgets/mpt_update.rs: configure_code_size, configure_common_path, configure_extension_new", "src/mpt.rs: lookup_exprs"]}
{"id": "C19", "title": "Table rows are sound for keccak code hash claims", "statement": "If the circuit is satisfied and its table exposes (address, _, CodeHashExists, new_root, old_root, new, old), then in every state trie with root old_root the account at `address` has keccak code hash = old (0 if the account does not exist), and the trie obtained by setting only that field to new has root new_root.", "quantifier": "all satisfying witnesses, all tries with the given root whose Poseidon inputs are collision-free, all addresses and values", "why_tests_cant": "Cryptographic-protocol soundness: all adversarial witnesses, tries of unbounded size.", "anchors": ["src/gadgets/mpt_update.rs: configure_keccak_code_hash, configure_common_path, configure_extension_new", "src/mpt.rs: lookup_exprs"]}
{"id": "C20", "title": "Table rows are sound for poseidon code hash claims", "statement": "If the circuit is satisfied and its table exposes (address, _, PoseidonCodeHashExists, new_root, old_root, new, old), then in every state trie with root old_root the account at `address` has poseidon code hash = old (0 if the account does not exist), and the trie obtained by setting only that field to new has root new_root.", "quantifier": "all satisfying witnesses, all tries with the given root whose Poseidon inputs are collision-free, all addresses and values", "why_tests_cant": "Cryptographic-protocol soundness: all adversarial witnesses, tries of unbounded size.", "anchors": ["src/gadgets/mpt_update.rs: configure_poseidon_code_hash, configure_common_path, configure_extension_new", "src/mpt.rs: lookup_exprs"]}
{"id": "C21", "title": "Table rows are sound for account non-existence claims", "statement": "If the circuit is satisfied and its table exposes (address, _, AccountDoesNotExist, new_root, old_root, new, old), then new = old = 0, new_root = old_root and no trie with that root contains an account at `address`.", "quantifier": "all satisfying witnesses, all tries with that root whose Poseidon inputs are collision-free", "why_tests_cant": "All adversarial witnesses, unbounded tries.", "anchors": ["src/gadgets/mpt_update.rs: configure_empty_account", "src/gadgets/mpt_update/nonexistence_proof.rs"]}
{"id": "C22", "title": "Table rows are sound for storage claims", "statement": "If the circuit is satisfied and its table exposes (address, rlc(key), StorageChanged, new_root, old_root, rlc(new), rlc(old)), then in every state trie with root old_root the storage slot has value old (0 if absent) and the trie in which only this slot is set to new (removed if new = 0) has root new_root.", "quantifier": "all satisfying witnesses, all tries (account and storage) with collision-free Poseidon inputs", "why_tests_cant": "All adversarial witnesses, two-level unbounded tries.", "anchors": ["src/gadgets/mpt_update.rs: configure_storage, configure_extension_old, configure_extension_new"]}
{"id": "C23", "title": "Table rows are sound for storage non-existence claims", "statement": "If the circuit is satisfied and its table exposes (address, rlc(key), StorageDoesNotExist, new_root, old_root, new, old) then new = old = 0, new_root = old_root and in every trie with that root the slot is absent (or the account is).", "quantifier": "all satisfying witnesses, all tries with collision-free Poseidon inputs", "why_tests_cant": "All adversarial witnesses, two-level unbounded tries.", "anchors": ["src/gadgets/mpt_update.rs: configure_empty_storage"]}
{"id": "C24", "title": "Accounts cannot be destructed and no account leaf is deleted", "statement": "No satisfied circuit exposes a complete AccountDestructed update, and no update ever removes a leaf from the account trie.", "quantifier": "all satisfying witnesses", "why_tests_cant": "A negative claim over all witnesses.", "anchors": ["src/gadgets/mpt_update.rs: configure (AccountDestructed), configure_extension_old"]}
{"id": "C25", "title": "Rows inside an update expose only the all-zero tuple", "statement": "On every enabled non-Start row the seven exposed table expressions are all 0.", "quantifier": "all satisfying witnesses, all rows", "why_tests_cant": "Adversarial witnesses.", "anchors": ["src/gadgets/mpt_update.rs: MptUpdateLookup::lookup"]}
{"id": "C26", "title": "Parallel and sequential assignment agree", "statement": "For every list of proofs and every thread count, PARALLEL_SYN=true and =false produce the same selector/fixed cells and assignments that accept the same lookups; each helper gadget's parallel assignment places every value, whatever the chunking.", "quantifier": "all proof lists, all thread counts >= 1, all n_rows", "why_tests_cant": "The chunking depends on the machine; tests run on one thread count.", "anchors": ["src/mpt.rs: MptCircuitConfig::assign", "src/gadgets/key_bit.rs: assign_par", "src/gadgets/canonical_representation.rs: assign_par", "src/gadgets/mpt_update.rs: assign_par"]}
{"id": "C27", "title": "Fixed columns do not depend on the proofs", "statement": "For a given n_rows, every fixed column and selector assigned by MptCircuitConfig::assign is the same for all proof lists that fit, so one proving key serves them all.", "quantifier": "all pairs of proof lists that fit in n_rows", "why_tests_cant": "A hyperproperty over pairs of inputs of any size.", "anchors": ["src/mpt.rs: assign", "src/gadgets/canonical_representation.rs: assign"]}
{"id": "C28", "title": "n_rows_required suffices", "statement": "For every list of proofs, each gadget uses exactly the number of rows its n_rows_required reports, and with n_rows = MptCircuitConfig::n_rows_required(proofs) the assertions made by sequential assignment about available rows hold.", "quantifier": "all proof lists", "why_tests_cant": "Unbounded inputs; a boundary (off-by-one) property.", "anchors": ["src/mpt.rs: n_rows_required, assign", "src/gadgets/*.rs: n_rows_required"]}
{"id": "C29", "title": "The padding-only circuit is satisfied", "statement": "With no proofs and any n_rows >= n_rows_required, assignment satisfies every gate and lookup of the complete circuit.", "quantifier": "all n_rows, all domain sizes with room, all challenges, every hash function", "why_tests_cant": "All sizes.", "anchors": ["src/mpt.rs: assign", "src/gadgets/mpt_update.rs: assign_padding_row"]}
{"id": "C30", "title": "Honest proofs are accepted", "statement": "For every honest update (of the kinds supported), the assigned rows satisfy every gate and lookup of the complete circuit.", "quantifier": "all tries, keys, values and proof kinds", "why_tests_cant": "Unbounded tries and depth.", "anchors": ["src/gadgets/mpt_update.rs: assign_single_proof"]}
{"id": "C31", "title": "Trie rows carry the roots", "statement": "For every pair of old/new paths accepted by TrieRows::new, old_root/new_root recompute the roots obtained by hashing the respective paths bottom-up with their node types.", "quantifier": "all path pairs of any length", "why_tests_cant": "Unbounded path lengths and shapes.", "anchors": ["src/types/trie.rs: TrieRows::new, old_root, new_root"]}
{"id": "C32", "title": "Account path traces and trie rows agree", "statement": "For every key and pair of paths, the account hash traces and the account trie rows built for the same update have the same length and, in opposite order, the same directions, domains, hashes, siblings and path types, and one is rejected iff the other is.", "quantifier": "all keys and node lists", "why_tests_cant": "Unbounded lists; two implementations of the same thing.", "anchors": ["src/types.rs: get_internal_hash_traces", "src/types/trie.rs: TrieRows::new"]}
{"id": "C33", "title": "Published hash traces are correct and cover the trie lookups", "statement": "Every element of hash_traces(proofs) is ([l, r], d, h) with h the Poseidon hash of (l, r) in domain d, provided every storage part was made for the hash of its storage key (which the conversion from a trace does not check: without it the claim is refuted); the list is sorted without duplicates, contains the zero pair hash, and contains every hash the update rows look up for the account trie path, leaves and storage, and for the account's fields when only one of the three domains tried gives the recorded digest.", "quantifier": "all proof lists", "why_tests_cant": "Unbounded inputs.", "anchors": ["src/gadgets/mpt_update.rs: hash_traces", "src/types/trie.rs: poseidon_lookups", "src/types/storage.rs: poseidon_lookups"]}
{"id": "C34", "title": "Key-bit lookups are covered", "statement": "key_bit_lookups(proofs) is sorted, duplicate-free, starts with (0, 0, false) and contains every (key, depth-1, direction) triple that the assigned trie rows look up, for key and (on common rows) other_key, provided the longer of two account paths of different length ends at the account itself (refuted otherwise).", "quantifier": "all proof lists", "why_tests_cant": "Unbounded inputs.", "anchors": ["src/gadgets/mpt_update.rs: key_bit_lookups, assign_single_proof"]}
{"id": "C35", "title": "Canonical keys are covered", "statement": "mpt_update_keys(proofs) is sorted, duplicate-free and contains every key used in a key-bit lookup and both roots of every claim.", "quantifier": "all proof lists", "why_tests_cant": "Unbounded inputs.", "anchors": ["src/gadgets/mpt_update.rs: mpt_update_keys"]}
{"id": "C36", "title": "Byte representations are covered", "statement": "byte_representations(proofs) contains every value that the assigned rows range-check: address halves, nonces and code sizes, balances, code-hash halves, storage key and value halves, and 0 for padding; lists are sorted and duplicate-free.", "quantifier": "all proof lists", "why_tests_cant": "Unbounded inputs.", "anchors": ["src/gadgets/mpt_update.rs: byte_representations"]}
{"id": "C37", "title": "Trace conversion yields the requested claim or rejects", "statement": "Converting (proof_type, trace) to a claim either panics or yields a claim of exactly the requested type with the trace's roots and address and the old/new values of exactly the requested field, all other account fields being equal; zero storage values become absent.", "quantifier": "all proof types and traces", "why_tests_cant": "All combinations of optional fields and values.", "anchors": ["src/types.rs: From<(&MPTProofType,&SMTTrace)> for Claim, ClaimKind", "src/mpt_table.rs: From<ClaimKind> for MPTProofType"]}
{"id": "C38", "title": "Word splitting is consistent", "statement": "split_word, u256_hi_lo and hi_lo compute the same halves; hi*2^128+lo is the word, both halves are below 2^128; the RLC of the word is rlc(hi)*r^16 + rlc(lo).", "quantifier": "all 256-bit words, all challenges", "why_tests_cant": "2^256 inputs.", "anchors": ["src/util.rs: split_word, u256_hi_lo, rlc", "src/types.rs: hi_lo"]}
{"id": "C39", "title": "RLC laws", "statement": "rlc(bytes, r) is the polynomial sum of byte_i * r^(len-1-i); it is compatible with concatenation, ignores leading zero bytes, equals the number at r = 256, and two different equal-length byte strings agree on at most len-1 challenges.", "quantifier": "all byte strings, all challenges", "why_tests_cant": "Unbounded strings, all field values.", "anchors": ["src/util.rs: rlc"]}
{"id": "C40", "title": "Hex byte strings round-trip", "statement": "Serializing a HexBytes<LEN> and parsing the result gives it back for every LEN; parsing with or without 0x agrees, and parsing succeeds only on strings of exactly 2*LEN hex digits.", "quantifier": "all LEN, all byte arrays, all strings", "why_tests_cant": "Unbounded inputs.", "anchors": ["src/serde.rs: HexBytes TryFrom<&str>, Serialize, hex"]}
{"id": "C41", "title": "Big integers round-trip", "statement": "se_uint_hex and se_uint_hex_fixed32 output parses back under de_uint_hex to the same number, and de_uint_hex ignores leading zeros and the 0x prefix.", "quantifier": "all natural numbers", "why_tests_cant": "Unbounded inputs.", "anchors": ["src/serde.rs: se_uint_hex, se_uint_hex_fixed32, de_uint_hex"]}
{"id": "C42", "title": "Row grouping is a partition", "statement": "Row::fold_flattern_rows splits the rows into non-empty groups whose concatenation is the input, every group after the first starts with an is_first row and no other row of any group is is_first.", "quantifier": "all row lists", "why_tests_cant": "Unbounded lists.", "anchors": ["src/serde.rs: Row::fold_flattern_rows"]}
{"id": "C43", "title": "HexBytes::cast truncates or zero-extends", "statement": "cast::<M> yields M bytes, byte i being the source byte for i < LEN and 0 otherwise.", "quantifier": "all LEN, M and arrays", "why_tests_cant": "Unbounded inputs.", "anchors": ["src/serde.rs: HexBytes::cast"]}
{"id": "C44", "title": "Account keys match the circuit's address split", "statement": "For every 20-byte address, the address exposed by the table is the address as a big-endian integer and the key looked up by the circuit is account_key(address); the split is injective.", "quantifier": "all addresses", "why_tests_cant": "2^160 addresses.", "anchors": ["src/util.rs: account_key", "src/gadgets/mpt_update.rs: address_high, address_low, MptUpdateLookup::lookup"]}
{"id": "C45", "title": "Branch domain transitions are consistent", "statement": "next_domain, get_domains, check_domain_consistency and the circuit's interpolated new domain agree: on insertion below a branch, the new domain is the domain of the branch after the child on the insertion side became a branch.", "quantifier": "all domains and directions, all rows", "why_tests_cant": "Agreement of three implementations incl. a polynomial over the field.", "anchors": ["src/types/trie.rs: next_domain, get_domains", "src/util.rs: check_domain_consistency", "src/gadgets/mpt_update.rs: configure_common_path"]}
{"id": "C46", "title": "Field conversions", "statement": "fr_from_biguint/big_uint_to_fr map a number below the modulus to itself (and any number to its residue); Fr::from_bytes of a canonical encoding is the inverse of to_bytes; bit(i) is bit i of the canonical representative.", "quantifier": "all numbers, all indices i", "why_tests_cant": "Unbounded inputs.", "anchors": ["src/util.rs: fr_from_biguint, fr, Bit", "src/types.rs: big_uint_to_fr, Bit"]}
{"id": "C47", "title": "Different updates in one circuit do not interfere", "statement": "The claim proved by one update does not depend on rows belonging to other updates: each update's rows alone determine its claim, and any sequence of individually accepted updates can be concatenated in any order.", "quantifier": "all lists of accepted updates and permutations", "why_tests_cant": "Quantifies over all update lists.", "anchors": ["src/gadgets/mpt_update.rs: configure, assign"]}
{"id": "C48", "title": "The exposed table holds exactly the claims", "statement": "After assigning any list of converted proofs to a table with at least n_rows_required rows, the values that the configuration exposes to other circuits are, on the enabled rows, exactly the claims of the proofs (address, storage key RLC, kind, roots, values), all-zero rows, and the all-zero AccountDoesNotExist padding claim.", "quantifier": "all lists of converted proofs, all sizes, both assignment modes, all challenges", "why_tests_cant": "Tests only check that the circuit verifies, not which claims the lookup table contains; ranges over all lists of proofs.", "anchors": ["src/mpt.rs: lookup_exprs, assign", "src/gadgets/mpt_update.rs: lookup, assign, assign_single_proof", "src/types.rs: Claim"]}
{"id": "C49", "title": "Claims determine how the state changed", "statement": "For any two state tries with the old and the new root of an exposed claim: a claim about a field of an existing account means that the new trie is the old one with exactly that field of exactly that account changed from the old to the new value; a storage claim about an existing account means that only that account's storage changed, and there only the claimed slot; an account that did not exist before and exists afterwards has exactly the claimed nonce or balance and is otherwise empty; one that exists neither before nor afterwards has old and new value 0.", "quantifier": "all satisfied circuits, all exposed rows, all pairs of tries with the two roots (of any size and depth)", "why_tests_cant": "Quantifies over all adversarial witnesses and over all tries with the given roots; unit tests only check that honest witnesses are accepted.", "anchors": ["src/gadgets/mpt_update.rs: configure_common_path, configure_extension_new, configure_extension_old, configure_nonce, configure_balance, configure_code_size, configure_keccak_code_hash, configure_poseidon_code_hash, configure_storage, configure_empty_account"]}
{"id": "C50", "title": "No update touches other accounts or slots", "statement": "For any two well-formed state tries with the old and the new root of an exposed claim, every account other than the addressed one is the same in both; likewise every slot other than the claimed one of the addressed account.", "quantifier": "all satisfied circuits, all exposed rows, all pairs of tries, all other keys", "why_tests_cant": "Quantifies over all adversarial witnesses, all tries and all other keys.", "anchors": ["src/gadgets/mpt_update.rs: configure_common_path, configure_extension_new, configure_extension_old", "src/gadgets/mpt_update/path.rs", "src/gadgets/mpt_update/segment.rs"]}
{"id": "C51", "title": "Accepted updates keep state tries well-formed", "statement": "If a satisfying witness exposes an update between two state roots and the trie of the old root is well-formed (every account leaf sits on the path that its key spells), then so is the trie of the new root; in particular a claim that nothing changes does not change the root.", "quantifier": "every satisfying assignment, every exposed update, every pair of tries with the exposed roots (absent hash collisions)", "why_tests_cant": "tests only check honestly generated witnesses; here the witness is adversarial and the tries are arbitrary", "anchors": ["src/gadgets/mpt_update.rs: configure_extension_new, configure_common_path, configure_nonce, configure_balance, configure_storage", "src/gadgets/mpt_update/nonexistence_proof.rs: configure"]}
{"id": "C52", "title": "Chains of accepted updates behave like a key-value store", "statement": "Take any number of updates exposed by satisfying witnesses (of one or several tables), each starting from the state in which the one before ended. Then every account is what the updates about it, applied one after the other, make of it: an account or a slot that no update is about is unchanged, no existing account disappears, the last update of a field or slot determines its final value, and the old value of the next update of it is the new value of the last one. A root belongs to one state only.", "quantifier": "every sequence of updates of any length, over any satisfying assignments, every account and slot (absent hash collisions)", "why_tests_cant": "tests check single updates by honest witnesses; this is about unbounded histories of adversarial witnesses", "anchors": ["src/gadgets/mpt_update.rs: MptUpdateConfig::configure, configure_nonce, configure_balance, configure_storage, configure_extension_new, configure_extension_old", "src/mpt_table.rs: MPTProofType", "src/gadgets/mpt_update.rs: MptUpdateLookup"]}
{"id": "C53", "title": "Inconsistent traces are rejected by the conversion", "statement": "If a trace converts into a proof, then the account key is the hash of the address; on both account paths every node but the last records the hash of the next node along the key's bits; the two paths agree beside the key's path; the leaf ending each account path is the hash of the account data the trace gives for that side together with that side's storage root; and, when storage changes, both storage paths and entries are present, about one slot, and each storage root is the hash of the path's top node or of what ends it. A trace violating any of this makes the conversion panic. (The full property, that the state roots, storage values and all path nodes are consistent too, is false of the code.)", "quantifier": "every trace, proof type and hash function", "why_tests_cant": "tests convert a few honest traces; rejecting every inconsistent trace is about all malformed inputs", "anchors": ["src/types.rs: impl From<(MPTProofType, SMTTrace)> for Proof, check_hash_traces_new, get_internal_hash_traces, account_hash_traces, leaf_hash", "src/types/storage.rs: impl From<&SMTTrace> for StorageProof, StorageLeaf::new", "src/types/trie.rs: TrieRows::new, old_root, new_root"]}
{"id": "C54", "title": "First-phase assignments do not depend on the challenge", "statement": "Assigning a list of proofs writes the same cells whatever the challenge is, panics or not independently of it, and writes into fixed columns and into columns allocated in the first phase values that do not depend on it; only second-phase columns may. Hence a prover with honest updates who commits to the first-phase columns can complete the table for every challenge, is accepted, and the table then says what the updates did.", "quantifier": "every list of proofs, number of rows, mode, thread count, and every two challenges", "why_tests_cant": "tests run the prover with one (mock) challenge; independence is about all pairs of challenges and all inputs", "anchors": ["src/mpt.rs: MptCircuitConfig::assign", "src/gadgets/mpt_update.rs: assign, assign_storage, assign_storage_leaf_row", "src/gadgets/mpt_update/word_rlc.rs: assign", "src/gadgets/byte_representation.rs: ByteRepresentationConfig::configure, assign", "src/gadgets/canonical_representation.rs: CanonicalRepresentationConfig::configure, assign"]}
{"id": "C55", "title": "Only a few challenges can make a false claim acceptable", "statement": "Let a prover commit to the size, the fixed and the first-phase columns of a table before the challenge is drawn, and let another circuit look up a claim given by numbers: address, slot, kind, the two roots and the two values. If the claim is false of the states with these roots, then the number of challenges for which the committed table can be completed to an accepted table showing the claim is at most 31 * (2 n + u), n being the number of rows of the table and u that of usable rows; for several claims, times their number. (False: the claimed account exists and the stated field or slot does not change from the old to the new value, or more changes; an account or slot claimed absent exists; a nonce or balance claim creates another account than claimed; the kind is AccountDestructed.)", "quantifier": "every commitment, completion and hash function, every list of claims and states with the claimed roots (absent hash collisions), every set of challenges", "why_tests_cant": "tests use one challenge and honest witnesses; this is a probability bound over all challenges against an adversarial prover", "anchors": ["src/gadgets/mpt_update.rs: MptUpdateConfig::configure, MptUpdateLookup", "src/gadgets/mpt_update/word_rlc.rs: configure", "src/gadgets/byte_representation.rs: ByteRepresentationConfig::configure", "src/gadgets/canonical_representation.rs: CanonicalRepresentationConfig::configure", "src/util.rs: rlc"]}
{"id": "C56", "title": "A block of lookups computes the state transition", "statement": "Let another circuit look up a chain of claims, each starting from the root with which the one before ended, the first from the root of a state t, the last ending with r'; every claim writes a field of an account or overwrites a slot that exists, or reads that an account or slot is absent. Let the prover have committed to the size, the fixed and the first-phase columns. Then for all challenges but at most 31 * (3 n + 2 u) per claim (n rows, u usable rows), whenever the committed table can be completed to an accepted table that shows all the claims, every old value is the one in the state reached so far, every claimed absence is true, and r' is the root of the state obtained from t by writing the new values one after the other. Nothing is assumed about the intermediate states or the new state.", "quantifier": "every hash function, commitment and completion, every start state with values in range, every chain of claims of any length and kinds (absent hash collisions in the table and in the states passed through)", "why_tests_cant": "tests run a few honest updates; this quantifies over all chains of claims, all challenges and all adversarial witnesses", "anchors": ["src/gadgets/mpt_update.rs: MptUpdateConfig::configure, MptUpdateLookup", "src/mpt.rs: MptCircuitConfig::configure, lookup_exprs", "src/gadgets/mpt_update/word_rlc.rs: configure", "src/gadgets/byte_representation.rs: ByteRepresentationConfig::configure"]}
{"id": "C57", "title": "Parallel assignment does not depend on the scheduler", "statement": "In parallel mode the regions of one assign_regions call are assigned by tasks that run at the same time. No task writes outside the rows reserved by its first pass and no two tasks write the same cell. Hence every interleaving of the tasks' writes fills the same table, that of the program order; and runs with different numbers of threads and any schedules give tables with the same verdict.", "quantifier": "every hash function, list of converted proofs, number of rows, challenge, number of threads and interleaving of the tasks' writes", "why_tests_cant": "a test sees the schedules the operating system happens to choose; this quantifies over all of them", "anchors": ["src/gadgets/mpt_update.rs: MptUpdateConfig::assign_par", "src/gadgets/key_bit.rs: KeyBitConfig::assign_par", "src/gadgets/canonical_representation.rs: CanonicalRepresentationConfig::assign_par", "src/mpt.rs: MptCircuitConfig::assign"]}
{"id": "C58", "title": "The test circuit accepts honest traces and stands for the real one", "statement": "TestCircuit::new with the traces of honest updates, given 30 rows more than n_rows_required, is synthesized without a panic (the check that each loaded hash is correct included), and its table satisfies every gate and lookup if the loaded hashes fit into the usable rows. For any traces, an accepted table of the test circuit meets the hypotheses of the soundness properties. Its fixed columns are the same for all inputs with the same number of rows that load at most 200 hashes, and beyond that depend only on the number of hashes.", "quantifier": "every hash function, list of honest updates (for soundness: any traces), mode, number of threads, number of rows, table size and challenge", "why_tests_cant": "tests run this circuit on fixed traces; this covers every state and update", "anchors": ["src/circuit.rs: TestCircuit", "src/gadgets/poseidon.rs: PoseidonTable::load, MAX_POSEIDON_ROWS", "src/mpt.rs: MptCircuitConfig::assign", "src/gadgets/mpt_update.rs: hash_traces"]}
{"id": "C59", "title": "A block of overwriting claims can be shown exactly if it is true", "statement": "Take a well-formed state, a chain of claims that starts at its root and in which every claim overwrites (or reads) a field of an existing account or a slot with a value, or says that an account or slot does not exist, and a prover who knows no two colliding hash inputs. In a large enough table the prover can commit to the first-phase columns so that after every challenge it can complete them to an accepted table that shows all claims, if and only if every claim is true: what it reads is in the state it is made in, and its two roots are the roots of that state and of the state it leads to. Being able to answer more than 31*(3n+2u) challenges per claim is already enough for the claims to be true.", "quantifier": "every hash function, set of hash inputs without collisions that covers the states and the honest prover, state, chain of claims, table size", "why_tests_cant": "soundness and completeness together, over all states, blocks, committed tables and challenges", "anchors": ["src/mpt.rs: MptCircuitConfig::configure, MptCircuitConfig::assign", "src/gadgets/mpt_update.rs: configure, assign, hash_traces", "src/mpt_table.rs: MPTProofType", "src/types.rs: Proof::from"]}
{"id": "C60", "title": "The consistency check of a converted proof", "statement": "Proof::check (with StorageProof::check), which the tests run on converted proofs, passes only if the account paths and the storage paths of the trace lead, along the keys of the address and of the slot, from the claimed roots to the leaves at their ends and to the storage entries, each node recording the hash of what is below it; and it passes for the proof converted from every honest state update.", "quantifier": "every hash function, proof type and trace that is converted; every pair of states related by an honest update", "why_tests_cant": "the check is itself the oracle of the tests; what it accepts and rejects ranges over all traces and all pairs of states", "anchors": ["src/types.rs: Proof::check, check_hash_traces_new", "src/types/storage.rs: StorageProof::check", "src/types/trie.rs: TrieRows::check"]}
{"id": "C61", "title": "Batches of proofs", "statement": "The helper tables and hashes of a circuit depend only on which proofs it is given, not on their order or repetition. The number of rows required does not depend on the order, does not fall when proofs are added and is at most additive. A part of a batch that can be assigned can be assigned in the same number of rows or more, and two circuits over the same proofs expose the same claims whatever order, mode and size they use.", "quantifier": "all lists of proofs, orders, parts, row counts, modes, thread counts, challenges and hash functions", "why_tests_cant": "All lists of proofs and all permutations.", "anchors": ["src/mpt.rs: MptCircuitConfig::assign, n_rows_required, hash_traces", "src/gadgets/mpt_update.rs: byte_representations, key_bit_lookups, mpt_update_keys, n_rows_required"]}
{"id": "C62", "title": "Accepted number strings", "statement": "de_uint_hex accepts exactly \"0x\" (zero) and the strings that consist of an optional 0x, an optional plus sign, a hexadecimal digit and further digits and underscores, and yields the number the digits denote; de_uint_bin likewise for binary digits without the 0x.", "quantifier": "all strings", "why_tests_cant": "Unbounded inputs, and refusals as well as acceptances.", "anchors": ["src/serde.rs: de_uint_hex, de_uint_bin"]}
{"id": "C63", "title": "Degree of the constraint system", "statement": "The degree of the complete constraint system is 9. The degree of a constraint added inside nested ConstraintBuilder::condition calls is the sum of the degrees of the selector, the conditions and the query, and the value of a query is a polynomial in the cells of at most the counted degree.", "quantifier": "all hash functions; all nestings of conditions; all queries, rows and pairs of tables", "why_tests_cant": "The test computes one number; the laws hold for every query and nesting.", "anchors": ["src/constraint_builder.rs: condition, assert_zero, build", "src/constraint_builder/query.rs: run", "src/tests.rs: degree"]}
{"id": "C64", "title": "Accepted updates are honest writes", "statement": "An accepted update changes the state trie, and the storage trie of an existing account, exactly as an honest write of the claimed key does: the value is replaced where it is, a new leaf takes the empty place at the end of its path or shares it with the leaf found there from where the keys part, a cleared leaf is removed likewise, and nothing else changes; so the new root is determined by the old state and the new account.", "quantifier": "all satisfying assignments, exposed rows, old and new tries whose leaves are where their keys say and which have no superfluous nodes; all keys, including absent ones", "why_tests_cant": "Tests run honest updates only; this is about every table a prover can produce and tries of every shape.", "anchors": ["src/gadgets/mpt_update.rs: configure_common_path, configure_extension_old, configure_extension_new", "src/mpt.rs: MptCircuitConfig"]}
{"id": "C65", "title": "The occupant of a missing key's place is genuine", "statement": "If an accepted row says that an account (or a storage slot) does not exist, and following its key in the old trie ends at a leaf, then that leaf belongs to another account (or slot), and that other one is stored in the trie under its own key: looking it up by its own key finds it. The same holds of the leaf that stood in the place of an account or slot which an accepted row creates, and, in the new trie, of the leaf that comes to stand in the place of a slot which it clears.", "quantifier": "all satisfying assignments, all exposed rows of the two absence kinds and all rows that create an account or fill or clear a slot, all tries with the claimed roots without hash collisions, misplaced leaves included", "why_tests_cant": "Tests only build tries with well-placed leaves and honest witnesses; the claim is about every trie and every witness a prover may present.", "anchors": ["src/gadgets/mpt_update.rs: MptUpdateConfig::configure (other_key, direction lookups), configure_empty_account, configure_empty_storage, nonexistence_configure", "src/gadgets/key_bit.rs: KeyBitConfig", "src/gadgets/mpt_update.rs: configure_extension_new, configure_extension_old"]}
{"id": "C66", "title": "A root commits to one state", "statement": "Hashes of different kinds cannot be confused: the seven hash domains have fixed, pairwise different numbers, also as field elements, and a node type in a trace is read as exactly the kind with that number. Two states with the same root are the same in every account, field and slot. An account or slot that a converted and checked trace shows below a root is in every state with that root, with the data shown. The last two hold for every hash function, unless a collision is found among the finitely many hashes of the states and the paths concerned.", "quantifier": "all hash functions, domains, node types, states, storage tries and traces", "why_tests_cant": "A test compares a few roots; commitment is a statement about all pairs of states and all traces.", "anchors": ["src/types.rs: HashDomain, From<HashDomain> for u64/Fr, TryFrom<u64>, account_hash_traces, Proof::check", "src/util.rs: storage_key_hash, account_key, domain_hash", "src/types/trie.rs: TrieRows", "src/types/storage.rs: StorageProof::check"]}
