{
 "claims": [
  {
   "property": "C01",
   "status": "proved",
   "theorems": [
    "C01_zero_test_exact",
    "C01_zero_test_assignment"
   ],
   "note": "soundness on every enabled row (current and previous query) and completeness of assign_value_and_inverse"
  },
  {
   "property": "C02",
   "status": "proved",
   "theorems": [
    "C02_one_hot_exact",
    "C02_one_hot_assignment"
   ],
   "note": "for every enum satisfying oh_wf (shown for SegmentType, PathType, MPTProofType)"
  },
  {
   "property": "C03",
   "status": "proved",
   "theorems": [
    "C03_condition_gates_constraint",
    "C03_condition_gates_lookup",
    "C03_condition_gates_poseidon_lookup",
    "C03_boolean_operations",
    "C03_sequence"
   ],
   "note": "for every nesting depth; poseidon_lookup shown to be independent of the selector"
  },
  {
   "property": "C04",
   "status": "proved",
   "theorems": [
    "C04_constant_embeds",
    "C04_interpolation"
   ],
   "note": "for every field element; interpolation for every point list with distinct abscissae"
  },
  {
   "property": "C05",
   "status": "proved",
   "theorems": [
    "C05_byte_bit_table_exact",
    "C05_range_8_exact",
    "C05_range_256_exact"
   ],
   "note": "exact characterisation of the three lookups under the fixed columns that assign writes"
  },
  {
   "property": "C06",
   "status": "partial",
   "theorems": [
    "C06_bytes_lookup_sound_partial",
    "C06_rlc_lookup_sound_partial",
    "C06_any_entry_refuted",
    "C06_any_table_refuted"
   ],
   "note": "proved under the anchor eadv e BR_index 1 = 0, which assign establishes (C07_assignment_meets_C06_anchor) but no constraint enforces; without it the claim is false: any value, length above one byte and RLC can be looked up, in tables of every size, and can be added to every accepted table with a spare row (refuted)"
  },
  {
   "property": "C07",
   "status": "proved",
   "theorems": [
    "C07_byte_representation_assignment_satisfies",
    "C07_byte_representation_assignment_covers",
    "C07_byte_representation_assignment_panics",
    "C07_assignment_meets_C06_anchor"
   ],
   "note": "satisfaction, coverage, panic condition"
  },
  {
   "property": "C08",
   "status": "partial",
   "theorems": [
    "C08_canonical_lookup_sound_partial",
    "C08_sound_iff_one_row_after_the_groups",
    "C08_top_byte_refuted",
    "C08_zero_bytes_refuted"
   ],
   "note": "full claim for n_rows = 1 mod 32; for other n_rows not divisible by 32 everything but the most significant byte; the claim holds exactly for n_rows = 1 mod 32 (sound_iff), otherwise the most significant byte (n_rows = 2..31 mod 32) or all bytes but the last (n_rows = 0 mod 32) can be forged (refuted)"
  },
  {
   "property": "C09",
   "status": "proved",
   "theorems": [
    "C09_root_rlc_lookup_sound"
   ],
   "note": "for every n_rows"
  },
  {
   "property": "C10",
   "status": "proved",
   "theorems": [
    "C10_canonical_assignment_satisfies",
    "C10_canonical_assignment_covers",
    "C10_root_rlc_covered",
    "C10_assignment_content"
   ],
   "note": "satisfaction and coverage for canonical_assign; content theorem links the cells"
  },
  {
   "property": "C11",
   "status": "partial",
   "theorems": [
    "C11_key_bit_lookup_sound_partial",
    "C11_sound_iff_one_row_after_the_groups",
    "C11_top_bits_refuted"
   ],
   "note": "full claim for n_rows = 1 mod 32; bits below 248 for other n_rows not divisible by 32; exactly n_rows = 1 mod 32 is sound (sound_iff), forged bits otherwise (refuted)"
  },
  {
   "property": "C12",
   "status": "proved",
   "theorems": [
    "C12_key_bit_assignment_satisfies",
    "C12_key_bit_assignment_covers",
    "C12_key_bit_assignment_content",
    "C12_key_bit_assignment_total"
   ],
   "note": "satisfaction, coverage, exact success condition"
  },
  {
   "property": "C13",
   "status": "partial",
   "theorems": [
    "C13_word_gadget_sound_partial",
    "C13_word_value_not_bound",
    "C13_slot_gadget_used",
    "C13_word_gadget_refuted"
   ],
   "note": "under the C06 anchor, which assign establishes; without it false of the code: the value cell of the slot gadget can hold anything, in every accepted table with a spare row and a StorageChanged claim (not_bound, refuted)"
  },
  {
   "property": "C14",
   "status": "proved",
   "theorems": [
    "C14_nonexistence_gadget_sound"
   ],
   "note": "under a correct Poseidon table"
  },
  {
   "property": "C15",
   "status": "proved",
   "theorems": [
    "C15_update_is_complete"
   ],
   "note": "independent grammar of segment and path types in TableSpec.v (update_rows, path_rows); every update of every satisfied circuit"
  },
  {
   "property": "C16",
   "status": "partial",
   "theorems": [
    "C16_address_not_bound",
    "C16_nonce_of_absent_account_refuted",
    "C16_nonce_sound_partial"
   ],
   "note": "full claim when the account exists in the old trie; for an absent account the claim is false of the code, which accepts the leaf of another account (finding S1): C16_address_not_bound for every accepted table, C16_nonce_of_absent_account_refuted as a concrete contradiction"
  },
  {
   "property": "C17",
   "status": "partial",
   "theorems": [
    "C17_balance_of_absent_account_refuted",
    "C17_balance_sound_partial"
   ],
   "note": "as C16: full for existing accounts, refuted for absent ones"
  },
  {
   "property": "C18",
   "status": "partial",
   "theorems": [
    "C18_code_size_of_absent_account_refuted",
    "C18_code_size_sound_partial"
   ],
   "note": "as C16: full for existing accounts, refuted for absent ones"
  },
  {
   "property": "C19",
   "status": "partial",
   "theorems": [
    "C19_keccak_code_hash_of_absent_account_refuted",
    "C19_keccak_code_hash_sound_partial"
   ],
   "note": "as C16: full for existing accounts, refuted for absent ones"
  },
  {
   "property": "C20",
   "status": "partial",
   "theorems": [
    "C20_poseidon_code_hash_of_absent_account_refuted",
    "C20_poseidon_code_hash_sound_partial"
   ],
   "note": "as C16: full for existing accounts, refuted for absent ones"
  },
  {
   "property": "C21",
   "status": "partial",
   "theorems": [
    "C21_unanchored_refuted",
    "C21_n_rows_multiple_of_32_refuted",
    "C21_account_absence_sound_partial"
   ],
   "note": "full claim under the byte-representation anchor of C06 (established by assign, not enforced) and for a number of rows for which the key bits are reliable (bits_ok); false without either (refuted)"
  },
  {
   "property": "C22",
   "status": "partial",
   "theorems": [
    "C22_slot_of_absent_account_refuted",
    "C22_inserted_value_not_bound",
    "C22_inserted_value_refuted",
    "C22_cleared_value_not_bound",
    "C22_cleared_value_refuted",
    "C22_slot_not_bound",
    "C22_unchanged_slot_refuted",
    "C22_storage_sound_partial"
   ],
   "note": "full for overwriting; the new value of an insertion, the old value of a deletion and slots of absent accounts are not bound by the code (findings S10, S1), and without the anchor of C06 the slot is not bound either (S2), which the _not_bound and _refuted theorems show"
  },
  {
   "property": "C23",
   "status": "partial",
   "theorems": [
    "C23_stored_slot_refuted",
    "C23_storage_absence_sound_partial"
   ],
   "note": "full claim under the byte-representation anchor of C06, which assign establishes; without it false of the code: a stored slot can be claimed to be missing, for every challenge but 0 (refuted; C22_slot_not_bound covers both storage kinds)"
  },
  {
   "property": "C24",
   "status": "partial",
   "theorems": [
    "C24_other_account_removed_refuted",
    "C24_account_survives",
    "C24_never_destructed",
    "C24_no_account_deletion_rows_partial"
   ],
   "note": "AccountDestructed never exposed: proved without any assumption; deletion rows never occur on account segments; the addressed account survives in every new trie (C24_account_survives); that no other account ever disappears is false of the code (finding S7, refuted for every hash function and table size)"
  },
  {
   "property": "C25",
   "status": "proved",
   "theorems": [
    "C25_inner_rows_blank"
   ],
   "note": "no assumption besides satisfaction and the fixed columns"
  },
  {
   "property": "C26",
   "status": "proved",
   "theorems": [
    "C26_same_cells",
    "C26_key_bits_listed",
    "C26_same_verdict",
    "C26_parallel_succeeds",
    "C26_sequential_succeeds",
    "C26_without_padding",
    "C26_without_padding_one_row"
   ],
   "note": "every proof list, number of rows and pair of modes / thread counts; the sequential mode asserts one spare row, which the parallel mode, the default, does not (C26_sequential_succeeds): what it fills in without a padding row is never provable if the last update has more than one row , or of one row other than the padding row (C26_without_padding, C26_without_padding_one_row)"
  },
  {
   "property": "C27",
   "status": "proved",
   "theorems": [
    "C27_fixed_cells"
   ],
   "note": "every two proof lists, modes, challenges and even hash functions"
  },
  {
   "property": "C28",
   "status": "partial",
   "theorems": [
    "C28_update_rows",
    "C28_key_bit_rows",
    "C28_byte_representation_rows",
    "C28_byte_bit_rows",
    "C28_canonical_rows",
    "C28_required_rows_refuted",
    "C28_required_rows_partial",
    "C28_thirty_more_rows",
    "C28_assigned_iff"
   ],
   "note": "per-gadget row counts exact for every input; n_rows_required itself is too small when the canonical representations dominate (C28_required_rows_refuted); 30 more rows always suffice; C28_assigned_iff states exactly when assignment succeeds"
  },
  {
   "property": "C29",
   "status": "proved",
   "theorems": [
    "C29_padding_assigned",
    "C29_padding_satisfied"
   ],
   "note": "every number of rows at least n_rows_required, mode, thread count, challenge and hash function"
  },
  {
   "property": "C30",
   "status": "proved",
   "theorems": [
    "C30_converted",
    "C30_assigned",
    "C30_accepted",
    "C30_hash_traces",
    "C30_stated",
    "C30_nothing_else"
   ],
   "note": "honest updates are defined on two-level binary tries in HonestSpec.v: field writes, account creation, absent accounts, storage writes/fills/clears, empty slots; account deletion is not a supported kind (the code panics); needs 30 rows more than n_rows_required (see C28)"
  },
  {
   "property": "C31",
   "status": "partial",
   "theorems": [
    "C31_merkle_is_bottom_up",
    "C31_rows_carry_the_roots",
    "C31_rows_check",
    "C31_proofs_from_tries",
    "C31_updates_agree_off_path",
    "C31_node_types_needed_refuted"
   ],
   "note": "proved for every pair of Merkle paths whose node types are right (and for all proofs generated from tries); without that condition the claim is false of the code (C31_node_types_needed_refuted)"
  },
  {
   "property": "C32",
   "status": "proved",
   "theorems": [
    "C32_traces_and_rows_agree",
    "C32_shape_agrees",
    "C32_leaf_hash_needed_refuted"
   ],
   "note": "every key, node list and leaf; both reject or both agree, given the hash at the end of each path; with the leaf's own hash (what Proof::from passes) the padding hashes may differ (C32_leaf_hash_needed_refuted)"
  },
  {
   "property": "C33",
   "status": "proved",
   "theorems": [
    "C33_traces_are_hashes",
    "C33_state_key_unchecked_refuted",
    "C33_traces_sorted",
    "C33_zero_pair_present",
    "C33_account_rows_covered",
    "C33_storage_covered",
    "C33_address_covered",
    "C33_leaves_covered",
    "C33_account_fields_covered"
   ],
   "note": "all proof lists; the condition on storage keys and its necessity (C33_state_key_unchecked_refuted) are part of the statement"
  },
  {
   "property": "C34",
   "status": "proved",
   "theorems": [
    "C34_sorted",
    "C34_account_rows_covered",
    "C34_storage_rows_covered",
    "C34_no_start_rows",
    "C34_other_extension_refuted"
   ],
   "note": "all proof lists; the condition on extension rows and its necessity (C34_other_extension_refuted) are part of the statement"
  },
  {
   "property": "C35",
   "status": "proved",
   "theorems": [
    "C35_lookup_keys_covered",
    "C35_roots_covered",
    "C35_sorted"
   ],
   "note": "all proof lists"
  },
  {
   "property": "C36",
   "status": "proved",
   "theorems": [
    "C36_covered",
    "C36_sorted"
   ],
   "note": "all proof lists, per proof type"
  },
  {
   "property": "C37",
   "status": "partial",
   "theorems": [
    "C37_claim_exact",
    "C37_requested_type",
    "C37_only_that_field",
    "C37_creation_other_fields_refuted"
   ],
   "note": "exact characterisation of the accepted (type, trace, claim) triples proved; \"all other fields equal\" holds for existing accounts and is false of the code for created ones (C37_creation_other_fields_refuted)"
  },
  {
   "property": "C38",
   "status": "proved",
   "theorems": [
    "C38_word_splitting"
   ],
   "note": "every 256-bit word"
  },
  {
   "property": "C39",
   "status": "proved",
   "theorems": [
    "C39_rlc_closed_form",
    "C39_rlc_concatenation",
    "C39_rlc_leading_zeros",
    "C39_rlc_at_256",
    "C39_rlc_binding"
   ],
   "note": "every byte string and challenge; binding bound by root counting"
  },
  {
   "property": "C40",
   "status": "proved",
   "theorems": [
    "C40_parsed_digits",
    "C40_hex_bytes_round_trip",
    "C40_prefix_optional",
    "C40_accepted_strings",
    "C40_parsed_value"
   ],
   "note": "every length, every string"
  },
  {
   "property": "C41",
   "status": "proved",
   "theorems": [
    "C41_big_integers_round_trip",
    "C41_prefix_optional",
    "C41_leading_zeros",
    "C41_fixed_width"
   ],
   "note": "every number; every string of hex digits"
  },
  {
   "property": "C42",
   "status": "proved",
   "theorems": [
    "C42_row_grouping"
   ],
   "note": "every row type and flag function"
  },
  {
   "property": "C43",
   "status": "proved",
   "theorems": [
    "C43_cast"
   ],
   "note": "every pair of lengths"
  },
  {
   "property": "C44",
   "status": "proved",
   "theorems": [
    "C44_exposed_address_and_key",
    "C44_account_key",
    "C44_split_injective",
    "C44_exposed_injective"
   ],
   "note": "every address; the exposure theorem is about every satisfied circuit whose start row has the two assigned cells"
  },
  {
   "property": "C45",
   "status": "proved",
   "theorems": [
    "C45_domains_agree",
    "C45_check_exact",
    "C45_circuit_domain",
    "C45_next_domain_is_lax_refuted"
   ],
   "note": "agreement whenever the child on the insertion side becomes a branch; next_domain is laxer elsewhere (C45_next_domain_is_lax_refuted)"
  },
  {
   "property": "C46",
   "status": "proved",
   "theorems": [
    "C46_biguint_to_field",
    "C46_from_to_bytes",
    "C46_to_from_bytes",
    "C46_from_bytes_accepts",
    "C46_bit",
    "C46_biguint_to_word"
   ],
   "note": "every number / field element / index"
  },
  {
   "property": "C47",
   "status": "proved",
   "theorems": [
    "C47_entry_of_row",
    "C47_concatenated",
    "C47_same_claims",
    "C47_other_claims",
    "C47_exists",
    "C47_reordered"
   ],
   "note": "accepted tables with any blocks of updates from accepted tables over the same challenge whose lookup tables are contained in the target; reordering within one table needs no such assumption"
  },
  {
   "property": "C48",
   "status": "proved",
   "theorems": [
    "C48_claims_exposed",
    "C48_only_claims"
   ],
   "note": "every list of converted proofs; addresses of 20 bytes"
  },
  {
   "property": "C49",
   "status": "partial",
   "theorems": [
    "C49_account_created_by_storage_claim_refuted",
    "C49_field_change",
    "C49_storage_change",
    "C49_account_created",
    "C49_account_absent_partial"
   ],
   "note": "existing accounts, storage of existing accounts and creations by nonce or balance claims in full; absent accounts unless the leaf of another account is in their place (false of the code there, see C16); creations by storage claims may set every field arbitrarily, so the claim is false there (refuted)"
  },
  {
   "property": "C50",
   "status": "partial",
   "theorems": [
    "C50_other_account_replaced_refuted",
    "C50_other_accounts_kept_partial",
    "C50_all_changes"
   ],
   "note": "new tries without misplaced leaves, old tries other than a single leaf of another account, keys other than the one at the end of the path of an address that exists neither before nor afterwards; the slot part is sc_others in C49_storage_change; the complete list of the possible changes is C50_all_changes; the excluded cases are false of the code (C50_other_account_replaced_refuted, C51_misplaced_leaf_refuted)"
  },
  {
   "property": "C51",
   "status": "partial",
   "theorems": [
    "C51_misplaced_leaf_refuted",
    "C51_doubled_state_refuted",
    "C51_leaves_stay_placed_partial"
   ],
   "note": "accounts that exist, all kinds but nonce, balance and storage claims, and creations at the end of an empty path; false of the code for nonce, balance and storage claims about an absent account whose path ends at another account (refuted)"
  },
  {
   "property": "C52",
   "status": "partial",
   "theorems": [
    "C52_root_determines_state",
    "C52_replay_partial",
    "C52_untouched_partial",
    "C52_untouched_refuted",
    "C52_fields_kept_partial",
    "C52_last_write_partial",
    "C52_read_back_partial",
    "C52_same_entry_partial",
    "C52_slot_kept_partial",
    "C52_slot_last_write_partial",
    "C52_slot_read_back_partial"
   ],
   "note": "every history of regular updates: the account exists before the update, or the root does not change, or a nonce or balance claim creates the account (all leaves placed, old state not a single foreign leaf); irregular updates are false of the code (C52_untouched_refuted and the refutations of C49-C51). Slots: claims about slots that exist before or after (a fill states its new value and a clear its old value without a check, see C22)"
  },
  {
   "property": "C53",
   "status": "proved",
   "theorems": [
    "C53_paths_checked",
    "C53_shrinking_path_panics",
    "C53_accounts_checked",
    "C53_storage_checked",
    "C53_state_roots_unchecked_refuted",
    "C53_storage_values_unchecked_refuted",
    "C53_path_end_unchecked_refuted",
    "C53_storage_interior_unchecked_refuted"
   ],
   "note": "the statement as worded, for every trace: account key, account paths, account leaves, storage roots and slot keys; the last node of a growing path may keep its type, then its hash is taken in the grown domain (S12). Not checked by the code, refuted in general form: the state roots of the claim, storage values below a branch, the last node of an account path against its leaf, the nodes of a storage path below the top"
  },
  {
   "property": "C54",
   "status": "proved",
   "theorems": [
    "C54_first_phase_fixed",
    "C54_honest_any_challenge"
   ],
   "note": "every list of proofs, mode, thread count and pair of challenges; the phase of each column is part of the model (PhaseSpec.v)"
  },
  {
   "property": "C55",
   "status": "proved",
   "theorems": [
    "C55_few_lucky_challenges",
    "C55_few_bad_challenges"
   ],
   "note": "every commitment and list of claims; claims about accounts that exist neither before nor afterwards and storage claims that create an account are not called false, because the code accepts them (C16-C20, C49)"
  },
  {
   "property": "C56",
   "status": "proved",
   "theorems": [
    "C56_block_computes_transition"
   ],
   "note": "claims that overwrite existing fields and slots, and absence claims; claims that create or delete are outside the statement (the code does not fix the new trie there, C49-C51)"
  },
  {
   "property": "C57",
   "status": "proved",
   "theorems": [
    "C57_updates_apart",
    "C57_key_bits_apart",
    "C57_keys_apart",
    "C57_any_schedule",
    "C57_program_order",
    "C57_same_table",
    "C57_same_verdict"
   ],
   "note": "every interleaving of the writes of the three assign_regions calls; panics are the same in all schedules because each task is deterministic"
  },
  {
   "property": "C58",
   "status": "proved",
   "theorems": [
    "C58_honest_runs",
    "C58_honest_accepted",
    "C58_accepted_is_sound",
    "C58_fixed_columns",
    "C58_fixed_columns_refuted",
    "C58_without_witnesses_panics"
   ],
   "note": "the statement as worded; also shown: with more than 200 hashes the fixed columns differ between two honest inputs, and the circuit without witnesses cannot be synthesized (S14)"
  },
  {
   "property": "C59",
   "status": "proved",
   "theorems": [
    "C59_shown_iff_true",
    "C59_threshold"
   ],
   "note": "the statement as worded; claims that create or delete are left out (what they may do is the subject of C24 and C49-C51, and the code falls short there), claims about the address 0 too (their rows can look like padding); claims about account fields come with slot 0"
  },
  {
   "property": "C60",
   "status": "partial",
   "theorems": [
    "C60_accounts_opened",
    "C60_created_opened",
    "C60_created_old_climbs",
    "C60_old_end_unchecked_refuted",
    "C60_slots_opened",
    "C60_empty_slot_unchecked_refuted",
    "C60_honest_checked",
    "C60_honest_storage_checked",
    "C60_top_insertion_refuted",
    "C60_single_account_refuted"
   ],
   "note": "proved: openings of both account paths when their lengths agree, of the new one when it is longer, and of both storage paths; honest updates pass exactly if the type of the branch at the top stays the same. Refuted: on an insertion the end of the old path is not tied to the old root; an empty slot at the empty end of a path need not have that path; honest updates that change the type of the top branch, or of a state without branches, make the check panic"
  },
  {
   "property": "C61",
   "status": "proved",
   "theorems": [
    "C61_helper_tables",
    "C61_rows_any_order",
    "C61_rows_of_a_part",
    "C61_rows_of_a_union",
    "C61_part_assigned",
    "C61_more_rows",
    "C61_same_claims"
   ],
   "note": "tables, row counts and success of the assignment for all lists of proofs; the exact condition for success is C28_assigned_iff"
  },
  {
   "property": "C62",
   "status": "proved",
   "theorems": [
    "C62_hexadecimal",
    "C62_binary"
   ],
   "note": "exact characterisation in both directions; num_bigint parsing is modelled from its documentation"
  },
  {
   "property": "C63",
   "status": "proved",
   "theorems": [
    "C63_circuit_degree",
    "C63_nested_conditions",
    "C63_degree_bounds_the_polynomial"
   ],
   "note": "degrees as counted by halo2 (not part of the repository); agrees with the number asserted in tests.rs"
  },
  {
   "property": "C64",
   "status": "partial",
   "theorems": [
    "C64_account_written_partial",
    "C64_slot_written_partial",
    "C64_new_root_determined_partial",
    "C64_written_unique",
    "C64_insertion_compact",
    "C64_buried_leaf_refuted",
    "C64_removal_two_roots_refuted"
   ],
   "note": "proved for tries without misplaced leaves and superfluous nodes, for account and storage tries, unless the leaf at the end of the path is that of another key or the old state is a single leaf of another account; each of these exceptions is shown to be false of the code (C16_address_not_bound, C50_other_account_replaced_refuted, C51_misplaced_leaf_refuted, C64_buried_leaf_refuted, C64_removal_two_roots_refuted)"
  },
  {
   "property": "C65",
   "status": "partial",
   "theorems": [
    "C65_account_occupant_partial",
    "C65_slot_occupant_partial",
    "C65_created_account_partial",
    "C65_changed_slot_partial"
   ],
   "note": "for accounts and for slots, absent, created, filled or cleared, for every trie with the claimed roots, under the anchor of C06 and for numbers of rows for which the key bits are reliable (bits_ok), as C21; without either it is false, because then the account that is denied may itself be the one in its place (the refutations of C21 and C23)"
  },
  {
   "property": "C66",
   "status": "proved",
   "theorems": [
    "C66_domain_numbers",
    "C66_domains_differ",
    "C66_node_types",
    "C66_storage_key",
    "C66_state_root",
    "C66_storage_root",
    "C66_old_account",
    "C66_new_account",
    "C66_slots"
   ],
   "note": "roots, domains and keys in full, for every hash function (the property, or a collision in an explicit finite list of hash inputs); for traces that pass the conversion and Proof::check: old accounts when both paths have one length (otherwise false, C60_old_end_unchecked_refuted), new accounts when the new path is not shorter, slots of storage proofs; sides that give data, on paths whose nodes say that they are branches"
  }
 ]
}