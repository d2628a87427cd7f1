notes.update({
'C15':('proved','independent grammar of segment and path types in TableSpec.v (update_rows, path_rows); every update of every satisfied circuit'),
'C16':('partial','full claim when the account exists in the old trie; for an absent account the claim is false of the code, which accepts the leaf of another account (finding S1): C16_address_not_bound for every accepted table, C16_nonce_of_absent_account_refuted as a concrete contradiction'),
'C17':('partial','as C16: full for existing accounts, refuted for absent ones'),'C18':('partial','as C16: full for existing accounts, refuted for absent ones'),'C19':('partial','as C16: full for existing accounts, refuted for absent ones'),'C20':('partial','as C16: full for existing accounts, refuted for absent ones'),
'C21':('partial','full claim under the byte-representation anchor of C06 (established by assign, not enforced) and for a number of rows for which the key bits are reliable (bits_ok); false without either (refuted)'),
'C22':('partial','full for overwriting; the new value of an insertion, the old value of a deletion and slots of absent accounts are not bound by the code (findings S10, S1), and without the anchor of C06 the slot is not bound either (S2), which the _not_bound and _refuted theorems show'),
'C23':('partial','full claim under the byte-representation anchor of C06, which assign establishes; without it false of the code: a stored slot can be claimed to be missing, for every challenge but 0 (refuted; C22_slot_not_bound covers both storage kinds)'),
'C13':('partial','under the C06 anchor, which assign establishes; without it false of the code: the value cell of the slot gadget can hold anything, in every accepted table with a spare row and a StorageChanged claim (not_bound, refuted)'),
'C24':('partial','AccountDestructed never exposed: proved without any assumption; deletion rows never occur on account segments; the addressed account survives in every new trie (C24_account_survives); that no other account ever disappears is false of the code (finding S7, refuted for every hash function and table size)'),
'C25':('proved','no assumption besides satisfaction and the fixed columns'),
})
notes.update({
'C31':('partial','proved for every pair of Merkle paths whose node types are right (and for all proofs generated from tries); without that condition the claim is false of the code (C31_node_types_needed_refuted)'),
'C38':('proved','every 256-bit word'),'C39':('proved','every byte string and challenge; binding bound by root counting'),
'C40':('proved','every length, every string'),'C41':('proved','every number; every string of hex digits'),'C42':('proved','every row type and flag function'),'C43':('proved','every pair of lengths'),
'C44':('proved','every address; the exposure theorem is about every satisfied circuit whose start row has the two assigned cells'),
'C45':('proved','agreement whenever the child on the insertion side becomes a branch; next_domain is laxer elsewhere (C45_next_domain_is_lax_refuted)'),
'C46':('proved','every number / field element / index'),
})

notes.update({
'C32':('proved','every key, node list and leaf; both reject or both agree, given the hash at the end of each path; with the leaf\'s own hash (what Proof::from passes) the padding hashes may differ (C32_leaf_hash_needed_refuted)'),
'C37':('partial','exact characterisation of the accepted (type, trace, claim) triples proved; "all other fields equal" holds for existing accounts and is false of the code for created ones (C37_creation_other_fields_refuted)'),
})
notes.update({
'C33':('proved','all proof lists; the condition on storage keys and its necessity (C33_state_key_unchecked_refuted) are part of the statement'),
'C34':('proved','all proof lists; the condition on extension rows and its necessity (C34_other_extension_refuted) are part of the statement'),
'C35':('proved','all proof lists'),
'C36':('proved','all proof lists, per proof type'),
})
notes.update({
'C26':('proved','every proof list, number of rows and pair of modes / thread counts; the sequential mode asserts one spare row, which the parallel mode, the default, does not (C26_sequential_succeeds): what it fills in without a padding row is never provable if the last update has more than one row , or of one row other than the padding row (C26_without_padding, C26_without_padding_one_row)'),
'C27':('proved','every two proof lists, modes, challenges and even hash functions'),
'C28':('partial','per-gadget row counts exact for every input; n_rows_required itself is too small when the canonical representations dominate (C28_required_rows_refuted); 30 more rows always suffice; C28_assigned_iff states exactly when assignment succeeds'),
})

notes.update({
'C29':('proved','every number of rows at least n_rows_required, mode, thread count, challenge and hash function'),
})
notes.update({
'C30':('proved','honest updates are defined on two-level binary tries in HonestSpec.v: field writes, account creation, absent accounts, storage writes/fills/clears, empty slots; account deletion is not a supported kind (the code panics); needs 30 rows more than n_rows_required (see C28)'),
'C48':('proved','every list of converted proofs; addresses of 20 bytes'),
'C47':('proved','accepted tables with any blocks of updates from accepted tables over the same challenge whose lookup tables are contained in the target; reordering within one table needs no such assumption'),
})

notes.update({
'C49':('partial','existing accounts, storage of existing accounts and creations by nonce or balance claims in full; absent accounts unless the leaf of another account is in their place (false of the code there, see C16); creations by storage claims may set every field arbitrarily, so the claim is false there (refuted)'),
'C50':('partial','new tries without misplaced leaves, old tries other than a single leaf of another account, keys other than the one at the end of the path of an address that exists neither before nor afterwards; the slot part is sc_others in C49_storage_change; the complete list of the possible changes is C50_all_changes; the excluded cases are false of the code (C50_other_account_replaced_refuted, C51_misplaced_leaf_refuted)'),
})
notes.update({
'C51':('partial','accounts that exist, all kinds but nonce, balance and storage claims, and creations at the end of an empty path; false of the code for nonce, balance and storage claims about an absent account whose path ends at another account (refuted)'),
})

notes.update({
'C52':('partial','every history of regular updates: the account exists before the update, or the root does not change, or a nonce or balance claim creates the account (all leaves placed, old state not a single foreign leaf); irregular updates are false of the code (C52_untouched_refuted and the refutations of C49-C51). Slots: claims about slots that exist before or after (a fill states its new value and a clear its old value without a check, see C22)'),
})

notes.update({
'C53':('proved','the statement as worded, for every trace: account key, account paths, account leaves, storage roots and slot keys; the last node of a growing path may keep its type, then its hash is taken in the grown domain (S12). Not checked by the code, refuted in general form: the state roots of the claim, storage values below a branch, the last node of an account path against its leaf, the nodes of a storage path below the top'),
})

notes.update({
'C54':('proved','every list of proofs, mode, thread count and pair of challenges; the phase of each column is part of the model (PhaseSpec.v)'),
'C55':('proved','every commitment and list of claims; claims about accounts that exist neither before nor afterwards and storage claims that create an account are not called false, because the code accepts them (C16-C20, C49)'),
})

notes.update({
'C56':('proved','claims that overwrite existing fields and slots, and absence claims; claims that create or delete are outside the statement (the code does not fix the new trie there, C49-C51)'),
})

notes.update({
'C57':('proved','every interleaving of the writes of the three assign_regions calls; panics are the same in all schedules because each task is deterministic'),
})

notes.update({
'C58':('proved','the statement as worded; also shown: with more than 200 hashes the fixed columns differ between two honest inputs, and the circuit without witnesses cannot be synthesized (S14)'),
'C59':('proved','the statement as worded; claims that create or delete are left out (what they may do is the subject of C24 and C49-C51, and the code falls short there), claims about the address 0 too (their rows can look like padding); claims about account fields come with slot 0'),
})

notes.update({
'C61':('proved','tables, row counts and success of the assignment for all lists of proofs; the exact condition for success is C28_assigned_iff'),
'C62':('proved','exact characterisation in both directions; num_bigint parsing is modelled from its documentation'),
'C63':('proved','degrees as counted by halo2 (not part of the repository); agrees with the number asserted in tests.rs'),
'C65':('partial','for accounts and for slots, absent, created, filled or cleared, for every trie with the claimed roots, under the anchor of C06 and for numbers of rows for which the key bits are reliable (bits_ok), as C21; without either it is false, because then the account that is denied may itself be the one in its place (the refutations of C21 and C23)'),
'C66':('proved','roots, domains and keys in full, for every hash function (the property, or a collision in an explicit finite list of hash inputs); for traces that pass the conversion and Proof::check: old accounts when both paths have one length (otherwise false, C60_old_end_unchecked_refuted), new accounts when the new path is not shorter, slots of storage proofs; sides that give data, on paths whose nodes say that they are branches'),
'C64':('partial','proved for tries without misplaced leaves and superfluous nodes, for account and storage tries, unless the leaf at the end of the path is that of another key or the old state is a single leaf of another account; each of these exceptions is shown to be false of the code (C16_address_not_bound, C50_other_account_replaced_refuted, C51_misplaced_leaf_refuted, C64_buried_leaf_refuted, C64_removal_two_roots_refuted)'),
'C60':('partial','proved: openings of both account paths when their lengths agree, of the new one when it is longer, and of both storage paths; honest updates pass exactly if the type of the branch at the top stays the same. Refuted: on an insertion the end of the old path is not tied to the old root; an empty slot at the empty end of a path need not have that path; honest updates that change the type of the top branch, or of a state without branches, make the check panic'),
})
