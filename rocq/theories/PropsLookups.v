(* Properties C33-C36: what the published tables contain.  Only statements; proofs in LookupMain.v, whose first part and
   whose definitions row_bits, extension_is_own and bytes_covered are the specification.  [None] is a panic. *)
From Coq Require Import ZArith List Bool Lia.
From Verif Require Import Pocklington Fr Query Builder Gadgets MptUpdate Bytes TrieSpec Util Serde Trie Storage Types Lookups LookupProofs HonestTrace LookupMain.
Import ListNotations.
Open Scope Z_scope.

(** * C33 *)
(* every published trace is the hash of its inputs, if the storage parts were made for hashed storage keys ... *)
Theorem C33_traces_are_hashes : forall H proofs l, hash_traces H proofs = Some l ->
  Forall (fun p => storage_key_ok H (pf_storage p)) proofs -> Forall (trace_ok H) l.
Proof. exact hash_traces_ok. Qed.
(* ... which the conversion from traces does not check *)
Theorem C33_state_key_unchecked_refuted : exists tr p l,
  proof_from toy StorageChanged tr = Some p /\ hash_traces toy [p] = Some l /\ ~ Forall (trace_ok toy) l.
Proof. exact state_key_unchecked. Qed.
Theorem C33_traces_sorted : forall H proofs l, hash_traces H proofs = Some l -> strictly_sorted cmp_trace l /\ NoDup l.
Proof. exact hash_traces_sorted. Qed.
Theorem C33_zero_pair_present : forall H proofs l, hash_traces H proofs = Some l -> In ((f0, f0), fdom DPair, H f0 f0 (fdom DPair)) l.
Proof. exact hash_traces_zero. Qed.
(* coverage: account trie rows, storage rows, slot key and leaves, account key, account leaves, account fields *)
Theorem C33_account_rows_covered : forall H proofs l p, hash_traces H proofs = Some l -> In p proofs -> rows_hashed H l (pf_account_trie_rows p).
Proof. exact account_rows_covered. Qed.
Theorem C33_storage_covered : forall H proofs l p storage_key key rows old new, hash_traces H proofs = Some l -> In p proofs ->
  pf_storage p = SUpdate storage_key key rows old new ->
  (0 <= storage_key < 2 ^ 256 -> In ((fz (storage_key / 2 ^ 128), fz (storage_key mod 2 ^ 128)), fdom DPair, key) l) /\
  rows_hashed H l rows /\ leaf_hashed H l old /\ leaf_hashed H l new.
Proof. exact storage_covered. Qed.
Theorem C33_address_covered : forall H proofs l p, hash_traces H proofs = Some l -> In p proofs ->
  In ((fz (address_high (c_address (pf_claim p))), fz (address_low (c_address (pf_claim p)) * 2 ^ 96)), fdom DPair, account_key H (c_address (pf_claim p))) l.
Proof. exact address_covered. Qed.
Theorem C33_leaves_covered : forall H proofs l p q d, hash_traces H proofs = Some l -> In p proofs -> q = pf_old p \/ q = pf_new p ->
  pth_leaf_data_hash q = Some d -> In ((pth_key q, d), fdom DLeaf, H (pth_key q) d (fdom DLeaf)) l.
Proof. exact leaf_covered. Qed.
(* a hash inside an account is published under the first of three domains that gives it *)
Theorem C33_account_fields_covered : forall H proofs l p t l1 r1 h d, hash_traces H proofs = Some l -> In p proofs ->
  In t (pf_old_account_hash_traces p) \/ In t (pf_new_account_hash_traces p) -> t = [l1; r1; h] -> In d [AccountFields; DLeaf; DPair] ->
  only_domain H l1 r1 h d -> In ((l1, r1), fdom d, h) l.
Proof. exact account_covered. Qed.

(** * C34 *)
Theorem C34_sorted : forall H proofs l, key_bit_lookups H proofs = Some l ->
  strictly_sorted cmp_lookup l /\ NoDup l /\ hd_error l = Some (f0, 0, false).
Proof. exact key_bits_sorted. Qed.
Theorem C34_account_rows_covered : forall H proofs l p t tr other, key_bit_lookups H proofs = Some l -> In p proofs -> proof_from H t tr = Some p ->
  extension_is_own (account_key H (c_address (pf_claim p))) p -> other = pth_key (pf_old p) \/ other = pth_key (pf_new p) ->
  row_bits l (pf_account_trie_rows p) (account_key H (c_address (pf_claim p))) other.
Proof. exact account_bits_covered. Qed.
Theorem C34_storage_rows_covered : forall H proofs l p storage_key key rows old new other, key_bit_lookups H proofs = Some l -> In p proofs ->
  pf_storage p = SUpdate storage_key key rows old new -> sp_other_key H (pf_storage p) = Some other ->
  (forall row, In row rows -> tr_path row <> PathStart) -> row_bits l rows key other.
Proof. exact storage_bits_covered. Qed.
Theorem C34_no_start_rows : forall H tr storage_key key rows old new, storage_proof_from H tr = Some (SUpdate storage_key key rows old new) ->
  forall row, In row rows -> tr_path row <> PathStart.
Proof. exact storage_rows_not_start. Qed.
(* extension_is_own is needed: on extension rows the bits of the leaf's key are published, the rows look up those of the
   account's key *)
Theorem C34_other_extension_refuted : exists tr p l, proof_from toy AccountDoesNotExist tr = Some p /\ key_bit_lookups toy [p] = Some l /\
  ~ row_bits l (pf_account_trie_rows p) (account_key toy (c_address (pf_claim p))) (pth_key (pf_new p)).
Proof. exact other_extension. Qed.

(** * C35 *)
Theorem C35_lookup_keys_covered : forall H proofs l key i b, key_bit_lookups H proofs = Some l -> In (key, i, b) l -> In key (mpt_update_keys H proofs).
Proof. exact keys_cover_bits. Qed.
Theorem C35_roots_covered : forall H proofs p, In p proofs ->
  In (c_old_root (pf_claim p)) (mpt_update_keys H proofs) /\ In (c_new_root (pf_claim p)) (mpt_update_keys H proofs).
Proof. exact keys_cover_roots. Qed.
Theorem C35_sorted : forall H proofs, strictly_sorted cmp_fr (mpt_update_keys H proofs) /\ NoDup (mpt_update_keys H proofs) /\
  In f0 (mpt_update_keys H proofs) /\ In f1 (mpt_update_keys H proofs).
Proof. exact keys_sorted. Qed.

(** * C36 *)
Theorem C36_covered : forall proofs r p, byte_representations proofs = Some r -> In p proofs -> bytes_covered p r.
Proof. exact reprs_cover. Qed.
Theorem C36_sorted : forall proofs r, byte_representations proofs = Some r ->
  strictly_sorted Z.compare (re_u32s r) /\ strictly_sorted Z.compare (re_u64s r) /\ strictly_sorted Z.compare (re_u128s r) /\
  strictly_sorted cmp_fr (re_frs r) /\ In 0 (re_u128s r).
Proof. exact reprs_sorted. Qed.

(* a nonce change and a storage change, converted from the traces of two states *)
Example C33_C34_C35_C36_case : exists p q l b r,
  proof_from toy NonceChanged ex_nonce_trace = Some p /\ proof_from toy StorageChanged ex_storage_trace = Some q /\
  hash_traces toy [p; q] = Some l /\ key_bit_lookups toy [p; q] = Some b /\ byte_representations [p; q] = Some r /\
  Forall (fun p => storage_key_ok toy (pf_storage p)) [p; q] /\
  Forall (fun p => extension_is_own (account_key toy (c_address (pf_claim p))) p) [p; q] /\
  length (pf_account_trie_rows q) = 2%nat /\ 10 <= Z.of_nat (length l) /\ 4 <= Z.of_nat (length b) /\ 4 <= Z.of_nat (length (re_u128s r)).
Proof. exact lookups_case. Qed.

Print Assumptions C33_traces_are_hashes. Print Assumptions C33_state_key_unchecked_refuted. Print Assumptions C33_traces_sorted. Print Assumptions C33_zero_pair_present. Print Assumptions C33_account_rows_covered. Print Assumptions C33_storage_covered. Print Assumptions C33_address_covered. Print Assumptions C33_leaves_covered. Print Assumptions C33_account_fields_covered. Print Assumptions C34_sorted. Print Assumptions C34_account_rows_covered. Print Assumptions C34_storage_rows_covered. Print Assumptions C34_no_start_rows. Print Assumptions C34_other_extension_refuted. Print Assumptions C35_lookup_keys_covered. Print Assumptions C35_roots_covered. Print Assumptions C35_sorted. Print Assumptions C36_covered. Print Assumptions C36_sorted.
