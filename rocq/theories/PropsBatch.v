(* C61 and C28: batches of proofs.  Only statements; proofs in Batch.v, specification in BatchSpec.v.
   [mpt_assign H par threads proofs n r] is MptCircuitConfig::assign in parallel or sequential mode, [None] a panic;
   [mpt_n_rows_required] is n_rows_required, [byte_representations], [key_bit_lookups], [mpt_update_keys] and [hash_traces] the inputs of the helper tables. *)
From Coq Require Import ZArith List Bool Lia Permutation.
From Verif Require Import Pocklington Fr Query Builder Gadgets GadgetMain GadgetMain2 MptUpdate Bytes Assign Util Serde Trie Storage Types Lookups HonestTrace LookupMain UpdateAssign MptModes MptRows MptCases
  UpdateProps TableSpec HonestSpec UtilProofs ClaimSpec BatchSpec Batch.
Import ListNotations.
Open Scope Z_scope.

(** * C61 *)
(* the helper tables and the hashes to look up depend only on which proofs there are *)
Theorem C61_helper_tables : forall H ps qs, same_members ps qs ->
  byte_representations ps = byte_representations qs /\ key_bit_lookups H ps = key_bit_lookups H qs /\ mpt_update_keys H ps = mpt_update_keys H qs /\
  hash_traces H ps = hash_traces H qs.
Proof. intros H ps qs I. exact (conj (reprs_same ps qs I) (conj (key_bits_same H ps qs I) (conj (keys_same H ps qs I) (hash_traces_same H ps qs I)))). Qed.
(* the number of rows needed does not depend on the order, does not fall when proofs are added, and is at most additive *)
Theorem C61_rows_any_order : forall H ps qs, Permutation ps qs -> mpt_n_rows_required H ps = mpt_n_rows_required H qs.
Proof. exact rows_required_perm. Qed.
Theorem C61_rows_of_a_part : forall H ps qs m, part ps qs -> mpt_n_rows_required H qs = Some m -> exists k, mpt_n_rows_required H ps = Some k /\ k <= m.
Proof. exact rows_required_part. Qed.
Theorem C61_rows_of_a_union : forall H ps qs a b, mpt_n_rows_required H ps = Some a -> mpt_n_rows_required H qs = Some b ->
  exists c, mpt_n_rows_required H (ps ++ qs) = Some c /\ Z.max a b <= c <= a + b.
Proof. exact rows_required_union. Qed.
(* any part of a batch that can be assigned can be assigned in the same number of rows, whatever its order, and more rows never hurt *)
Theorem C61_part_assigned : forall H par threads ps qs n r ws, (0 < threads)%nat -> part ps qs -> mpt_assign H par threads qs n r = Some ws ->
  exists ws', mpt_assign H par threads ps n r = Some ws'.
Proof. exact part_assigned. Qed.
Theorem C61_more_rows : forall H par threads ps n n' r ws, (0 < threads)%nat -> n <= n' -> mpt_assign H par threads ps n r = Some ws ->
  exists ws', mpt_assign H par threads ps n' r = Some ws'.
Proof. exact more_rows. Qed.
(* two circuits over the same proofs, in whatever order, number, mode and number of rows, expose the same claims *)
Theorem C61_same_claims : forall H par par' threads threads' ps qs n n' r ws ws' e e' row,
  Forall (fun p => exists kind trace, proof_from H kind trace = Some p) ps -> Forall (fun p => address_ok (c_address (pf_claim p))) ps -> same_members ps qs ->
  (0 < threads)%nat -> (0 < threads')%nat -> mpt_assign H par threads ps n r = Some ws -> mpt_assign H par' threads' qs n' r = Some ws' ->
  filled e r ws -> filled e' r ws' -> room e n -> room e' n' -> enough_rows H ps n -> enough_rows H qs n' ->
  exposes e row -> row = blank_row \/ row = final_row \/ exposes e' row.
Proof. exact same_claims. Qed.

(** * C28: exactly when assignment succeeds *)
(* [assignable H r p]: assignment of p alone succeeds for some mode, number of threads and number of rows *)
Theorem C28_assigned_iff : forall H par threads ps n r, (0 < threads)%nat ->
  ((exists ws, mpt_assign H par threads ps n r = Some ws) <->
   Forall (assignable H r) ps /\ updates_fit par ps n /\ 32 * (Z.of_nat (length (mpt_update_keys H ps)) + 1) <= n).
Proof. exact assigned_iff. Qed.

(* a nonce change and a storage change: both orders, a repetition and a part of the batch *)
Example C61_C28_case : exists p q, proof_from toy NonceChanged ex_nonce_trace = Some p /\ proof_from toy StorageChanged ex_storage_trace = Some q /\
  same_members [p; q] [q; p; q] /\ Permutation [p; q] [q; p] /\ part [q] [p; q] /\ Forall (assignable toy (fz 5)) [p; q] /\ updates_fit false [p; q] 2050 /\
  exists ws, mpt_assign toy false 1 [q] 2050 (fz 5) = Some ws.
Proof. exact batch_case. Qed.
Print Assumptions C61_helper_tables. Print Assumptions C61_rows_any_order. Print Assumptions C61_rows_of_a_part. Print Assumptions C61_rows_of_a_union. Print Assumptions C61_part_assigned. Print Assumptions C61_more_rows. Print Assumptions C61_same_claims. Print Assumptions C28_assigned_iff.
