(* Properties C26-C28: assignment of the complete circuit.  Only statements; proofs in MptModes.v, MptRows.v, MptCases.v.
   [mpt_assign H par threads proofs n r] is MptCircuitConfig::assign in parallel or sequential mode, [None] a panic;
   [filled e r ws] says that the table e holds what it writes. *)
From Coq Require Import ZArith List Bool Lia.
From Verif Require Import Pocklington Fr Query Builder Gadgets GadgetMain GadgetMain2 MptUpdate Bytes Assign TrieSpec Util Serde Trie Storage Types Lookups HonestTrace LookupMain UpdateAssign MptModes MptRows MptCases.
Import ListNotations.
Open Scope Z_scope.

(** * C26 *)
(* whatever the two modes and thread counts, the same cells are written except in the key-bit table ... *)
Theorem C26_same_cells : forall H proofs n r par par' th th' ws ws', (par = true -> (0 < th)%nat) -> (par' = true -> (0 < th')%nat) ->
  mpt_assign H par th proofs n r = Some ws -> mpt_assign H par' th' proofs n r = Some ws' ->
  forall c i, ~ In c [A KB_value; A KB_index; A KB_bit; A KB_index_div_8; A KB_index_mod_8; A KB_byte] -> cell ws c i = cell ws' c i.
Proof. intros H proofs n r par par' th th' ws ws' T T' E E'. exact (modes_cells T T' E E'). Qed.
(* ... whose rows are placed differently, but which holds all the lookups *)
Theorem C26_key_bits_listed : forall H proofs n r par th ws e lookups v x b, (0 < th)%nat -> mpt_assign H par th proofs n r = Some ws -> filled e r ws ->
  room e n -> enough_rows H proofs n -> key_bit_lookups H proofs = Some lookups -> In (v, x, b) lookups -> accepts e key_bit_lookup [v; fz x; fb b].
Proof. exact bits_listed. Qed.
Theorem C26_same_verdict : forall H proofs n r par par' th th' ws ws' e e',
  (0 < th)%nat -> (0 < th')%nat -> mpt_assign H par th proofs n r = Some ws -> mpt_assign H par' th' proofs n r = Some ws' ->
  filled e r ws -> filled e' r ws' -> same_context e' e -> room e n -> enough_rows H proofs n ->
  (sat e (circuit_of (circuit H)) <-> sat e' (circuit_of (circuit H))).
Proof. exact modes_equivalent. Qed.
Theorem C26_parallel_succeeds : forall H threads threads' proofs n r ws, (0 < threads)%nat -> mpt_assign H false threads' proofs n r = Some ws ->
  exists ws', mpt_assign H true threads proofs n r = Some ws'.
Proof. exact par_total. Qed.
(* the sequential mode also asserts that one padding row is left *)
Theorem C26_sequential_succeeds : forall H threads threads' proofs n r ws, (0 < threads)%nat -> mpt_assign H true threads proofs n r = Some ws ->
  2 + Z.of_nat (total_rows proofs) <= n -> exists ws', mpt_assign H false threads' proofs n r = Some ws'.
Proof. exact seq_total. Qed.

(** * C27 *)
(* even the hash function and the challenge may differ *)
Theorem C27_fixed_cells : forall H H' proofs proofs' n r r' par par' th th' ws ws' c i,
  (0 < th)%nat -> (0 < th')%nat -> mpt_assign H par th proofs n r = Some ws -> mpt_assign H' par' th' proofs' n r' = Some ws' ->
  cell ws (Fx c) i = cell ws' (Fx c) i.
Proof. exact modes_fixed. Qed.

(** * C28 *)
(* rows used by each gadget.  [fills_rows lo from hi ws]: ws writes in rows lo..hi-1 only, and in each of rows from..hi-1 *)
Theorem C28_update_rows : forall H proofs r o ws, Forall (fun p => exists t tr, proof_from H t tr = Some p) proofs -> assign_proofs H proofs r o = Some ws ->
  fills_rows o o (o + Z.of_nat (total_rows proofs)) ws.
Proof. exact update_rows. Qed.
Theorem C28_key_bit_rows : forall lookups ws, key_bit_assign lookups = Some ws -> fills_rows 1 1 (key_bit_n_rows lookups) ws.
Proof. exact key_bit_rows. Qed.
Theorem C28_byte_representation_rows : forall r u32s u64s u128s frs ws, byte_repr_assign r u32s u64s u128s frs = Some ws ->
  fills_rows 0 0 (byte_repr_n_rows u32s u64s u128s frs) ws.
Proof. exact byte_repr_rows. Qed.
Theorem C28_byte_bit_rows : fills_rows 1 1 byte_bit_n_rows byte_bit_assign.
Proof. exact byte_bit_rows. Qed.
Theorem C28_canonical_rows : forall r values, fills_rows 1 1 (canonical_n_rows values) (emit 1 (flat_map (cr_rows_of r) values)).
Proof. exact canonical_rows. Qed.
(* n_rows_required can be too small: assignment with that many rows panics in both modes *)
Theorem C28_required_rows_refuted : exists proofs n, Forall (fun p => exists tr, proof_from toy AccountDoesNotExist tr = Some p) proofs /\
  mpt_n_rows_required toy proofs = Some n /\ forall par threads r, mpt_assign toy par threads proofs n r = None.
Proof. exact rows_missing. Qed.
(* it suffices when the canonical representations have a spare group of 32 rows, in particular with 30 more rows.
   [assignable H r p]: assignment of p alone succeeds for some number of rows *)
Theorem C28_required_rows_partial : forall H par threads proofs n r, (0 < threads)%nat -> Forall (assignable H r) proofs ->
  enough_rows H proofs n -> 32 * (Z.of_nat (length (mpt_update_keys H proofs)) + 1) <= n -> exists ws, mpt_assign H par threads proofs n r = Some ws.
Proof. exact assign_succeeds. Qed.
Theorem C28_thirty_more_rows : forall H par threads proofs n r, (0 < threads)%nat -> Forall (assignable H r) proofs ->
  enough_rows H proofs (n - 30) -> exists ws, mpt_assign H par threads proofs n r = Some ws.
Proof. exact thirty_more. Qed.

(* a nonce change and a storage change in 2050 rows: both modes succeed *)
Example C26_C27_C28_case : exists p q, proof_from toy NonceChanged ex_nonce_trace = Some p /\ proof_from toy StorageChanged ex_storage_trace = Some q /\
  (total_rows [p; q] = 16)%nat /\ enough_rows toy [p; q] 2050 /\
  (exists ws, mpt_assign toy false 1 [p; q] 2050 (fz 5) = Some ws) /\ forall threads, (0 < threads)%nat -> exists ws, mpt_assign toy true threads [p; q] 2050 (fz 5) = Some ws.
Proof. exact assign_case. Qed.

Print Assumptions C26_same_cells. Print Assumptions C26_key_bits_listed. Print Assumptions C26_same_verdict. Print Assumptions C26_parallel_succeeds. Print Assumptions C26_sequential_succeeds. Print Assumptions C27_fixed_cells. Print Assumptions C28_update_rows. Print Assumptions C28_key_bit_rows. Print Assumptions C28_byte_representation_rows. Print Assumptions C28_byte_bit_rows. Print Assumptions C28_canonical_rows. Print Assumptions C28_required_rows_refuted. Print Assumptions C28_required_rows_partial. Print Assumptions C28_thirty_more_rows.
