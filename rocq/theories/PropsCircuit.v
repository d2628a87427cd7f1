(* Property C58: the circuit that the tests run.  Only statements; proofs in TestProofs.v, TestCase.v, the model is TestCircuit.v.
   [test_circuit H par threads traces n r]: the writes of TestCircuit::new and synthesize for n rows and challenge r, [None] a panic;
   [env_of N u r ws]: the table of N rows, u of them usable, with these writes; [input u]: the kind and trace of the update u. *)
From Coq Require Import ZArith List Bool Lia.
From Verif Require Import Pocklington Fr Query Builder Gadgets GadgetMain MptUpdate Bytes Assign TrieSpec Util Serde Trie Storage Types Lookups HonestTrace LookupMain UpdateAssign UpdateSound
  HonestSpec HonestMain HonestCase TestCircuit TestProofs TestCase.
Import ListNotations.
Open Scope Z_scope.

(** * C58 *)
(* honest updates: with 30 rows more than n_rows_required nothing panics, not even the check of the hashes when they are loaded *)
Theorem C58_honest_runs : forall H us proofs m par threads n r, Forall (honest_update H) us -> Forall2 (fun u p => proof_from H (u_kind u) (u_trace u) = Some p) us proofs ->
  mpt_n_rows_required H proofs = Some m -> (0 < threads)%nat -> m + 30 <= n -> exists ws, test_circuit H par threads (map input us) n r = Some ws.
Proof. exact test_honest_runs. Qed.
(* and every gate and lookup is satisfied, if the hashes fit into the usable rows *)
Theorem C58_honest_accepted : forall H us proofs hashes m par threads n r ws N u, Forall (honest_update H) us ->
  Forall2 (fun u p => proof_from H (u_kind u) (u_trace u) = Some p) us proofs -> mpt_n_rows_required H proofs = Some m -> hash_traces H proofs = Some hashes ->
  (0 < threads)%nat -> test_circuit H par threads (map input us) n r = Some ws ->
  m <= n -> Z.of_nat (length hashes) < u -> n <= u <= N -> n < N < 2 ^ 64 -> sat (env_of N u r ws) (circuit_of (circuit H)).
Proof. exact test_honest_accepted. Qed.
(* any traces: if the table is accepted, it is one that the soundness theorems (C15-C25, C49-C52, C55, C56) speak about; in particular
   its Poseidon table holds only true hashes *)
Theorem C58_accepted_is_sound : forall H par threads traces n r ws N u, test_circuit H par threads traces n r = Some ws -> (0 < threads)%nat ->
  2049 <= n <= u -> u <= N -> N < 2 ^ 64 -> sat (env_of N u r ws) (circuit_of (circuit H)) -> circuit_ok H (env_of N u r ws) n.
Proof. exact test_ok. Qed.
(* the fixed columns (the verification key) do not depend on traces, hash function, mode, threads and challenge as long as at most 200 hashes
   are loaded; with more they depend on the number of hashes *)
Theorem C58_fixed_columns : forall H H' par par' threads threads' l l' n r r' ws ws' proofs proofs' hashes hashes',
  test_circuit H par threads l n r = Some ws -> test_circuit H' par' threads' l' n r' = Some ws' -> (0 < threads)%nat -> (0 < threads')%nat ->
  all_some (fun t => proof_from H (fst t) (snd t)) l = Some proofs -> all_some (fun t => proof_from H' (fst t) (snd t)) l' = Some proofs' ->
  hash_traces H proofs = Some hashes -> hash_traces H' proofs' = Some hashes' ->
  (forall c i, cell ws (Fx c) i = cell ws' (Fx c) i) <-> Nat.max 200 (length hashes) = Nat.max 200 (length hashes').
Proof. exact test_fixed. Qed.
Theorem C58_fixed_columns_refuted : exists us us' par threads n r ws ws', Forall (honest_update mix) us /\ Forall (honest_update mix) us' /\ (0 < threads)%nat /\
  test_circuit mix par threads (map input us) n r = Some ws /\ test_circuit mix par threads (map input us') n r = Some ws' /\ ~ (forall c i, cell ws (Fx c) i = cell ws' (Fx c) i).
Proof. exact fixed_depend. Qed.
(* the circuit returned by without_witnesses cannot be synthesized *)
Theorem C58_without_witnesses_panics : forall H par threads r, without_witnesses H par threads r = None.
Proof. exact default_panics. Qed.
Example C58_case : forall r, exists proofs ws hashes, Forall (honest_update mix) us /\ length us = 13%nat /\ Forall2 (fun u p => proof_from mix (u_kind u) (u_trace u) = Some p) us proofs /\
  mpt_n_rows_required mix proofs = Some 2050 /\ hash_traces mix proofs = Some hashes /\ Z.of_nat (length hashes) < 4090 /\
  test_circuit mix true 4 (map input us) 2080 r = Some ws /\ circuit_ok mix (env_of 4096 4090 r ws) 2080.
Proof. exact test_case. Qed.

Print Assumptions C58_honest_runs.
Print Assumptions C58_honest_accepted.
Print Assumptions C58_accepted_is_sound.
Print Assumptions C58_fixed_columns.
Print Assumptions C58_fixed_columns_refuted.
Print Assumptions C58_without_witnesses_panics.
