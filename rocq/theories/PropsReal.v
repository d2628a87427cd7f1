(* The model on real traces of /repo/src/traces.  Only statements; proofs in RealCase.v, data in RealTraces.v.
   [sample] is a list of five traces with the proof types under which the tests of /repo prove them, [real_creates] the batch
   createNameRegistratorPerTxsNotEnoughGas; [listed] gives the Poseidon hashes that occur in the traces and 0 for all other inputs;
   [proof_from] is the conversion of a trace and [proof_check] Proof::check ([None]: a panic). *)
From Coq Require Import ZArith List Bool.
From Verif Require Import Pocklington Fr Query Gadgets MptUpdate Bytes Util Serde Trie Storage Types ProofCheck RealTraces Poseidon RealCase.
Import ListNotations.
Open Scope Z_scope.

(* the conversion accepts the traces, the claims have their roots, and the consistency check passes *)
Example C37_C60_real_traces : Forall (fun x => exists p, proof_from listed (fst x) (snd x) = Some p /\ roots_match (snd x) (pf_claim p) /\ proof_check listed p = Some tt) sample.
Proof. exact real_converted. Qed.
(* in the batch, the only account is at the top of the state trie: the conversion accepts the trace but the check panics (see C60) *)
Example C60_real_batch_refuted : Forall (fun x => exists p, proof_from listed (fst x) (snd x) = Some p /\ roots_match (snd x) (pf_claim p) /\ proof_check listed p = None)
  (firstn 1 real_creates).
Proof. exact real_unchecked. Qed.
(* the first of the listed hashes, by the definition of Poseidon *)
Example C66_real_hash : Forall (fun x : Z * Z * Z * Z => let '(l, r, d, h) := x in poseidon_z l r d = h) (firstn 1 hashes).
Proof. exact real_hashes. Qed.
Print Assumptions C37_C60_real_traces. Print Assumptions C60_real_batch_refuted. Print Assumptions C66_real_hash.
