(* The circuit that the tests and benches run: circuit.rs and the Poseidon table of gadgets/poseidon.rs. *)
From Coq Require Import ZArith List Bool Lia.
From Verif Require Import Pocklington Fr Query Builder Gadgets MptUpdate Bytes Assign Util Serde Trie Storage Types Lookups UpdateAssign.
Import ListNotations.
Open Scope Z_scope.

(* gadgets/poseidon.rs:8-9 *)
Definition MAX_POSEIDON_ROWS : nat := 200.
Section Hash.
  Variable H : Fr -> Fr -> Fr -> Fr.
  (* poseidon.rs:64-74: the cells of one hash trace *)
  Definition poseidon_row (t : Trace) : row :=
    let '((l, r), d, h) := t in
    [(A P_left, l); (A P_right, r); (A P_hash, h); (A P_control, f0); (A P_domain, d); (A P_head, f1); (Fx P_q_enable, f1)].
  (* poseidon.rs:58-63: the assertion *)
  Definition trace_checked (t : Trace) : bool := let '((l, r), d, h) := t in feqb (H l r d) h.
  (* poseidon.rs:53-82; the region "load poseidon table" starts at row 0, because no other region uses these columns; [None]: the assertion fails *)
  Definition poseidon_load (traces : list Trace) : option (list write) :=
    _ <- oassert (forallb trace_checked traces);
    Some (emit 0 (map poseidon_row traces)
          ++ emit (Z.of_nat (length traces)) (repeat [(Fx P_q_enable, f1)] (MAX_POSEIDON_ROWS - length traces))).
  (* circuit.rs:18-23 TestCircuit::new and 41-55 synthesize.  par: PARALLEL_SYN; r: the challenge; [None]: a panic *)
  Definition test_circuit (par : bool) (threads : nat) (traces : list (MPTProofType * SMTTrace)) (n_rows : Z) (r : Fr) : option (list write) :=
    proofs <- all_some (fun t => proof_from H (fst t) (snd t)) traces;
    ws <- mpt_assign H par threads proofs n_rows r;
    hashes <- hash_traces H proofs;
    load <- poseidon_load hashes;
    Some (ws ++ load).
  (* circuit.rs:30-32: without_witnesses returns the default, no rows and no proofs *)
  Definition without_witnesses (par : bool) (threads : nat) (r : Fr) : option (list write) := test_circuit par threads [] 0 r.
End Hash.
