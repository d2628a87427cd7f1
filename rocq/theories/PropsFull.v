(* C26: the parallel mode without a padding row.  Only statements; proofs in FullTable.v and FullCase.v.
   [mpt_assign H par threads proofs n r] is MptCircuitConfig::assign in parallel or sequential mode, [None] a panic; [filled e r ws] says that the
   table e holds what it writes; [proof_n_rows] and [total_rows] are the rows used by an update and by all of them. *)
From Coq Require Import ZArith List Bool Lia.
From Verif Require Import Pocklington Fr Query Builder Gadgets GadgetMain GadgetMain2 MptUpdate Bytes Assign Util Serde Trie Storage Types Lookups HonestTrace LookupMain UpdateAssign MptModes MptRows MptCases
  TableSpec UtilProofs ClaimTable FullTable FullCase.
Import ListNotations.
Open Scope Z_scope.

(* the parallel mode accepts updates that leave no padding row: the sequential mode panics there, and what the parallel mode
   fills in, whatever the number of threads, cannot be proved if the last update has more than one row *)
Theorem C26_without_padding : forall H threads ps p n r, (0 < threads)%nat -> (exists kind trace, proof_from H kind trace = Some p) -> (2 <= proof_n_rows p)%nat ->
  1 + Z.of_nat (total_rows (ps ++ [p])) = n -> 2049 <= n ->
  mpt_assign H false threads (ps ++ [p]) n r = None /\
  forall ws e, mpt_assign H true threads (ps ++ [p]) n r = Some ws -> filled e r ws -> room e n -> ~ sat e (circuit_of (circuit H)).
Proof. intros H threads ps p n r T P R N L. split; [exact (sequential_fails H threads (ps ++ [p]) n r N T)|]. intros ws e E FL Rm. exact (no_padding H threads ps p n r ws e T P R N E FL Rm L). Qed.

(* 128 nonce changes and 128 storage changes in 2049 rows *)
Example C26_without_padding_case : exists ps p ws e, Forall (fun q => exists kind trace, proof_from toy kind trace = Some q) (ps ++ [p]) /\ (2 <= proof_n_rows p)%nat /\
  1 + Z.of_nat (total_rows (ps ++ [p])) = 2049 /\ mpt_assign toy true 4 (ps ++ [p]) 2049 (fz 5) = Some ws /\ filled e (fz 5) ws /\ room e 2049.
Proof. exact full_case. Qed.
Print Assumptions C26_without_padding.

(* if the last update has one row, what the parallel mode fills in cannot be proved either, unless the table row of its claim
   happens to be the one a padding row exposes ([claim_row], [encode] and [final_row] are those of C29) *)
Theorem C26_without_padding_one_row : forall H threads ps p n r ws e, (0 < threads)%nat -> Forall (fun q => exists kind trace, proof_from H kind trace = Some q) (ps ++ [p]) ->
  address_ok (c_address (pf_claim p)) -> proof_n_rows p = 1%nat -> 1 + Z.of_nat (total_rows (ps ++ [p])) = n -> mpt_assign H true threads (ps ++ [p]) n r = Some ws ->
  filled e r ws -> room e n -> 2049 <= n -> encode (echal e) (claim_row (echal e) (pf_claim p)) <> final_row -> ~ sat e (circuit_of (circuit H)).
Proof. exact one_row. Qed.

(* 2048 statements that account 77 is absent in 2049 rows *)
Example C26_without_padding_one_row_case : exists ps p ws e, Forall (fun q => exists kind trace, proof_from toy kind trace = Some q) (ps ++ [p]) /\ address_ok (c_address (pf_claim p)) /\
  proof_n_rows p = 1%nat /\ 1 + Z.of_nat (total_rows (ps ++ [p])) = 2049 /\ mpt_assign toy true 4 (ps ++ [p]) 2049 (fz 5) = Some ws /\ filled e (fz 5) ws /\ room e 2049 /\
  encode (echal e) (claim_row (echal e) (pf_claim p)) <> final_row.
Proof. exact full_case_one. Qed.
Print Assumptions C26_without_padding_one_row.
