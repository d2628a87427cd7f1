(* Properties C29, C30, C48: what is accepted and what the table then says.  Only statements; proofs in PaddingOk.v, HonestMain.v,
   HonestCase.v, ClaimTable.v; the specification is HonestSpec.v (honest updates, what they say), TableSpec.v and the first
   definitions of ClaimTable.v.
   [mpt_assign H par threads proofs n r] is MptCircuitConfig::assign in parallel or sequential mode, [None] a panic;
   [filled e r ws] says that the table e holds what it writes; [room e n] that e has n usable rows and more;
   [enough_rows H proofs n] that n is at least n_rows_required; [poseidon_listed e l] that the Poseidon table of e
   lists the hashes l and has a blank row; [proof_from H kind trace] is Proof::from, [None] a panic. *)
From Coq Require Import ZArith List Bool Lia.
From Verif Require Import Pocklington Fr Query Builder Gadgets GadgetMain GadgetMain2 MptUpdate Bytes Assign TrieSpec Util UtilProofs Serde Trie Storage Types Lookups HonestTrace LookupMain UpdateAssign MptModes MptRows MptCases TablesOk PaddingOk
  UpdateProps TableSpec HonestSpec HonestMain HonestCase ClaimTable.
Import ListNotations.
Open Scope Z_scope.

(** * C29 *)
Theorem C29_padding_assigned : forall H par th n r, (0 < th)%nat -> enough_rows H [] n -> exists ws, mpt_assign H par th [] n r = Some ws.
Proof. exact padding_assigned. Qed.
Theorem C29_padding_satisfied : forall H par th n r ws e, (0 < th)%nat -> mpt_assign H par th [] n r = Some ws -> filled e r ws -> room e n -> enough_rows H [] n ->
  poseidon_listed e [((f0, f0), fdom DPair, H f0 f0 (fdom DPair))] -> sat e (circuit_of (circuit H)).
Proof. exact padding_sat. Qed.
Example C29_case : forall H r, exists ws e, mpt_assign H true 4 [] 2050 r = Some ws /\ filled e r ws /\ room e 2050 /\ enough_rows H [] 2050 /\
  poseidon_listed e [((f0, f0), fdom DPair, H f0 f0 (fdom DPair))] /\ sat e (circuit_of (circuit H)).
Proof. exact padding_case. Qed.

Print Assumptions C29_padding_assigned. Print Assumptions C29_padding_satisfied. Print Assumptions C29_case.

(** * C30 *)
(* the conversion of an honest update does not panic *)
Theorem C30_converted : forall H us, Forall (honest_update H) us -> exists proofs, Forall2 (fun u p => proof_from H (u_kind u) (u_trace u) = Some p) us proofs.
Proof. exact updates_converted. Qed.
(* neither does the assignment, if there are 30 rows more than n_rows_required asks for (C28: without them it can) *)
Theorem C30_assigned : forall H us proofs, Forall (honest_update H) us -> Forall2 (fun u p => proof_from H (u_kind u) (u_trace u) = Some p) us proofs ->
  exists m, mpt_n_rows_required H proofs = Some m /\
    forall par threads n r, (0 < threads)%nat -> m + 30 <= n -> exists ws, mpt_assign H par threads proofs n r = Some ws.
Proof. exact honest_all_assigned. Qed.
(* the assigned table satisfies every gate and lookup *)
Theorem C30_accepted : forall H us proofs par threads n r ws e traces,
  Forall (honest_update H) us -> Forall2 (fun u p => proof_from H (u_kind u) (u_trace u) = Some p) us proofs ->
  (0 < threads)%nat -> mpt_assign H par threads proofs n r = Some ws -> filled e r ws -> room e n -> enough_rows H proofs n ->
  hash_traces H proofs = Some traces -> poseidon_listed e traces -> sat e (circuit_of (circuit H)).
Proof. exact honest_accepted. Qed.
(* hash_traces does not panic either *)
Theorem C30_hash_traces : forall H us proofs, Forall (honest_update H) us -> Forall2 (fun u p => proof_from H (u_kind u) (u_trace u) = Some p) us proofs ->
  exists traces, hash_traces H proofs = Some traces.
Proof. exact honest_hash_traces. Qed.
(* and the table says what the update did *)
Theorem C30_stated : forall H us proofs par threads n r ws e,
  Forall (honest_update H) us -> Forall2 (fun u p => proof_from H (u_kind u) (u_trace u) = Some p) us proofs ->
  (0 < threads)%nat -> mpt_assign H par threads proofs n r = Some ws -> filled e r ws -> room e n -> enough_rows H proofs n ->
  forall u, In u us -> exists s, says H (echal e) u s /\ exposes e (encode (echal e) s).
Proof. exact honest_stated. Qed.
(* ... and nothing else *)
Theorem C30_nothing_else : forall H us proofs par threads n r ws e,
  Forall (honest_update H) us -> Forall2 (fun u p => proof_from H (u_kind u) (u_trace u) = Some p) us proofs ->
  (0 < threads)%nat -> mpt_assign H par threads proofs n r = Some ws -> filled e r ws -> room e n -> enough_rows H proofs n ->
  forall row, exposes e row -> row <> blank_row -> row <> final_row -> exists u s, In u us /\ says H (echal e) u s /\ row = encode (echal e) s.
Proof. exact honest_only. Qed.
(* thirteen honest updates in one table *)
Example C30_case : forall r, exists proofs ws e traces, Forall (honest_update mix) us /\ length us = 13%nat /\
  Forall2 (fun u p => proof_from mix (u_kind u) (u_trace u) = Some p) us proofs /\ enough_rows mix proofs 2080 /\ mpt_assign mix true 4 proofs 2080 r = Some ws /\
  filled e r ws /\ room e 2080 /\ hash_traces mix proofs = Some traces /\ poseidon_listed e traces /\ sat e (circuit_of (circuit mix)).
Proof. exact honest_case. Qed.

Print Assumptions C30_converted. Print Assumptions C30_assigned. Print Assumptions C30_accepted. Print Assumptions C30_hash_traces. Print Assumptions C30_stated. Print Assumptions C30_nothing_else. Print Assumptions C30_case.

(** * C48 *)
Theorem C48_claims_exposed : forall H par threads proofs n r ws e,
  Forall (fun p => exists kind trace, proof_from H kind trace = Some p) proofs ->
  (0 < threads)%nat -> mpt_assign H par threads proofs n r = Some ws -> filled e r ws -> room e n -> enough_rows H proofs n ->
  forall p, In p proofs -> address_ok (c_address (pf_claim p)) -> exposes e (encode (echal e) (claim_row (echal e) (pf_claim p))).
Proof. exact (fun H par threads proofs n r ws e => @claims_exposed H par threads proofs n r ws e). Qed.
Theorem C48_only_claims : forall H par threads proofs n r ws e,
  Forall (fun p => exists kind trace, proof_from H kind trace = Some p) proofs ->
  (0 < threads)%nat -> mpt_assign H par threads proofs n r = Some ws -> filled e r ws -> room e n -> enough_rows H proofs n ->
  forall row, Forall (fun p => address_ok (c_address (pf_claim p))) proofs -> exposes e row ->
    row = blank_row \/ row = final_row \/ exists p, In p proofs /\ row = encode (echal e) (claim_row (echal e) (pf_claim p)).
Proof. exact (fun H par threads proofs n r ws e => @only_claims H par threads proofs n r ws e). Qed.
Example C48_case : forall r, exists proofs ws e, length proofs = 13%nat /\ Forall (fun p => exists kind trace, proof_from mix kind trace = Some p) proofs /\
  mpt_assign mix true 4 proofs 2080 r = Some ws /\ filled e r ws /\ room e 2080 /\ enough_rows mix proofs 2080 /\ Forall (fun p => address_ok (c_address (pf_claim p))) proofs.
Proof. exact table_case. Qed.

Print Assumptions C48_claims_exposed. Print Assumptions C48_only_claims. Print Assumptions C48_case.
