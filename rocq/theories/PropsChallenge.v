(* Properties C54 and C55: what is fixed before the challenge is drawn.  Only statements; proofs in PhaseOk.v, Challenge.v and
   ChallengeCase.v; the specification is PhaseSpec.v on top of TrieSpec.v (tries), TableSpec.v (rows), ChangeSpec.v (changes) and
   HonestSpec.v (honest updates).
   - second_phase c      the column is allocated in the second phase, after the challenge
   - commits e0 e        e has the size, the fixed columns and the first-phase columns of e0
   - request             a claim in terms of an address, a slot, two roots and two values as numbers; requested c q is how the table
                         shows it under the challenge c
   - true_claim H q t t' the claim holds of the states t and t'
   - fooled H e0 n q t t' c  under the challenge c, e0 can be completed to an accepted table that shows q, the states t and t'
                         have the claimed roots and the claim is not true of them *)
From Coq Require Import ZArith List Bool Lia.
From Verif Require Import Pocklington Fr Query Builder Gadgets GadgetMain MptUpdate Bytes Assign TrieSpec Util Serde Types Lookups HonestTrace UpdateAssign MptModes MptCases TablesOk
  UpdateSound UpdateProps TableSpec ChangeSpec NewProps HonestSpec HonestMain HonestCase PhaseSpec PhaseOk Challenge ChallengeCase.
Import ListNotations.
Open Scope Z_scope.

(** * C54 *)
(* whether the assignment panics, which cells it writes and what it writes into first-phase and fixed columns does not depend on
   the challenge *)
Theorem C54_first_phase_fixed : forall H par threads proofs n r r',
  match mpt_assign H par threads proofs n r, mpt_assign H par threads proofs n r' with
  | Some ws, Some ws' => map fst ws = map fst ws' /\
      (forall c i, second_phase c = false -> cell ws (A c) i = cell ws' (A c) i) /\ (forall c i, cell ws (Fx c) i = cell ws' (Fx c) i)
  | None, None => True
  | _, _ => False
  end.
Proof. exact first_phase_fixed. Qed.
(* so honest updates are accepted whatever the challenge turns out to be *)
Theorem C54_honest_any_challenge : forall H us proofs par threads n r ws e0 traces,
  Forall (honest_update H) us -> Forall2 (fun u p => proof_from H (u_kind u) (u_trace u) = Some p) us proofs ->
  (0 < threads)%nat -> mpt_assign H par threads proofs n r = Some ws -> filled e0 r ws -> room e0 n -> enough_rows H proofs n ->
  hash_traces H proofs = Some traces -> poseidon_listed e0 traces ->
  forall c, exists e, commits e0 e /\ echal e = c /\ sat e (circuit_of (circuit H)) /\ forall u, In u us -> exists s, says H c u s /\ exposes e (encode c s).
Proof. exact honest_any_challenge. Qed.
Example C54_case : forall r, exists proofs ws e0 traces, Forall (honest_update mix) us /\ length us = 13%nat /\
  Forall2 (fun u p => proof_from mix (u_kind u) (u_trace u) = Some p) us proofs /\ enough_rows mix proofs 2080 /\ mpt_assign mix true 4 proofs 2080 r = Some ws /\
  filled e0 r ws /\ room e0 2080 /\ hash_traces mix proofs = Some traces /\ poseidon_listed e0 traces /\ sat e0 (circuit_of (circuit mix)).
Proof. exact honest_case. Qed.

Print Assumptions C54_first_phase_fixed. Print Assumptions C54_honest_any_challenge. Print Assumptions C54_case.

(** * C55 *)
(* A list of claims and states, a committed table: of any set of challenges under which the prover gets one of the claims accepted
   although it is false, the size is bounded (the field has about 2^254 elements). *)
Theorem C55_few_lucky_challenges : forall H e0 n (claims : list (request * (tree account * tree account))), Forall (fun x => request_ok (fst x)) claims ->
  forall cs, NoDup cs -> (forall c, In c cs -> exists q t t', In (q, (t, t')) claims /\ fooled H e0 n q t t' c) ->
  (length cs <= 31 * Z.to_nat (2 * n + eusable e0) * length claims)%nat.
Proof. exact few_lucky_challenges. Qed.
(* the same the other way round: all but a few challenges leave the prover no way to show one of the claims unless it is true *)
Theorem C55_few_bad_challenges : forall H e0 n (claims : list (request * (tree account * tree account))), Forall (fun x => request_ok (fst x)) claims ->
  exists bad : list Fr, (length bad <= 31 * Z.to_nat (2 * n + eusable e0) * length claims)%nat /\
  forall e, commits e0 e -> circuit_ok H e n -> ~ In (echal e) bad -> forall q t t', In (q, (t, t')) claims ->
  let s := requested (echal e) q in exposes e (encode (echal e) s) -> encode (echal e) s <> blank_row -> encode (echal e) s <> final_row -> tries_of H e n s t t' -> true_claim H q t t'.
Proof. exact few_bad_challenges. Qed.
(* the challenge 256, under which the balance 3 can be shown as 3 plus the modulus *)
Example C55_case : exists e, Forall (fun x => request_ok (fst x)) [(false_balance, (S1, S1))] /\ NoDup [fz 256] /\
  (forall c, In c [fz 256] -> exists q t t', In (q, (t, t')) [(false_balance, (S1, S1))] /\ fooled mix e 2081 q t t' c).
Proof. exact lucky_example. Qed.

Print Assumptions C55_few_lucky_challenges. Print Assumptions C55_few_bad_challenges. Print Assumptions C55_case.
