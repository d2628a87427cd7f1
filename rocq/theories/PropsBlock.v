(* Property C56: a block of claims computes the state transition.  Only statements; proofs in Block.v and BlockCase.v; the
   specification is BlockSpec.v on top of PhaseSpec.v (requests, commitments), TrieSpec.v (tries) and TableSpec.v (rows).
   - apply H q t, run H qs t       the state after the claim q, after the claims qs
   - overwrites H q t              q is about an account, or a slot, that exists in t
   - reads H q t                   what q says about the state t before it is true
   - chained r qs r'               the roots of the claims form a chain from r to r'
   - throughout H P qs t           P holds of every claim and the state it is made in
   - block_fooled H e0 n qs t r' c under the challenge c, e0 can be completed to an accepted table that shows all claims although
                                   one is false or r' is not the root of run H qs t *)
From Coq Require Import ZArith List Bool Lia.
From Verif Require Import Pocklington Fr Query BuilderProofs Gadgets Bytes TrieSpec TableSpec UpdateSound UpdateProps GadgetMain PhaseSpec HonestCase BlockSpec Block BlockCase.
Import ListNotations.
Open Scope Z_scope.

(** * C56 *)
(* Only the root of the state t before the block and the last root r' are given from outside; no state other than t is assumed to
   exist.  Once the first-phase columns are committed to, all but a few challenges (the field has about 2^254 elements) leave the
   prover no way to show a block whose reads are not all true or whose last root is not that of the state the block leads to. *)
Theorem C56_block_computes_transition : forall H e0 n qs t r',
  Forall request_ok qs -> start_state n t -> chained (state_root H t) qs r' -> throughout H (overwrites H) qs t ->
  (forall l1 q l2, qs = l1 ++ q :: l2 -> collision_free H (inputs H e0 (run H l1 t))) ->
  exists bad : list Fr, (length bad <= 31 * Z.to_nat (3 * n + 2 * eusable e0) * length qs)%nat /\
  forall e, commits e0 e -> circuit_ok H e n -> ~ In (echal e) bad ->
    Forall (fun q => let row := encode (echal e) (requested (echal e) q) in exposes e row /\ row <> blank_row /\ row <> final_row) qs ->
    throughout H (reads H) qs t /\ r' = state_root H (run H qs t).
Proof. exact few_bad_blocks. Qed.
(* a block of two claims for which there is such a table under every challenge *)
Example C56_case : exists e0, Forall request_ok two /\ start_state 2081 S0 /\ chained (state_root mix S0) two (state_root mix S2) /\
  throughout mix (overwrites mix) two S0 /\ (forall l1 q l2, two = l1 ++ q :: l2 -> collision_free mix (inputs mix e0 (run mix l1 S0))) /\
  forall c, exists e, commits e0 e /\ echal e = c /\ circuit_ok mix e 2081 /\
    Forall (fun q => let row := encode c (requested c q) in exposes e row /\ row <> blank_row /\ row <> final_row) two.
Proof. exact honest_block. Qed.
(* a block of three claims, of which the second is false, that is shown under the challenge 256: there are bad challenges *)
Example C56_case_bad : exists e, Forall request_ok three /\ start_state 2081 S0 /\ chained (state_root mix S0) three (state_root mix S2) /\
  throughout mix (overwrites mix) three S0 /\ (forall l1 q l2, three = l1 ++ q :: l2 -> collision_free mix (inputs mix e (run mix l1 S0))) /\
  NoDup [fz 256] /\ (forall c, In c [fz 256] -> block_fooled mix e 2081 three S0 (state_root mix S2) c).
Proof. exact block_example. Qed.

Print Assumptions C56_block_computes_transition. Print Assumptions C56_case. Print Assumptions C56_case_bad.
