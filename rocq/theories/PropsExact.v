(* Property C59: a block of claims can be shown exactly if it is true.  Only statements; proofs in Exact.v and ExactCase.v; the
   specification is ExactSpec.v on top of BlockSpec.v (claims, what they do to a state), HonestSpec.v (well-formed states),
   PhaseSpec.v (commitments), TrieSpec.v (tries) and TableSpec.v (rows).
   - claim_true H q t            what q reads is there, and its roots are those of t and of the state it leads to
   - throughout H P qs t         P holds of every claim and the state it is made in
   - commitment S N u e0         a table of N rows, u of them usable, whose Poseidon table has inputs in S only: what a prover who
                                 knows no collision fixes before the challenge
   - can_show H e0 n qs c        after the challenge c, e0 can be completed to an accepted table that shows all claims
   - exact_block H S n u N qs t  the claims are in range, chained and about what exists; t is well formed; S has no collisions and
                                 covers the states and the honest prover; the table is large enough *)
From Coq Require Import ZArith List Bool Lia.
From Verif Require Import Pocklington Fr Query BuilderProofs Gadgets Bytes TrieSpec TableSpec HonestSpec UpdateSound UpdateProps GadgetMain PhaseSpec HonestCase BlockSpec ExactSpec Exact ExactCase.
Import ListNotations.
Open Scope Z_scope.

(** * C59 *)
(* true blocks can be shown whatever the challenge is; only true blocks can *)
Theorem C59_shown_iff_true : forall H S n u N qs t, exact_block H S n u N qs t ->
  throughout H (claim_true H) qs t <-> exists e0, commitment S N u e0 /\ forall c, can_show H e0 n qs c.
Proof. exact block_exact. Qed.
(* it is enough to be able to answer a few of the challenges (the field has about 2^254) *)
Theorem C59_threshold : forall H S n u N qs t, exact_block H S n u N qs t ->
  throughout H (claim_true H) qs t <-> exists e0 cs, commitment S N u e0 /\ NoDup cs /\ (31 * Z.to_nat (3 * n + 2 * u) * length qs < length cs)%nat /\ forall c, In c cs -> can_show H e0 n qs c.
Proof. exact block_exact_threshold. Qed.
(* four claims -- a nonce changes from v to 8, a slot is overwritten, an account and a slot do not exist -- of which the first is true only for v = 1 *)
Example C59_case : forall v, 0 <= v < 2 ^ 64 -> exact_block mix case_set 2081 4090 4096 (four v) S0 /\ (throughout mix (claim_true mix) (four v) S0 <-> v = 1).
Proof. exact exact_case. Qed.

Print Assumptions C59_shown_iff_true. Print Assumptions C59_threshold. Print Assumptions C59_case.
