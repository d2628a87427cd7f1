(* Specification for C61: batches of proofs. *)
From Coq Require Import ZArith List Permutation.
From Verif Require Import Types UpdateAssign MptModes.
Open Scope Z_scope.

(* the same proofs, in any order and any number of times *)
Definition same_members {X} (l m : list X) : Prop := forall x, In x l <-> In x m.
(* the batch qs consists of the proofs ps and some others, in any order *)
Definition part {X} (ps qs : list X) : Prop := exists rest, Permutation (ps ++ rest) qs.
(* the rows the updates need: the first row is unused, the sequential mode (par = false) wants one padding row
   (asserted in src/mpt.rs:150-154; the parallel mode, 125-145, pads what is left).  [total_rows] is the sum of the numbers of rows of the updates *)
Definition updates_fit (par : bool) (ps : list Proof) (n : Z) : Prop :=
  if par then total_rows ps = 0%nat \/ 1 + Z.of_nat (total_rows ps) <= n else 2 + Z.of_nat (total_rows ps) <= n.
