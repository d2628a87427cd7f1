(* Property C47: updates in one table do not interfere.  Only statements; proofs in Splice.v and SpliceCase.v; the specification is
   the first part of Splice.v (blocks of rows, the cells they hold) with [table_rows], and [consecutive].
   [sg e i = SegStart] says that row i of the table e is the start row of an update; [fixed_ok e n] that the fixed columns are
   those of a circuit with n rows; [sat e (circuit_of (circuit H))] that all gates and lookups hold; [table_row e i] is the row
   exposed to other circuits. *)
From Coq Require Import ZArith List Bool Lia Permutation.
From Verif Require Import Pocklington Fr Query Builder Gadgets GadgetMain MptUpdate Fixed UpdateRows Assign MptAssign UpdateProps TableSpec HonestCase Splice SpliceCase.
Import ListNotations.
Open Scope Z_scope.

(** * C47 *)
(* what a row exposes is determined by the update columns of that row alone *)
Theorem C47_entry_of_row : forall e k e' k', echal e' = echal e -> 0 <= k < eN e -> 0 <= k' < eN e' ->
  (forall c, update_column c = true -> eadv e' c k' = eadv e c k) -> table_row e' k' = table_row e k.
Proof. exact entry_of_row. Qed.
(* rows of updates from any accepted tables, in any order, can replace a stretch of updates of the accepted table e of equal length *)
Theorem C47_concatenated : forall H e e' n j bs,
  fixed_ok e n -> sat e (circuit_of (circuit H)) ->
  Forall (fun b => exists n', fixed_ok (b_table b) n' /\ sat (b_table b) (circuit_of (circuit H)) /\ starts_and_ends n' b /\ echal (b_table b) = echal e /\ tables_included (b_table b) e) bs ->
  1 <= j -> j + total bs < n -> sg e j = SegStart -> sg e (j + total bs) = SegStart ->
  same_except e e' j (total bs) -> holds_blocks e' j bs -> fixed_ok e' n /\ sat e' (circuit_of (circuit H)).
Proof. exact spliced. Qed.
(* the new table exposes what the blocks exposed where they came from, and is unchanged elsewhere *)
Theorem C47_same_claims : forall H e e' n j bs,
  fixed_ok e n ->
  Forall (fun b => exists n', fixed_ok (b_table b) n' /\ sat (b_table b) (circuit_of (circuit H)) /\ starts_and_ends n' b /\ echal (b_table b) = echal e /\ tables_included (b_table b) e) bs ->
  1 <= j -> j + total bs < n -> same_except e e' j (total bs) -> holds_blocks e' j bs ->
  table_rows e' j (total bs) = concat (map (fun b => table_rows (b_table b) (b_row b) (b_rows b)) bs).
Proof. exact says. Qed.
Theorem C47_other_claims : forall e e' j bs, same_except e e' j (total bs) ->
  forall k, 0 <= k < eN e -> k < j \/ j + total bs <= k -> table_row e' k = table_row e k.
Proof. exact says_outside. Qed.
(* such a table always exists *)
Theorem C47_exists : forall e j bs, Forall (fun b => 0 < b_rows b) bs -> exists e', same_except e e' j (total bs) /\ holds_blocks e' j bs.
Proof. exact (fun e j bs P => ex_intro _ (splice e j bs) (conj (splice_same e j bs P) (splice_holds e j bs P))). Qed.
(* in particular consecutive updates of one table can be put in any order *)
Theorem C47_reordered : forall H e e' n j bs bs',
  fixed_ok e n -> sat e (circuit_of (circuit H)) -> consecutive e n j bs -> bs <> [] -> Permutation bs bs' ->
  same_except e e' j (total bs) -> holds_blocks e' j bs' ->
  sat e' (circuit_of (circuit H)) /\ Permutation (table_rows e j (total bs)) (table_rows e' j (total bs)) /\
  forall k, 0 <= k < eN e -> k < j \/ j + total bs <= k -> table_row e' k = table_row e k.
Proof. exact reordered. Qed.
(* two blocks of the eight honest updates of HonestCase.v, swapped *)
Example C47_case : exists e e' j b1 b2, fixed_ok e 2080 /\ sat e (circuit_of (circuit mix)) /\ consecutive e 2080 j [b1; b2] /\
  same_except e e' j (total [b1; b2]) /\ holds_blocks e' j [b2; b1] /\
  table_row e (b_row b1) <> table_row e (b_row b2) /\ table_row e (b_row b1) <> blank_row /\ table_row e (b_row b2) <> blank_row.
Proof. exact splice_case. Qed.

Print Assumptions C47_entry_of_row. Print Assumptions C47_concatenated. Print Assumptions C47_same_claims. Print Assumptions C47_other_claims. Print Assumptions C47_exists. Print Assumptions C47_reordered. Print Assumptions C47_case.
