(* Specification: tries without superfluous nodes. *)
From Coq Require Import List.
From Verif Require Import TrieSpec.

Fixpoint leaves {V} (t : tree V) : nat :=
  match t with Empty => 0 | Leaf _ _ => 1 | Node l r => leaves l + leaves r end.
(* every branch node has at least two leaves below it *)
Fixpoint compact {V} (t : tree V) : Prop :=
  match t with Node l r => 2 <= leaves l + leaves r /\ compact l /\ compact r | _ => True end.
