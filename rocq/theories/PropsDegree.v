(* C63: degrees.  Only statements; proofs in Degree.v, specification in DegreeSpec.v.
   [circuit_of (circuit H)] holds the gates and lookups of the complete circuit, with Poseidon replaced by any function H. *)
From Coq Require Import ZArith String List.
From Verif Require Import Fr Query Builder Gadgets MptUpdate GadgetMain DegreeSpec Degree.
Import ListNotations.
Open Scope nat_scope.

Theorem C63_circuit_degree : forall H, circuit_degree (circuit_of (circuit H)) = 9.
Proof. exact degree_nine. Qed.
(* a constraint below any nesting of conditions: the degrees add up.  [nested [c1; ..; cn] body] is condition(c1, .. condition(cn, body)) *)
Theorem C63_nested_conditions : forall cs name q b, exists g, run (nested cs (AssertZero name q)) b = mkBuilder (constraints b ++ [(name, g)]) (lookups b) (conditions b) /\
  degree g = total (map degree (conditions b)) + total (map degree cs) + degree q.
Proof. exact nested_constraint_degree. Qed.
(* the counted degree bounds the real one *)
Theorem C63_degree_bounds_the_polynomial : forall e e' i q, exists p, List.length p <= degree q + 1 /\ 1 <= List.length p /\ forall t, eval (on_line e e' t) i q = poly p t.
Proof. exact degree_means. Qed.
Example C63_case : degree (qone - cur MU_depth * cur MU_key)%q = 2 /\
  map (fun g => degree (snd g)) (constraints (run (nested [cur MU_depth; bnot (cur MU_key)] (AssertZero "x" (cur MU_sibling * cur MU_sibling)%q)) (builder_new SEL))) = [5].
Proof. split; reflexivity. Qed.
Print Assumptions C63_circuit_degree. Print Assumptions C63_nested_conditions. Print Assumptions C63_degree_bounds_the_polynomial.
