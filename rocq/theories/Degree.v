(* Degrees of the constraint system.  Lemmas for PropsDegree.v; the specification is DegreeSpec.v. *)
From Coq Require Import ZArith String List Lia.
From Verif Require Import Pocklington Fr Query Builder BuilderProofs Gadgets MptUpdate GadgetMain DegreeSpec.
Import ListNotations.
Open Scope nat_scope.

(** * Polynomials *)
Fixpoint padd (a b : list Fr) : list Fr := match a, b with [], _ => b | _, [] => a | x :: a', y :: b' => (x + y)%fr :: padd a' b' end.
Definition pscale (c : Fr) (a : list Fr) : list Fr := map (fun x => (c * x)%fr) a.
Fixpoint pmul (a b : list Fr) : list Fr := match a with [] => [] | x :: a' => padd (pscale x b) (f0 :: pmul a' b) end.
Lemma poly_padd a b t : poly (padd a b) t = (poly a t + poly b t)%fr.
Proof. revert b. induction a as [|x a IH]; intros [|y b]; cbn [padd poly]; try ring. rewrite IH. ring. Qed.
Lemma poly_pscale c a t : poly (pscale c a) t = (c * poly a t)%fr.
Proof. unfold pscale. induction a as [|x a IH]; cbn [map poly]; [ring|]. rewrite IH. ring. Qed.
Lemma poly_pmul a b t : poly (pmul a b) t = (poly a t * poly b t)%fr.
Proof. induction a as [|x a IH]; cbn [pmul poly]; [ring|]. rewrite poly_padd, poly_pscale. cbn [poly]. rewrite IH. ring. Qed.
Lemma padd_length a b : List.length (padd a b) = Nat.max (List.length a) (List.length b).
Proof. revert b. induction a as [|x a IH]; intros [|y b]; cbn [padd List.length]; try lia. rewrite IH. lia. Qed.
Lemma pmul_length a b : 1 <= List.length b -> List.length (pmul a b) <= List.length a + List.length b - 1.
Proof. intros L. induction a as [|x a IH]; cbn [pmul List.length]; [lia|]. rewrite padd_length. unfold pscale. rewrite map_length. cbn [List.length]. lia. Qed.
Theorem degree_means e e' i q : exists p, List.length p <= degree q + 1 /\ 1 <= List.length p /\ forall t, eval (on_line e e' t) i q = poly p t.
Proof.
  induction q as [c|c r|c r| |q (p & L & L1 & E)|a (p & L & L1 & E) b (p' & L' & L1' & E')|a (p & L & L1 & E) b (p' & L' & L1' & E')]; cbn [degree eval].
  - exists [c]. cbn [List.length]. split; [lia|split; [lia|]]. intros t. cbn [poly]. ring.
  - exists [eadv e c ((i + r) mod eN e)%Z; (eadv e' c ((i + r) mod eN e)%Z - eadv e c ((i + r) mod eN e)%Z)%fr]. cbn [List.length]. split; [lia|split; [lia|]]. intros t. cbn [poly on_line eadv eN]. ring.
  - exists [efix e c ((i + r) mod eN e)%Z; (efix e' c ((i + r) mod eN e)%Z - efix e c ((i + r) mod eN e)%Z)%fr]. cbn [List.length]. split; [lia|split; [lia|]]. intros t. cbn [poly on_line efix eN]. ring.
  - exists [echal e]. cbn [List.length]. split; [lia|split; [lia|]]. intros t. cbn [poly on_line echal]. ring.
  - exists (pscale (0 - f1)%fr p). unfold pscale. rewrite map_length. split; [lia|split; [lia|]]. intros t. fold (pscale (0 - f1)%fr p). rewrite poly_pscale, E. ring.
  - exists (padd p p'). rewrite padd_length. split; [lia|split; [lia|]]. intros t. rewrite poly_padd, E, E'. reflexivity.
  - exists (pmul p p'). pose proof (pmul_length p p' L1'). split; [lia|]. split.
    + destruct p as [|x p]; [cbn in L1; lia|]. cbn [pmul]. rewrite padd_length. cbn [List.length]. lia.
    + intros t. rewrite poly_pmul, E, E'. reflexivity.
Qed.

(** * Nested conditions *)
Definition total (l : list nat) : nat := fold_right Nat.add 0 l.
Lemma fold_degree cs q : degree (fold_left band cs q) = degree q + total (map degree cs).
Proof. revert q. induction cs as [|c cs IH]; intros q; cbn [fold_left map total fold_right]; [lia|]. rewrite IH. cbn [band degree]. unfold total. lia. Qed.
Lemma conjunction_degree cs : degree (conjunction cs) = total (map degree cs).
Proof. unfold conjunction. rewrite fold_degree. reflexivity. Qed.
(* a constraint added below any nesting of conditions *)
Fixpoint nested (cs : list query) (c : cmd) : cmd := match cs with [] => c | q :: r => Condition q (nested r c) end.
Lemma nested_run cs c b : (forall b, exists g l, run c b = mkBuilder (constraints b ++ g) (lookups b ++ l) (conditions b)) ->
  run (nested cs c) b = mkBuilder (constraints (run c (mkBuilder (constraints b) (lookups b) (conditions b ++ cs)))) (lookups (run c (mkBuilder (constraints b) (lookups b) (conditions b ++ cs)))) (conditions b).
Proof.
  intros R. revert b. induction cs as [|q cs IH]; intros b; cbn [nested run].
  - destruct b as [g l k]. cbn [constraints lookups conditions]. rewrite app_nil_r. destruct (R (mkBuilder g l k)) as (g' & l' & ->). reflexivity.
  - rewrite IH. unfold push_condition, pop_condition. cbn [constraints lookups conditions]. rewrite removelast_last, <- app_assoc. reflexivity.
Qed.
Theorem nested_constraint_degree cs name q b : exists g, run (nested cs (AssertZero name q)) b = mkBuilder (constraints b ++ [(name, g)]) (lookups b) (conditions b) /\
  degree g = total (map degree (conditions b)) + total (map degree cs) + degree q.
Proof.
  rewrite nested_run by (intros b'; exists [(name, bcondition (conjunction (conditions b')) q)], []; cbn [run]; unfold push_constraint; rewrite app_nil_r; reflexivity).
  cbn [run]. unfold push_constraint. cbn [constraints lookups conditions]. eexists. split; [reflexivity|]. unfold bcondition. cbn [degree]. rewrite conjunction_degree, map_app.
  unfold total. rewrite fold_right_app. f_equal. generalize (fold_right Nat.add 0 (map degree cs)). intros n. induction (map degree (conditions b)); cbn [fold_right]; lia.
Qed.

(** * The complete circuit *)
Theorem degree_nine H : circuit_degree (circuit_of (circuit H)) = 9.
Proof. lazy. reflexivity. Qed.
