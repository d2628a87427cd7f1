(* Specification for C63: degrees of expressions and of a constraint system as halo2 counts them (Expression::degree,
   lookup::Argument::required_degree and ConstraintSystem::degree, which are not part of /repo; /repo/src/tests.rs:62-67 asserts the last). *)
From Coq Require Import ZArith String List.
From Verif Require Import Fr Query Builder.
Import ListNotations.
Open Scope nat_scope.

(* query.rs:33-43 turns constructors into those of Expression; cells count 1, constants and challenges 0 *)
Fixpoint degree (q : query) : nat :=
  match q with
  | QConst _ | QChallenge => 0
  | QAdvice _ _ | QFixed _ _ => 1
  | QNeg a => degree a
  | QAdd a b => Nat.max (degree a) (degree b)
  | QMul a b => degree a + degree b
  end.
Definition largest (l : list nat) : nat := fold_right Nat.max 0 l.
(* the lookup argument multiplies the compressed input by the compressed table, the product of the running sum and a selector of unblinded rows *)
Definition lookup_degree (l : list (query * query)) : nat :=
  Nat.max 4 (2 + Nat.max 1 (largest (map (fun p => degree (fst p)) l)) + Nat.max 1 (largest (map (fun p => degree (snd p)) l))).
(* the degree of the permutation argument is 3 *)
Definition circuit_degree (b : builder) : nat :=
  Nat.max 3 (Nat.max (largest (map (fun l => lookup_degree (snd l)) (lookups b))) (largest (map (fun g => degree (snd g)) (constraints b)))).

(* what the degree of an expression means: on the line through two tables the value is a polynomial of at most this degree *)
Definition on_line (e e' : env) (t : Fr) : env :=
  mkEnv (eN e) (eusable e) (fun c i => (eadv e c i + t * (eadv e' c i - eadv e c i))%fr) (fun c i => (efix e c i + t * (efix e' c i - efix e c i))%fr) (echal e).
Fixpoint poly (coefficients : list Fr) (t : Fr) : Fr := match coefficients with [] => f0 | c :: r => (c + t * poly r t)%fr end.
