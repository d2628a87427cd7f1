(* Model of /repo/src/constraint_builder.rs.
   Rust `configure` functions receive `&mut ConstraintBuilder` and call assert_zero / condition /
   add_lookup / poseidon_lookup on it.  Here a configure function returns the command [cmd] it
   performs and [run] executes commands on the builder state. *)
From Coq Require Import ZArith String List.
From Verif Require Import Fr Query.
Import ListNotations.
Open Scope Z_scope.

(* constraint_builder.rs:18-24 *)
Record builder := mkBuilder {
  constraints : list (string * query);
  lookups : list (string * list (query * query));
  conditions : list query }.

(* 27-34; every_row is the selector column *)
Definition builder_new (every_row : fcol) : builder := mkBuilder [] [] [fcur every_row].

Inductive cmd :=
| Skip
| Seq (a b : cmd)
| AssertZero (name : string) (q : query)
| Condition (b : query) (body : cmd)
| AddLookup (name : string) (left right : list query)
| PoseidonLookup (name : string) (left right domain hash : query).

Declare Scope cmd_scope.
Delimit Scope cmd_scope with cmd.
Bind Scope cmd_scope with cmd.
Notation "a ;; b" := (Seq a b) (at level 95, right associativity) : cmd_scope.
Open Scope cmd_scope.

(* 51-53, 55-57, 59-61 *)
Definition assert_equal (name : string) (l r : query) : cmd := AssertZero name (l - r)%q.
Definition assert_ (name : string) (b : query) : cmd := AssertZero name (qone - b)%q.
Definition assert_unreachable (name : string) : cmd := assert_ name bzero.

(* `for x in xs { f(x) }` inside a configure function *)
Definition for_each {A} (xs : list A) (f : A -> cmd) : cmd :=
  fold_right (fun x acc => f x ;; acc) Skip xs.

(* 36-41; first().expect(..) cannot fail because builder_new pushes the selector and [run] pops only
   what it pushed (Builder proofs: run_conditions) *)
Definition every_row_selector (b : builder) : query := hd bone (conditions b).

(* 44-47, 74-77: iter().fold(one, and) *)
Definition conjunction (cs : list query) : query := fold_left band cs bone.

(* 43-49 *)
Definition push_constraint (b : builder) (name : string) (q : query) : builder :=
  mkBuilder (constraints b ++ [(name, bcondition (conjunction (conditions b)) q)])
            (lookups b) (conditions b).
(* 69-87 *)
Definition push_lookup (b : builder) (name : string) (left right : list query) : builder :=
  let c := conjunction (conditions b) in
  mkBuilder (constraints b)
    (lookups b ++ [(name, combine (map (fun q => (q * c)%q) left) right
                          ++ [(c, every_row_selector b)])])
    (conditions b).
(* poseidon.rs:86-99 lookup_columns and constraint_builder.rs:112-120 *)
Definition poseidon_table : list query :=
  [fcur P_q_enable; cur P_hash; cur P_left; cur P_right; cur P_control; cur P_domain; cur P_head].
(* 89-130 *)
Definition push_poseidon (b : builder) (name : string) (left right domain hash : query) : builder :=
  let c := conjunction (tl (conditions b)) in
  mkBuilder (constraints b)
    (lookups b ++ [(name, combine (map (fun q => (q * c)%q)
                             [qone; hash; left; right; qzero; domain; qone]) poseidon_table)])
    (conditions b).
(* 63-67: push, configure, pop *)
Definition push_condition (c : query) (b : builder) : builder :=
  mkBuilder (constraints b) (lookups b) (conditions b ++ [c]).
Definition pop_condition (b : builder) : builder :=
  mkBuilder (constraints b) (lookups b) (removelast (conditions b)).

Fixpoint run (c : cmd) (b : builder) : builder :=
  match c with
  | Skip => b
  | Seq x y => run y (run x b)
  | AssertZero n q => push_constraint b n q
  | Condition q body => pop_condition (run body (push_condition q b))
  | AddLookup n l r => push_lookup b n l r
  | PoseidonLookup n l r d h => push_poseidon b n l r d h
  end.

(* binary_column.rs:29-39 configure: constraint for a fresh binary column *)
Definition binary_column (c : acol) : cmd :=
  assert_ "binary column is 0 or 1" (bor (cur c) (bnot (cur c))).
(* constraint_builder.rs:156-161 *)
Definition binary_columns (cs : list acol) : cmd := for_each cs binary_column.

(* build (163-181) hands the queries to halo2: a gate must vanish on every row, and every usable row
   of a lookup must match some usable row of its table expressions. *)
Definition gate_sat (e : env) (q : query) : Prop :=
  forall i, 0 <= i < eN e -> eval e i q = f0.
Definition lookup_sat (e : env) (l : list (query * query)) : Prop :=
  forall i, 0 <= i < eusable e ->
  exists t, 0 <= t < eusable e /\ Forall (fun p => eval e i (fst p) = eval e t (snd p)) l.
Definition sat (e : env) (b : builder) : Prop :=
  Forall (fun g => gate_sat e (snd g)) (constraints b) /\
  Forall (fun l => lookup_sat e (snd l)) (lookups b).
