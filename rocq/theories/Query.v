(* Model of /repo/src/constraint_builder/{query,binary_query,binary_column,column}.rs *)
From Coq Require Import ZArith String List.
From Verif Require Import Pocklington Fr.
Import ListNotations.
Open Scope Z_scope.

(* mpt_table.rs:9-28 *)
Inductive MPTProofType := NonceChanged | BalanceChanged | CodeHashExists | PoseidonCodeHashExists
  | CodeSizeExists | AccountDoesNotExist | StorageChanged | StorageDoesNotExist | AccountDestructed.
(* gadgets/mpt_update/segment.rs:7-16 *)
Inductive SegmentType := SegStart | AccountTrie | AccountLeaf0 | AccountLeaf1 | AccountLeaf2
  | AccountLeaf3 | StorageTrie | StorageLeaf0.
(* gadgets/mpt_update/path.rs:4-10 *)
Inductive PathType := PathStart | Common | ExtensionOld | ExtensionNew.

(* Advice columns of the complete circuit.  Simplification: halo2 numbers columns in allocation
   order; here every column the Rust `configure` functions allocate has a name of its own. *)
Inductive acol :=
(* byte_representation.rs:24-33: value, rlc, index, byte and index_is_zero.inverse_or_zero *)
| BR_value | BR_rlc | BR_index | BR_byte | BR_index_inv
(* canonical_representation.rs:27-42 *)
| CR_value | CR_byte | CR_rlc | CR_difference | CR_difference_inv | CR_zero_so_far
(* key_bit.rs:19-28 *)
| KB_value | KB_index | KB_bit | KB_index_div_8 | KB_index_mod_8 | KB_byte
(* mpt_update.rs:53-78 *)
| MU_domain | MU_old_hash | MU_new_hash | MU_old_value | MU_new_value | MU_storage_key_rlc
| MU_depth | MU_key | MU_other_key | MU_direction | MU_sibling
| MU_iv (i : nat)          (* intermediate_values[i], i < 10 *)
| MU_sp (i : nat)          (* second_phase_intermediate_values[i], i < 10 *)
| MU_zero_value (i : nat)  (* is_zero_gadgets[i].value, i < 4 *)
| MU_zero_inv (i : nat)    (* is_zero_gadgets[i].inverse_or_zero *)
| MU_proof (t : MPTProofType)  (* OneHot columns; the first variant's column is never used *)
| MU_seg (s : SegmentType)
| MU_path (p : PathType)
(* the poseidon table, gadgets/poseidon.rs:25-33, filled by another circuit *)
| P_hash | P_left | P_right | P_control | P_domain | P_head.

Inductive fcol :=
| SEL            (* mpt.rs:29 selector *)
| FINAL          (* mpt.rs:30 is_final_row *)
| BB_byte | BB_index | BB_bit           (* byte_bit.rs:6-10 *)
| BR_is_first                           (* byte_representation.rs:30 *)
| CR_index_is_zero | CR_index_is_31 | CR_index | CR_modulus_byte
| P_q_enable.

(* query.rs:9-18.  One challenge (the EVM word challenge) is used in the circuit. *)
Inductive query :=
| QConst (c : Fr)
| QAdvice (c : acol) (rot : Z)
| QFixed (c : fcol) (rot : Z)
| QChallenge
| QNeg (q : query)
| QAdd (a b : query)
| QMul (a b : query).

Declare Scope q_scope.
Delimit Scope q_scope with q.
Bind Scope q_scope with query.
(* query.rs:75-94: Add, Sub (= Add of Neg), Mul *)
Infix "+" := QAdd : q_scope.
Definition QSub a b := QAdd a (QNeg b).
Infix "-" := QSub : q_scope.
Infix "*" := QMul : q_scope.

(* query.rs:50-54 Query::from(u64) *)
Definition qz (z : Z) : query := QConst (fz z).
(* query.rs:21-27 *)
Definition qzero : query := qz 0.
Definition qone : query := qz 1.
(* query.rs:45-47 *)
Definition qsquare (q : query) : query := (q * q)%q.
(* query.rs:29-31 *)
Definition two_to_the_64th : query := qsquare (qz (2 ^ 32)).
(* query.rs:56-67 Query::from(Fr): the little-endian u64 limbs of the 32-byte representation, rfold.
   A right fold over the limb list is Rust's rfold. *)
Definition limbs64 (z : Z) : list Z :=
  [z mod 2 ^ 64; (z / 2 ^ 64) mod 2 ^ 64; (z / 2 ^ 128) mod 2 ^ 64; (z / 2 ^ 192) mod 2 ^ 64].
Definition q_of_fr (x : Fr) : query :=
  fold_right (fun limb result => (result * two_to_the_64th + qz limb)%q) qzero (limbs64 (val x)).

(* binary_query.rs: BinaryQuery is a newtype of Query; here it is the same type. *)
Definition bzero : query := qz 0.                                     (* binary_query.rs:14-16 *)
Definition bone : query := qz 1.                                      (* binary_query.rs:18-20 *)
Definition band (a b : query) : query := (a * b)%q.                   (* binary_query.rs:22-24 *)
Definition bnot (a : query) : query := (qone - a)%q.                  (* binary_query.rs:45-52 *)
Definition bor (a b : query) : query := bnot (band (bnot a) (bnot b)). (* binary_query.rs:26-28 *)
Definition bcondition (b q : query) : query := (b * q)%q.             (* binary_query.rs:30-32 *)
Definition bselect (b t f : query) : query := (t * b + f * bnot b)%q. (* binary_query.rs:34-36 *)

(* column.rs / binary_column.rs: current, previous, next, rotation *)
Definition cur (c : acol) : query := QAdvice c 0.
Definition prev (c : acol) : query := QAdvice c (-1).
Definition next (c : acol) : query := QAdvice c 1.
Definition rotation (c : acol) (r : Z) : query := QAdvice c r.
Definition fcur (c : fcol) : query := QFixed c 0.
Definition frot (c : fcol) (r : Z) : query := QFixed c r.

(* An assignment of the whole table: [eN] = 2^k rows of which the first [eusable] can take part in
   lookups (halo2 reserves the rest for blinding). *)
Record env := mkEnv {
  eN : Z; eusable : Z;
  eadv : acol -> Z -> Fr;
  efix : fcol -> Z -> Fr;
  echal : Fr }.

(* query.rs:33-43 run + halo2's evaluation of an Expression at row i (rotations wrap around) *)
Fixpoint eval (e : env) (i : Z) (q : query) : Fr :=
  match q with
  | QConst c => c
  | QAdvice c r => eadv e c ((i + r) mod eN e)
  | QFixed c r => efix e c ((i + r) mod eN e)
  | QChallenge => echal e
  | QNeg a => (0 - eval e i a)%fr
  | QAdd a b => (eval e i a + eval e i b)%fr
  | QMul a b => (eval e i a * eval e i b)%fr
  end.
