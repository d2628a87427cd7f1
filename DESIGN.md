# Formal model of scroll-tech/mpt-circuit in Rocq (Coq 8.16.1)

## Approach

The circuit is modelled as data: a deep embedding of `Query`, of the calls made on
`ConstraintBuilder` (a small command language `cmd` whose interpreter `run` follows
`constraint_builder.rs`), and one Gallina function per Rust `configure` function that returns the
commands the Rust function performs.  A witness is an *environment* (`env`): a value in the scalar
field for every advice and fixed cell, the challenge, the number of rows and of usable rows.  "The
circuit is satisfied" (`sat`) is PLONK satisfaction: every gate is 0 on every row (rotations wrap
around), and for every lookup and every usable row there is a usable table row with the same
evaluated tuple.  Fixed columns are those written by the modelled `assign` code (C27 shows that these
do not depend on the proofs); advice cells are arbitrary (an adversarial prover).  Poseidon is an
arbitrary function `H : F -> F -> F -> F` (left, right, domain); the Poseidon table, which belongs to
another circuit, is assumed to hold only correct hashes in the rows that can match.

The scalar field is Z mod r (bn256 Fr) as a subset type with decidable (Leibniz) equality; r is proved
prime with a Pocklington certificate.

Assignment is modelled as lists of cell writes, or `None` for a panic (assertion failure, `unwrap` on
`None`, index out of bounds, `unreachable!`); both assignment modes (sequential and parallel with any
number of threads) are modelled, and the region layout of halo2 as far as it determines absolute rows.
The phase in which a column is allocated (before or after the challenge) is modelled in `PhaseSpec.v`; phases other than
these two, and the generation of the challenge itself, are not.

Tries: `TrieSpec.v` gives a stand-alone definition of zktrie-style binary tries (empty / leaf / branch
with a domain determined by the shapes of the children), their root hash, lookup (`get`) and update
(`modify`).  `TableSpec.v` says what a row of the exposed table claims, `ChangeSpec.v` what an update
may change, `HonestSpec.v` what an honest update is, `HonestTrace.v` which trace the (external) zktrie
library writes for it.  Claims are stated against these.  Poseidon cannot be injective (pigeonhole), so
trie-level theorems assume collision-freeness only on the finite set of inputs that occur in the table
and in the tries at hand (`collision_free`).

## Files

* Mathematics: `Flt`, `Pocklington`, `Fr`, `Bytes`.
* Framework: `Query`, `Builder` (model), `BuilderProofs` (`den`: what a satisfied program enforces on a
  row; `todo`: what has to be shown to satisfy it).
* Gadgets: `Gadgets`, `MptUpdate` (model of all `configure` functions), `LagrangeProofs`,
  `GadgetProofs`, `CanonProofs`, `Fixed`, `GadgetMain*`, `GadgetDemo`; statements in `PropsGadgets`.
* Assignment: `Assign`, `UpdateAssign` (model), `Assign*`, `Mpt*`; statements in `PropsAssign`.
* Off-circuit code: `Util`, `Serde`, `Trie`, `Storage`, `Types`, `Lookups` (model), `*Proofs`,
  `LookupMain`, `UtilMain`, `ClaimSpec`; statements in `PropsUtil`, `PropsTrie`, `PropsTypes`,
  `PropsLookups`.
* Soundness: `UpdateRows` (one row), `UpdateWalk`, `UpdateAccount`, `UpdateSound`, `UpdateClaims`,
  `UpdateStorage`, `UpdateShape`, `UpdateProps`; statements in `PropsSound`.  Pairs of tries:
  `ChangeSpec`, `TwoTries`, `NewSide`, `NewAccount`, `NewClaims`, `NewStorage`, `NewSlots`, `NewProps`,
  `NewCase`; statements in `PropsNew`.
* Refutations (claims that are false and nevertheless accepted): `Edit`, `Freedom`, `Address`, `Free`,
  `RefuteCase`; statements in `PropsRefuted`.  Forged entries of the lookup tables: `Retable`, `ByteFree`,
  `CanonFree`, `TableFree`; statements in `PropsTables`.
* Completeness: `UpdateComplete`, `CircuitOk`, `RowView`, `BlockView`, `TablesOk`, `BlocksOk`,
  `PaddingOk`, `RowsOk`, `RowCells`, `BlockRows`, `Chain`, `UpperOk`, `LeafOk`, `StorageOk`,
  `TreeChain`, `Honest*`, `ClaimTable`; statements in `PropsComplete`.
* Interference: `Splice`, `SpliceCase`; statements in `PropsSplice`.
* `HonestCase`, `SoundCase`: a concrete table with 13 updates of six states with three or four accounts,
  under a concrete hash function, which meets the hypotheses of the soundness, completeness and
  interference theorems at once.
* Real data: `RealTraces` (generated by `tools/real_traces.py`), `Poseidon`, `RealCase`; statements in `PropsReal`.
* `Props*.v` contain only statements, closed by `exact`, with `Print Assumptions`, and the examples.

## Per-property plan

What each theorem covers is in MANIFEST.json.  `_refuted` theorems state, with a witness, that a
property does not hold of the code as it is; the corresponding `_partial` theorem states what does.

* C01-C05, C13, C14: from the denotation of the modelled `configure` under `sat`; C13 under the anchor of C06, refuted without it
  (`SlotFree.v`, `SlotCase.v`, `PropsSlot.v`).
* C06: false as written: `is_first` is enabled on row 0, where the selector is off, so nothing forces the
  first enabled row to start a byte string; proved under that anchor, which `assign` establishes; without it any
  entry can be forged (`_refuted`).
* C07, C10, C12: model of `assign` as cell writes, induction on the lists.
* C08, C11: hold exactly for n_rows = 1 mod 32 (`_iff_`): otherwise the rows after the last complete group, or its
  last row, are not constrained enough; what still holds is in the `_partial` theorems.
* C09: proved for all n_rows.
* C15, C25, C47: invariants over the rows of the update gadget.
* C16-C20, C22: proved for accounts (slots) that exist in the old trie; false for absent ones, because the
  key of the leaf is not tied to the claimed key (C16-C20, C22), and because the value of an inserted and
  of a deleted slot is not tied to the leaf (C22): `_not_bound` theorems for every accepted table, and
  `_refuted` theorems with a concrete table.
* C21, C23: proved in full, under the anchor of C06 and where the key-bit table is reliable; both refuted without the
  anchor, C21 also for numbers of rows divisible by 32.
* C24: no deletion rows on account segments, no AccountDestructed claim, and the addressed account
  survives in every new trie.
* C26, C27, C28: region layout and chunks as writes.  `FullTable.v`, `PropsFull.v`: the updates leave no padding row (C26).
* C29, C30, C48: completeness of the modelled assignment.
* C31-C36: induction over node lists / proof lists.
* C37: exact characterisation of the modelled conversion.
* C38, C39, C44-C46: arithmetic; C39's bound on agreeing challenges by counting roots.
* C40-C43: induction over strings/lists.
* C49, C50, C51: the old and the new trie walked down side by side; forged tables (`Forge.v`: a satisfying assignment for every
  well-chained list of rows) for the cases where the claims are false.
* C52: induction over histories (`HistorySpec.v`): sequences of updates from accepted tables with matching states; each step by
  C49, C50 and C24.
* C53: the checks of the modelled conversion, read off level by level (`TraceSpec.v`: consistency stated on the trace's fields);
  what is not checked is shown by rewriting an arbitrary accepted trace.
* C54: the writes of the modelled assignment under two challenges, compared cell by cell (`PhaseSpec.v`: the phase of each column).
* C55: a false claim needs two different words with the same RLC under the challenge, from a list fixed before the challenge
  (roots in the table, slots hashed in the Poseidon table, values in the states); each pair agrees for at most 31 challenges (C39).
* C56: induction over the chain of claims (`BlockSpec.v`: what a claim does to a state); each step by the row-level soundness
  theorems plus where in the table a new word comes from (a Poseidon row or a new_hash cell, both committed), so that the new
  value is fixed by numbers and the next state is known.
* C57: the parallel mode with its tasks' writes interleaved in any way (`ScheduleSpec.v`); a task writes only in the rows reserved
  for it, so the writes to one cell come from one task and an interleaving keeps their order.
* C58: `circuit.rs` and the Poseidon table of the tests, written cell by cell (`TestCircuit.v`); C30 discharges its hypotheses, and an
  accepted table meets the hypotheses of the soundness theorems.
* C59: soundness of blocks (C56, with the roots in between) and completeness (C30, C54, C58: the traces of a block are built from the
  claims) put together as an equivalence (`ExactSpec.v`, `Exact.v`); the few bad challenges disappear because the prover must answer
  all, or more than the bound.
* C60: the checks the tests run on converted proofs (`ProofCheck.v`); a passed check gives a Merkle opening by induction over the nodes
  (`CheckSpec.v`, `CheckProofs.v`), and honest proofs are followed through the check (`CheckHonest.v`).
* C61: a batch of proofs (`BatchSpec.v`): the helper tables are functions of the set of proofs because `sort_dedup` of lists with the same members
  agree; the row counts are monotone and subadditive; an exact condition for the success of the assignment (`C28_assigned_iff`) gives that of its parts.
* C62: the number strings of the traces (`SerdeSpec.v`): the parsers of `num_bigint` as used by `serde.rs` accept exactly the numerals, by induction over the string.
* C63: degrees as halo2 counts them (`DegreeSpec.v`); that of the complete circuit is computed by the kernel for an arbitrary hash function (the value 9 is
  the one `tests.rs` asserts of the Rust circuit, an independent check of the model), the other statements by induction over expressions and conditions.
* C64: `WrittenSpec.v` defines tries without superfluous nodes; in such tries, with all leaves in place, the list of changes of C50 and its
  analogue for storage are exactly the honest writes of `HonestSpec.v`, which leave no choice of the new trie (`Written.v`); the forgery of
  `ForgeBuried.v` and two honest ways to clear a slot (`WrittenCase.v`) show that the circuit does not enforce the absence of superfluous nodes.
* C65: proved under the assumptions of C21 (`Witness.v`): the rows of an absence proof keep one other key and look up its bits too, so the two keys share the
  path walked, and the leaf opened at its end is stored under its own key. Added because two seeded edits (other key may change inside a
  block, direction not looked up for the other key) broke no theorem.
  Creations and changed slots (`NewWitness.v`): the one-sided rows of an accepted update end in such a proof of absence, so the leaf that stood
  where a new account or slot is put, and the one that takes the place of a cleared slot, is another one's and stands on its own path.
* C66: proved (`Commit.v`), without assuming anything about the hash function: the conclusion is the property or a collision in an
  explicit finite list of hash inputs (`broken`). The domain numbers are pinned by a table of their own because an edit of a number,
  which all earlier theorems share with their specifications, broke none of them. For checked traces (continues C60): the old side
  when the account paths have one length, the new side when the new path is not shorter, paths whose nodes say that they are
  branches (the conversion also reads type 4, a leaf), sides that give account data and entries that are not 0.

## Findings (where the code falls short of a property)

* S1 leaf rows do not tie the leaf's key to the claimed key (C16-C20, C22 refuted for absent accounts).
* S2 the byte representation table is not anchored in its first row (C06); an existing account can be denied (C21), and the slot of a
  storage claim can be replaced by any other (C13, C22, C23).
* S3 canonical representation: rows after the last complete group of 32 (C08, C11); if the number of rows is a multiple of 32,
  an existing account can be denied (C21).
* S4 ExtensionNew rows check neither the position of the displaced leaf nor the domains (C50, C51).
* S5 a nonce or balance claim 0 -> 0 about an absent account may change the root (C51).
* S6 a storage claim may create an account, with arbitrary other fields (C22, C49).
* S7 an ExtensionNew leaf directly below the start row may replace the single leaf of another account (C24, C50).
* S8 `n_rows_required` is too small when the canonical representations dominate (C28); 30 more rows suffice.
* S10 the new value of a storage insertion and the old value of a deletion are unconstrained (C22).
* S12 trie rows can be built from paths of different lengths whose node types are inconsistent (C31).
* S13 the conversion of a trace does not compare the state roots, storage values below a branch, the last node of an account path or
  the inner nodes of a storage path with anything (C53); the circuit does.
* Trace conversion: the other fields of a created account are not checked (C37); `state_key` and the keys on
  extension rows are not compared with the claimed keys (C33, C34); `next_domain` is laxer than needed (C45).
* S14 `TestCircuit::without_witnesses` returns a circuit with no rows, whose synthesis panics; with more than 200 hashes the fixed
  columns of the test circuit depend on the witness (C58).
* S15 `Proof::check` panics on honest proofs that change the type of the branch at the top (an account created directly below it) or that
  concern a state without branches (as in src/traces/createNameRegistrator*.json: C60_real_batch_refuted); it accepts insertions whose old path does not lead to its leaf, and empty slots on another slot's path (C60).
* S16 the circuit does not ask for tries without superfluous nodes: a new account may be hung up too deep, and the node above a cleared slot
  may be removed or not, so one claim about one old state goes with several new roots (C64).
* S17 only the sequential mode checks that a padding row is left; the parallel mode, the default, goes on and fills in a table that no
  prover can use, unless the last update is a one-row claim whose table row equals the padding row (C26_without_padding,
  C26_without_padding_one_row; `n_rows_required` asks for enough rows).

## Trusted base

* Coq's kernel (including `vm_compute`).  `Print Assumptions` prints "Closed under the global context" for every
  theorem in the `Props*.v` files: no axioms, neither of the standard library nor of ours.
* The reading of the Rust code into Gallina; every definition cites the lines it models.
* The reading of halo2 (not part of /repo): PLONK satisfaction as above; unassigned cells are 0; regions are placed by
  the simple floor planner by the columns they touch, measured on a first pass whose writes are discarded
  (this matters for the absolute rows of the fixed columns); an `Assigned` fraction with denominator 0 is 0;
  lookups are checked on the usable rows only.
* Library functions used by the code (`num_bigint`, `ethers` types, `hex`, `itertools`, `ff` conversions, `Ord` of `Fr` by
  canonical value, `sort`/`dedup`) are modelled from their documentation.
* The Poseidon table is correct (`poseidon_ok`), and there are no collisions among the finitely many hash inputs at hand.

### Modelled

`constraint_builder.rs` and `constraint_builder/*`; all gadgets in `gadgets/*` (configure and assign);
`gadgets/mpt_update.rs` completely except its tests; `mpt.rs`; `mpt_table.rs` (proof types); `types.rs`, `types/trie.rs`,
`types/storage.rs` (including the checks compiled for tests only); `util.rs`; `serde.rs` (HexBytes, big integers, hex, row
grouping, the trace data types).

### Not modelled

The proof system and commitments; column allocation order; log output, timing, environment variables
(a Boolean parameter of the model); JSON tokenisation (serde_json) and `Debug` output; within a task of the parallel mode writes are atomic and ordered
(no memory model); `tests.rs`, benches and integration tests.

## Validation against the data of /repo

`PropsReal.v` runs the model on some traces of /repo/src/traces with the Poseidon hashes that occur in them.  The hashes are computed
by `tools/poseidon.py` and reproduce the roots, keys and leaf hashes in the traces; `Poseidon.v` defines the function in Coq.
To keep the build short only five traces and one hash are checked there.  Outside the build, with the same definitions and `vm_compute`:
* all 288 listed hashes are Poseidon hashes;
* all 19 traces, the 8 reversed storage updates and the 12 updates of the batch are converted with the roots of the trace as those of
  the claim, and the 27 pass `Proof::check` (the batch does not: S15);
* all 224 traces of /repo/benches/traces.json are converted and pass the check;
* for the 39 updates of /repo/src/traces, the rows that `assign` writes satisfy all 273 gates and all Poseidon lookups of `mpt_update.rs`.
These are tests of the model, not proofs about it.

## Mutation tests

`seeded/LOG.jsonl`: each line is an edit of the model that changes the behaviour as a realistic bug would, with the theorems
(or the lemma files that lead to them) that stop proving.
