(* Parallel assignment under an arbitrary scheduler: specification for C57.
   halo2's Layouter::assign_regions runs one task per region; the tasks run at the same time and each performs its writes in order.  A run is any
   interleaving of the tasks' writes.  The calls of assign_regions and assign_region follow one another (each waits for all its tasks).
   Panics: a task that panics makes assign_regions panic, whatever the others do ([None] in update_regions, kb_rows). *)
From Coq Require Import ZArith List Bool Lia.
From Verif Require Import Pocklington Fr Query Builder Gadgets MptUpdate Assign Util Serde Trie Storage Types Lookups UpdateAssign.
Import ListNotations.
Open Scope Z_scope.

(* [interleave ls out]: out is a merge of the lists ls that keeps the order within each of them *)
Inductive interleave {X} : list (list X) -> list X -> Prop :=
| il_done : forall ls, Forall (eq []) ls -> interleave ls []
| il_step : forall before x l after out, interleave (before ++ l :: after) out -> interleave (before ++ (x :: l) :: after) (x :: out).

(* the tasks of regions placed one after the other: as [place] (Assign.v), one list of writes per region *)
Fixpoint tasks (start : Z) (regions : list (Z * (Z -> list write))) : list (list write) :=
  match regions with
  | [] => []
  | (height, body) :: rest => body start :: tasks (start + height) rest
  end.
(* the rows reserved for each of them by the shape measured in its first pass *)
Fixpoint reserved (start : Z) (regions : list (Z * (Z -> list write))) : list (Z * Z) :=
  match regions with
  | [] => []
  | (height, _) :: rest => (start, start + height) :: reserved (start + height) rest
  end.
(* a task stays in its rows; two tasks never write the same cell *)
Definition stays_within (t : list write) (rows : Z * Z) : Prop := forall c i v, In (c, i, v) t -> fst rows <= i < snd rows.
Definition race_free (ts : list (list write)) : Prop := forall j k s t c i v w, nth_error ts j = Some s -> nth_error ts k = Some t ->
  In (c, i, v) s -> In (c, i, w) t -> j = k.

(* halo2 (fork with assign_regions) gives each task a sub-view of the table with just its reserved rows *)
Section Hash.
  Variable H : Fr -> Fr -> Fr -> Fr.
  (* the regions of the three parallel calls: mpt_update.rs:617-663, key_bit.rs:126-162, canonical_representation.rs:217-305 *)
  Definition key_bit_regions (threads : nat) (lookups : list (Fr * Z * bool)) : option (list (Z * (Z -> list write))) :=
    let k := chunk_size (length lookups) threads in
    if (k =? 0)%nat then None
    else match all_some kb_row lookups with Some rows => Some (kb_regions (firstn threads (chunks k rows))) | None => None end.
  Definition keys_regions (threads : nat) (r : Fr) (keys : list Fr) (n_rows : Z) : option (list (Z * (Z -> list write))) :=
    let num_values := Z.to_nat (n_rows / 32) in
    let k := chunk_size num_values threads in
    if (k =? 0)%nat then None
    else Some (canonical_regions r (firstn threads (chunks k (firstn num_values (keys ++ repeat f0 num_values))))).
  (* the padding rows, mpt.rs:128-143 *)
  Definition padding (proofs : list Proof) (n_rows : Z) : option (list write) :=
    let n_assigned := Z.of_nat (total_rows proofs) in
    if n_assigned =? 0 then Some (loop 1 (Z.to_nat (n_rows - 1)) (padding_row H))
    else if 1 + n_assigned <=? n_rows then Some (loop (1 + n_assigned) (Z.to_nat (n_rows - (1 + n_assigned))) (padding_row H)) else None.

  (* a run of MptCircuitConfig::assign in parallel mode (mpt.rs:114-254) that does not panic, with all its writes in the order in which they happen *)
  Definition parallel_run (threads : nat) (proofs : list Proof) (n_rows : Z) (r : Fr) (ws : list write) : Prop :=
    let keys := sort_dedup cmp_fr (mpt_update_keys H proofs) in
    exists reprs lookups update_rs bit_rs key_rs upd pad bits canon br,
      byte_representations proofs = Some reprs /\ key_bit_lookups H proofs = Some lookups /\
      1 <= n_rows / 32 /\ Z.of_nat (length keys) <= n_rows / 32 - 1 /\
      update_regions H true proofs r = Some update_rs /\ interleave (tasks 0 update_rs) upd /\
      padding proofs n_rows = Some pad /\
      key_bit_regions threads lookups = Some bit_rs /\ interleave (tasks 0 bit_rs) bits /\
      keys_regions threads r keys n_rows = Some key_rs /\ interleave (tasks 0 key_rs) canon /\
      byte_repr_assign r (re_u32s reprs) (re_u64s reprs) (re_u128s reprs) (re_frs reprs) = Some br /\
      ws = (upd ++ pad) ++ bits ++ canon ++ selector_writes n_rows ++ byte_bit_assign ++ br ++ final_row_write n_rows.
End Hash.
