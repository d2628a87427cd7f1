(* A block of claims and the state transition it computes: a small specification on top of TrieSpec.v, TableSpec.v and PhaseSpec.v.
   Nothing here refers to the constraints or to the rows of the table. *)
From Coq Require Import ZArith List Bool.
From Verif Require Import Pocklington Fr Query BuilderProofs Gadgets Bytes TrieSpec TableSpec UpdateWalk UpdateSound UpdateProps GadgetMain PhaseSpec.
Import ListNotations.
Open Scope Z_scope.

(* what a claim does to the state *)
Definition apply (H : Fr -> Fr -> Fr -> Fr) (q : request) (t : tree account) : tree account :=
  let K := addr_key H (rq_address q) in
  match rq_kind q with
  | NonceChanged | BalanceChanged | CodeHashExists | CodeSizeExists | PoseidonCodeHashExists => modify (set_field (rq_kind q) (rq_new q)) t 0 K
  | StorageChanged => modify (fun a => set_storage (modify (fun _ => rq_new q) (storage a) 0 (slot_key H (rq_slot q))) a) t 0 K
  | AccountDoesNotExist | StorageDoesNotExist | AccountDestructed => t
  end.
Definition run (H : Fr -> Fr -> Fr -> Fr) (qs : list request) (t : tree account) : tree account := fold_left (fun t q => apply H q t) qs t.

(* the claim is about what exists: the account whose field is written, the slot that is overwritten (with something other than 0).
   Claims that create or delete are left out: what they may do to the trie is the subject of C24 and C49-C51 *)
Definition overwrites (H : Fr -> Fr -> Fr -> Fr) (q : request) (t : tree account) : Prop :=
  let K := addr_key H (rq_address q) in
  match rq_kind q with
  | NonceChanged | BalanceChanged | CodeHashExists | CodeSizeExists | PoseidonCodeHashExists => get t 0 K <> None
  | StorageChanged => rq_new q <> 0 /\ exists a, get t 0 K = Some a /\ get (storage a) 0 (slot_key H (rq_slot q)) <> None
  | AccountDoesNotExist | StorageDoesNotExist | AccountDestructed => True
  end.
(* what it says about the state before is true *)
Definition reads (H : Fr -> Fr -> Fr -> Fr) (q : request) (t : tree account) : Prop :=
  let K := addr_key H (rq_address q) in
  match rq_kind q with
  | NonceChanged | BalanceChanged | CodeHashExists | CodeSizeExists | PoseidonCodeHashExists => exists a, get t 0 K = Some a /\ field (rq_kind q) a = rq_old q
  | StorageChanged => exists a, get t 0 K = Some a /\ get (storage a) 0 (slot_key H (rq_slot q)) = Some (rq_old q)
  | StorageDoesNotExist => rq_old q = 0 /\ rq_new q = 0 /\ forall a, get t 0 K = Some a -> get (storage a) 0 (slot_key H (rq_slot q)) = None
  | AccountDoesNotExist => rq_old q = 0 /\ rq_new q = 0 /\ get t 0 K = None
  | AccountDestructed => False
  end.

(* each claim starts from the root the one before ended with; the last ends with r' *)
Fixpoint chained (r : Fr) (qs : list request) (r' : Fr) : Prop :=
  match qs with [] => r = r' | q :: l => rq_old_root q = r /\ chained (rq_new_root q) l r' end.
(* P holds of every claim and the state it is made in *)
Fixpoint throughout (H : Fr -> Fr -> Fr -> Fr) (P : request -> tree account -> Prop) (qs : list request) (t : tree account) : Prop :=
  match qs with [] => True | q :: l => P q t /\ throughout H P l (apply H q t) end.

(* the state the block starts from: values in range, paths not longer than the key-bit table is reliable for *)
Record start_state (n : Z) (t : tree account) : Prop := {
  bs_ok : tree_all account_ok t;
  bs_bits : bits_ok n (height t);
  bs_storage_bits : tree_all (fun a => bits_ok n (height (storage a))) t }.
(* under the challenge c the prover, committed to e0, can complete the table so that it is accepted and shows all claims, although
   one of them is false or the last root is not that of the state the claims lead to *)
Definition block_fooled (H : Fr -> Fr -> Fr -> Fr) (e0 : env) (n : Z) (qs : list request) (t : tree account) (r' : Fr) (c : Fr) : Prop :=
  exists e, commits e0 e /\ echal e = c /\ circuit_ok H e n /\
    Forall (fun q => let row := encode c (requested c q) in exposes e row /\ row <> blank_row /\ row <> final_row) qs /\
    ~ (throughout H (reads H) qs t /\ r' = state_root H (run H qs t)).
