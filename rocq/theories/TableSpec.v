(* What a row of the MPT table means: a small specification on top of TrieSpec.v.  The seven values are
   (address, storage key RLC, kind, new root RLC, old root RLC, new value, old value), see
   /repo/src/gadgets/mpt_update.rs:80-105. *)
From Coq Require Import ZArith List Bool.
From Verif Require Import Pocklington Fr Query Gadgets Bytes TrieSpec.
Import ListNotations.
Open Scope Z_scope.

(* /repo/src/mpt_table.rs:9-28, in declaration order *)
Definition kind_number (p : MPTProofType) : Z :=
  match p with
  | NonceChanged => 0 | BalanceChanged => 1 | CodeHashExists => 2 | PoseidonCodeHashExists => 3 | CodeSizeExists => 4
  | AccountDoesNotExist => 5 | StorageChanged => 6 | StorageDoesNotExist => 7 | AccountDestructed => 8
  end.

Record statement := Statement {
  st_address : Z; st_slot_rlc : Fr; st_kind : MPTProofType; st_new_root : Fr; st_old_root : Fr; st_new_value : Fr; st_old_value : Fr }.
(* c is the RLC challenge; roots are exposed as the RLC of their 32 big-endian bytes *)
Definition encode (c : Fr) (s : statement) : list Fr :=
  [fz (st_address s); st_slot_rlc s; fz (kind_number (st_kind s)); root_rlc c (st_new_root s); root_rlc c (st_old_root s);
   st_new_value s; st_old_value s].
(* the rows of the table that claim nothing: rows inside an update, and the last enabled row *)
Definition blank_row : list Fr := [f0; f0; f0; f0; f0; f0; f0].
Definition final_row : list Fr := [f0; f0; fz 5; f0; f0; f0; f0].

(* the old and new value of a field as table values, and what setting the field means *)
Definition field_step (c : Fr) (p : MPTProofType) (a : account) (old new : Fr) (a' : account) : Prop :=
  match p with
  | NonceChanged => exists w, 0 <= w < 2 ^ 64 /\ old = fz (nonce a) /\ new = fz w /\ a' = set_nonce w a
  | CodeSizeExists => exists w, 0 <= w < 2 ^ 64 /\ old = fz (code_size a) /\ new = fz w /\ a' = set_code_size w a
  | BalanceChanged => exists w, 0 <= w < 2 ^ 248 /\ old = word_rlc c (balance a) /\ new = word_rlc c w /\ a' = set_balance w a
  | CodeHashExists => exists w, 0 <= w < 2 ^ 256 /\ old = word_rlc c (keccak_code_hash a) /\ new = word_rlc c w /\ a' = set_keccak w a
  | PoseidonCodeHashExists => old = poseidon_code_hash a /\ a' = set_poseidon new a
  | _ => False
  end.

Section Sound.
  Variable H : Fr -> Fr -> Fr -> Fr.
  Variable c : Fr.

  (* the account at the statement's address has the old value in the trie t, and changing the field to the new
     value gives a trie with the new root *)
  Definition account_field_updated (s : statement) (t : tree account) : Prop :=
    let K := addr_key H (st_address s) in
    forall a, get t 0 K = Some a ->
    exists a', field_step c (st_kind s) a (st_old_value s) (st_new_value s) a' /\
               state_root H (modify (fun _ => a') t 0 K) = st_new_root s.
  (* ... and an account that does not exist reads as 0 *)
  Definition absent_account_reads_zero (s : statement) (t : tree account) : Prop :=
    get t 0 (addr_key H (st_address s)) = None -> st_old_value s = f0.

  Definition account_absent (s : statement) (t : tree account) : Prop :=
    get t 0 (addr_key H (st_address s)) = None /\ st_old_value s = f0 /\ st_new_value s = f0 /\ st_new_root s = st_old_root s.

  (* the value of a slot in the trie; a missing account or slot reads as 0 *)
  Definition slot_value (t : tree account) (address slot : Z) : Z :=
    match get t 0 (addr_key H address) with
    | Some a => match get (storage a) 0 (slot_key H slot) with Some w => w | None => 0 end
    | None => 0
    end.
  Definition slot_absent (s : statement) (t : tree account) : Prop :=
    st_old_value s = f0 /\ st_new_value s = f0 /\ st_new_root s = st_old_root s /\
    (get t 0 (addr_key H (st_address s)) = None \/
     exists slot, word_ok slot /\ st_slot_rlc s = word_rlc c slot /\
       forall a, get t 0 (addr_key H (st_address s)) = Some a -> get (storage a) 0 (slot_key H slot) = None).
  (* an existing slot of an existing account has the old value and is set to the new one *)
  Definition slot_overwritten (s : statement) (t : tree account) (slot w w' : Z) : Prop :=
    let K := addr_key H (st_address s) in let sk := slot_key H slot in
    word_ok w' /\ st_old_value s = word_rlc c w /\ st_new_value s = word_rlc c w' /\
    state_root H (modify (fun a => set_storage (modify (fun _ => w') (storage a) 0 sk) a) t 0 K) = st_new_root s.
End Sound.

(** * The rows of one update, below its start row *)
Definition account_leaf_rows : list SegmentType := [AccountLeaf0; AccountLeaf1; AccountLeaf2; AccountLeaf3].
(* [update_rows p l]: l is a complete sequence of segments for an update of kind p *)
Definition update_rows (p : MPTProofType) (l : list SegmentType) : Prop :=
  exists d, match p with
  | NonceChanged | BalanceChanged | CodeSizeExists | CodeHashExists =>
      l = repeat AccountTrie d \/ l = repeat AccountTrie d ++ account_leaf_rows
  | PoseidonCodeHashExists => l = repeat AccountTrie d ++ [AccountLeaf0; AccountLeaf1]
  | AccountDoesNotExist => l = repeat AccountTrie d
  | StorageChanged => exists d', l = repeat AccountTrie d ++ account_leaf_rows ++ repeat StorageTrie d' ++ [StorageLeaf0]
  | StorageDoesNotExist => l = repeat AccountTrie d \/ exists d', l = repeat AccountTrie d ++ account_leaf_rows ++ repeat StorageTrie d'
  | AccountDestructed => False
  end.
(* a path is shared by the old and the new trie, then belongs to at most one of them *)
Definition path_rows (l : list PathType) : Prop :=
  exists a b, l = repeat Common a ++ repeat ExtensionOld b \/ l = repeat Common a ++ repeat ExtensionNew b.
