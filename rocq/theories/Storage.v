(* Model of /repo/src/types/storage.rs (check, 136-172, is compiled for tests only and in ProofCheck.v). *)
From Coq Require Import ZArith List Bool.
From Verif Require Import Pocklington Fr Query Gadgets MptUpdate Bytes Util Serde Trie.
Import ListNotations.
Open Scope Z_scope.

(* types/storage.rs:23-28; an Entry's value is non-zero *)
Inductive StorageLeaf :=
| SEmpty (mpt_key : Fr)
| SLeaf (mpt_key value_hash : Fr)
| SEntry (storage_key value : Z).
(* types/storage.rs:11-20 *)
Inductive StorageProof :=
| SRoot (root : Fr)
| SUpdate (storage_key : Z) (key : Fr) (trie_rows : TrieRows) (old_leaf new_leaf : StorageLeaf).

Section Hash.
  Variable H : Fr -> Fr -> Fr -> Fr.
  Notation domain_hash := (domain_hash H).

  (* types/storage.rs:177-196 *)
  Definition storage_leaf_new (mpt_key : Fr) (node : option SMTNode) (data : StateData) : option StorageLeaf :=
    value <- u256_from_hex (sd_value data);
    match node, value =? 0 with
    | None, true => Some (SEmpty mpt_key)
    | Some node, true =>
        k <- u256_from_hex (sd_key data);
        _ <- oassert (feqb mpt_key (storage_key_hash H k));
        kk <- fr (n_sibling node); v <- fr (n_value node); Some (SLeaf kk v)
    | Some _, false => k <- u256_from_hex (sd_key data); Some (SEntry k value)
    | None, false => None
    end.
  (* types/storage.rs:198-203 *)
  Definition sl_n_rows (l : StorageLeaf) : nat := match l with SEntry _ _ => 1 | _ => 0 end.
  (* types/storage.rs:205-210 *)
  Definition sl_storage_key (l : StorageLeaf) : option Z := match l with SEntry k _ => Some k | _ => None end.
  (* types/storage.rs:212-217 *)
  Definition sl_key (l : StorageLeaf) : Fr :=
    match l with SEmpty k => k | SLeaf k _ => k | SEntry k _ => storage_key_hash H k end.
  (* types/storage.rs:220-225 *)
  Definition sl_value (l : StorageLeaf) : Z := match l with SEntry _ v => v | _ => 0 end.
  (* types/storage.rs:227-233 *)
  Definition sl_value_high (l : StorageLeaf) : Fr := fr_from_u128 (fst (u256_hi_lo (sl_value l))).
  Definition sl_value_low (l : StorageLeaf) : Fr := fr_from_u128 (snd (u256_hi_lo (sl_value l))).
  (* types/storage.rs:235-244; None = unimplemented!() *)
  Definition sl_value_hash (l : StorageLeaf) : option Fr :=
    match l with
    | SEmpty _ => None
    | SLeaf _ v => Some v
    | SEntry _ v => let (high, low) := u256_hi_lo v in Some (domain_hash (fr_from_u128 high) (fr_from_u128 low) DPair)
    end.
  (* types/storage.rs:246-252 *)
  Definition sl_hash (l : StorageLeaf) : option Fr :=
    match l with SEmpty _ => Some f0 | _ => v <- sl_value_hash l; Some (domain_hash (sl_key l) v DLeaf) end.
  (* types/storage.rs:254-272 *)
  Definition sl_poseidon_lookups (l : StorageLeaf) : option (list (Fr * Fr * HashDomain * Fr)) :=
    match l with
    | SEmpty _ => Some []
    | SLeaf _ v => h <- sl_hash l; Some [(sl_key l, v, DLeaf, h)]
    | SEntry _ _ =>
        v <- sl_value_hash l; h <- sl_hash l;
        Some [(sl_value_high l, sl_value_low l, DPair, v); (sl_key l, v, DLeaf, h)]
    end.

  (* types/storage.rs:31-41 *)
  Definition sp_n_rows (s : StorageProof) : nat :=
    match s with
    | SRoot _ => 0
    | SUpdate _ _ rows o n => length rows + Nat.max (sl_n_rows o) (sl_n_rows n)
    end.
  (* types/storage.rs:43-52 *)
  Definition sp_old_root (s : StorageProof) : option Fr :=
    match s with SRoot r => Some r | SUpdate _ _ rows o _ => trie_old_root H rows (sl_hash o) end.
  (* types/storage.rs:54-63 *)
  Definition sp_new_root (s : StorageProof) : option Fr :=
    match s with SRoot r => Some r | SUpdate _ _ rows _ n => trie_new_root H rows (sl_hash n) end.
  (* types/storage.rs:65-89 *)
  Definition sp_poseidon_lookups (s : StorageProof) : option (list (Fr * Fr * HashDomain * Fr)) :=
    match s with
    | SRoot _ => Some []
    | SUpdate sk key rows o n =>
        let (key_high, key_low) := u256_hi_lo sk in
        r <- trie_poseidon_lookups H rows; ol <- sl_poseidon_lookups o; nl <- sl_poseidon_lookups n;
        Some ((fr_from_u128 key_high, fr_from_u128 key_low, DPair, key) :: r ++ ol ++ nl)
    end.
  (* types/storage.rs:109-114; None = unreachable!() *)
  Definition sp_key (s : StorageProof) : option Fr := match s with SRoot _ => None | SUpdate _ key _ _ _ => Some key end.
  (* types/storage.rs:116-134 *)
  Definition sp_other_key (s : StorageProof) : option Fr :=
    match s with
    | SRoot _ => None
    | SUpdate _ key _ o n => Some (if feqb key (sl_key o) then sl_key n else sl_key o)
    end.
  (* types/storage.rs:91-98 *)
  Definition sp_key_lookups (s : StorageProof) : list Fr :=
    match s with
    | SRoot _ => []
    | SUpdate _ key _ o n => [key; if feqb key (sl_key o) then sl_key n else sl_key o]
    end.
  (* types/storage.rs:100-107 *)
  Definition sp_key_bit_lookups (s : StorageProof) : list (Fr * Z * bool) :=
    match s with
    | SRoot _ => []
    | SUpdate _ key rows o n => trie_key_bit_lookups rows key (if feqb key (sl_key o) then sl_key n else sl_key o)
    end.
  (* types/storage.rs:275-315 *)
  Definition storage_proof_from (trace : SMTTrace) : option StorageProof :=
    match t_common_state_root trace with
    | Some root => r <- fr root; Some (SRoot r)
    | None =>
        kb <- t_state_key trace; key <- fr kb;
        old_path <- fst (t_state_path trace); new_path <- snd (t_state_path trace);
        rows <- trie_rows_new H key (p_path old_path) (p_path new_path) (p_leaf old_path) (p_leaf new_path);
        upd <- t_state_update trace;
        old_entry <- fst upd; new_entry <- snd upd;
        _ <- oassert (bytes_eqb (sd_key old_entry) (sd_key new_entry));
        storage_key <- u256_from_hex (sd_key old_entry);
        old_leaf <- storage_leaf_new key (p_leaf old_path) old_entry;
        new_leaf <- storage_leaf_new key (p_leaf new_path) new_entry;
        let proof := SUpdate storage_key key rows old_leaf new_leaf in
        o <- sp_old_root proof; ro <- fr (p_root old_path); _ <- oassert (feqb o ro);
        n <- sp_new_root proof; rn <- fr (p_root new_path); _ <- oassert (feqb n rn);
        Some proof
    end.
End Hash.
