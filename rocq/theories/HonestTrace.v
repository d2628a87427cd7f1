(* Specification: the trace that an honest witness generator (zktrie, outside the repository) writes for two states.
   Numbers and hashes are written as serde.rs reads them: field elements as 32 little-endian bytes, storage keys and values
   and addresses big-endian. *)
From Coq Require Import ZArith List Bool.
From Verif Require Import Pocklington Fr Gadgets Bytes TrieSpec Util Serde TrieProofs.
Import ListNotations.
Open Scope Z_scope.

Section Hash.
  Variable H : Fr -> Fr -> Fr -> Fr.
  (* the Merkle path of k in t *)
  Definition trace_path {V} (hv : V -> Fr) (t : tree V) (k : Fr) : SMTPath :=
    mkPath (fr_to_bytes (thash H hv t)) (tree_leaf hv t 0 k) (tree_nodes H hv t 0 k).
  Definition data_of (a : account) : AccountData :=
    mkAccountData (nonce a) (balance a) (keccak_code_hash a) (val (poseidon_code_hash a)) (code_size a).
  (* the storage trie of an account; an absent account has the empty one *)
  Definition storage_of (a : option account) : tree Z := match a with Some a => storage a | None => Empty end.
  Definition slot_value_of (s : tree Z) (k : Fr) : Z := match get s 0 k with Some v => v | None => 0 end.

  (* t becomes t' by an operation on the account itself *)
  Definition account_trace_of (t t' : tree account) (address : Z) : SMTTrace :=
    let k := addr_key H address in
    mkTrace (be_bytes 20 address) (fr_to_bytes k) (trace_path (account_hash H) t k, trace_path (account_hash H) t' k)
      (option_map data_of (get t 0 k), option_map data_of (get t' 0 k)) (None, None)
      (Some (fr_to_bytes (storage_root H (storage_of (match get t 0 k with Some a => Some a | None => get t' 0 k end))))) None None.
  (* t becomes t' by an operation on one storage slot *)
  Definition storage_trace_of (t t' : tree account) (address slot : Z) : SMTTrace :=
    let k := addr_key H address in
    let s := storage_of (get t 0 k) in let s' := storage_of (get t' 0 k) in
    let sk := slot_key H slot in
    mkTrace (be_bytes 20 address) (fr_to_bytes k) (trace_path (account_hash H) t k, trace_path (account_hash H) t' k)
      (option_map data_of (get t 0 k), option_map data_of (get t' 0 k))
      (Some (trace_path (word_hash H) s sk), Some (trace_path (word_hash H) s' sk)) None (Some (fr_to_bytes sk))
      (Some (Some (mkStateData (be_bytes 32 slot) (be_bytes 32 (slot_value_of s sk))),
             Some (mkStateData (be_bytes 32 slot) (be_bytes 32 (slot_value_of s' sk))))).
End Hash.

(* a hash function for examples: it separates the inputs that occur in them *)
Definition toy (l r d : Fr) : Fr := (fz 3 * l + fz 5 * r + fz 7 * d + f1)%fr.
Definition ex_key := addr_key toy 77.
Definition ex_account : account := mkAccount 1 2 3 4 (fz 5) (Node (Leaf (slot_key toy 9) 10) (Leaf (fz 1) 11)).
Definition ex_state (a : account) : tree account := Node (Node (Leaf (fz 4) ex_account) Empty) (Node (Leaf ex_key a) Empty).
