(* Properties C31 and C45: trie rows and branch domains.  Only statements; proofs in TrieProofs.v.
   Specification (TrieProofs.v, first part): [merkle H key i nodes leaf root] says that nodes is a Merkle path for the bits of
   key from depth i on: hashing upwards from [leaf] gives [root], each node records its child's hash, and its type says
   whether that child is a branch.  [hash_up] is the bottom-up hash alone.  [end_hash] is the hash of the leaf node at the
   end of a path (0 if there is none).  TrieSpec.v: tries, thash, branch_domain, modify. *)
From Coq Require Import ZArith List Bool Lia.
From Verif Require Import Pocklington Fr Query Builder BuilderProofs Gadgets MptUpdate Fixed Bytes TrieSpec UpdateRows UpdateSound GadgetMain Util UtilProofs Serde Trie TrieProofs.
Import ListNotations.
Open Scope Z_scope.

(** * C31 *)
(* the specification's paths do hash bottom-up to their root *)
Theorem C31_merkle_is_bottom_up : forall H key i nodes leaf root, merkle H key i nodes leaf root -> hash_up H key i nodes leaf = Some root.
Proof. exact merkle_hash_up. Qed.
(* all inputs: any two Merkle paths of the key that TrieRows::new accepts *)
Theorem C31_rows_carry_the_roots : forall H key olds news old_leaf new_leaf lo ln ro rn rows,
  end_hash H old_leaf = Some lo -> end_hash H new_leaf = Some ln -> merkle H key 0 olds lo ro -> merkle H key 0 news ln rn ->
  trie_rows_new H key olds news old_leaf new_leaf = Some rows ->
  trie_old_root H rows (Some lo) = Some ro /\ trie_new_root H rows (Some ln) = Some rn.
Proof. exact roots_recomputed. Qed.
(* ... and every row's hashes are those its predecessor records (TrieRows::check passes) *)
Theorem C31_rows_check : forall H key olds news old_leaf new_leaf lo ln ro rn rows,
  end_hash H old_leaf = Some lo -> end_hash H new_leaf = Some ln -> merkle H key 0 olds lo ro -> merkle H key 0 news ln rn ->
  trie_rows_new H key olds news old_leaf new_leaf = Some rows -> trie_check H rows ro rn = Some true.
Proof. exact rows_carry_roots. Qed.
(* for any two tries that agree off the path of k, the proofs are accepted and the rows carry the two trie hashes *)
Theorem C31_proofs_from_tries : forall H V (hv : V -> Fr) k t t', off_path_equal k 0 t t' ->
  exists rows, trie_rows_new H k (tree_nodes H hv t 0 k) (tree_nodes H hv t' 0 k) (tree_leaf hv t 0 k) (tree_leaf hv t' 0 k) = Some rows /\
    trie_old_root H rows (Some (thash H hv (tree_end t 0 k))) = Some (thash H hv t) /\
    trie_new_root H rows (Some (thash H hv (tree_end t' 0 k))) = Some (thash H hv t') /\
    trie_check H rows (thash H hv t) (thash H hv t') = Some true.
Proof. intros H V hv. exact (tree_rows H hv). Qed.
Theorem C31_updates_agree_off_path : forall V (f : V -> V) k (t : tree V) d, off_path_equal k d t (modify f t d k).
Proof. intros V. exact (@modify_off_path V). Qed.
(* The condition on node types cannot be dropped: TrieRows::new accepts two paths of different length whose last common
   nodes have the same type, and then new_root is not the bottom-up hash of the new path. *)
Theorem C31_node_types_needed_refuted : exists H key olds news old_leaf new_leaf lo ln rows,
  end_hash H old_leaf = Some lo /\ end_hash H new_leaf = Some ln /\
  trie_rows_new H key olds news old_leaf new_leaf = Some rows /\
  hash_up H key 0 news ln <> None /\ trie_new_root H rows (Some ln) <> hash_up H key 0 news ln.
Proof. exact equal_types_refuted. Qed.
(* non-trivial case: inserting a second leaf next to the leaf of another key, four branches deep *)
Example C31_case :
  let k := fz 15 in let k' := fz 7 in let big := Node (Leaf (fz 4) 9) (Leaf (fz 2) 3) in
  let t := Node big (Leaf k' 5) in
  let t' := Node big (Node Empty (Node Empty (Node (Leaf k' 5) (Leaf k 6)))) in
  off_path_equal k 0 t t' /\ length (tree_nodes (fun l r d => (l + r + d)%fr) fz t' 0 k) = 4%nat.
Proof. exact insertion_case. Qed.

(** * C45 *)
(* V: any value type; the child on the insertion side is not a branch before and is the branch c afterwards *)
Theorem C45_domains_agree : forall V (l r c : tree V) right, is_node (child right l r) = false -> is_node c = true ->
  next_domain (branch_domain l r) right = Some (with_child right l r c) /\
  get_domains ExtensionNew (branch_domain l r) right = Some (branch_domain l r, with_child right l r c) /\
  get_domains ExtensionOld (branch_domain l r) right = Some (with_child right l r c, branch_domain l r) /\
  check_domain_consistency (branch_domain l r) (with_child right l r c) right = true /\
  upgrade right (branch_domain l r) = Some (with_child right l r c).
Proof. intros V. exact (@domains_agree V). Qed.
(* check_domain_consistency accepts exactly these *)
Theorem C45_check_exact : forall d d' right, check_domain_consistency d d' right = true <->
  exists (l r c : tree unit), is_node (child right l r) = false /\ is_node c = true /\ d = branch_domain l r /\ d' = with_child right l r c.
Proof. exact check_exact. Qed.
(* in a satisfied circuit the last common row above an insertion (deletion) hashes the new (old) branch with that domain;
   oldP e i d (newP e i d): the Poseidon table has the hash of row i's old (new) children in domain d *)
Theorem C45_circuit_domain : forall H e n, fixed_ok e n -> sat e (circuit_of (circuit H)) ->
  forall i (l r c : tree unit) right, 1 <= i -> i + 1 < n ->
  pa e i = Common -> sg e (i + 1) <> AccountLeaf0 -> sg e (i + 1) <> StorageLeaf0 ->
  eadv e MU_domain i = fdom (branch_domain l r) -> eadv e MU_direction i = fb right ->
  is_node (child right l r) = false -> is_node c = true ->
  (pa e (i + 1) = ExtensionNew -> oldP e i (fdom (branch_domain l r)) /\ newP e i (fdom (with_child right l r c))) /\
  (pa e (i + 1) = ExtensionOld -> newP e i (fdom (branch_domain l r)) /\ oldP e i (fdom (with_child right l r c))).
Proof. exact circuit_insertion_domain. Qed.
(* outside that situation they differ: next_domain (and the circuit) map Branch1 to Branch3 also for an insertion on the
   right, where the child is a branch already; check_domain_consistency rejects it *)
Theorem C45_next_domain_is_lax_refuted : exists d d' right, next_domain d right = Some d' /\ upgrade right d = Some d' /\ check_domain_consistency d d' right = false.
Proof. exact lax_next_domain. Qed.
Example C45_case : is_node (child true (Node Empty Empty) (Leaf f1 7)) = false /\ branch_domain (Node Empty Empty) (Leaf f1 7) = Branch2 /\
  with_child true (Node Empty Empty) (Leaf f1 7) (Node Empty (Leaf f1 7)) = Branch3.
Proof. repeat split. Qed.

Print Assumptions C31_merkle_is_bottom_up. Print Assumptions C31_rows_carry_the_roots. Print Assumptions C31_rows_check. Print Assumptions C31_proofs_from_tries. Print Assumptions C31_updates_agree_off_path. Print Assumptions C31_node_types_needed_refuted. Print Assumptions C45_domains_agree. Print Assumptions C45_check_exact. Print Assumptions C45_circuit_domain. Print Assumptions C45_next_domain_is_lax_refuted.
