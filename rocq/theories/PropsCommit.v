(* C66: what a root commits to.  Only statements; proofs in Commit.v and CommitCase.v, specification in CommitSpec.v (broken,
   domain_numbers, account_shown, slot_shown), TraceSpec.v and TrieSpec.v.
   [broken H l]: two different inputs in the finite list l have the same hash, or one of them has hash 0.  H is any function. *)
From Coq Require Import ZArith List Bool.
From Verif Require Import Pocklington Fr Query Gadgets MptUpdate Bytes TrieSpec Util UtilProofs Serde Trie Storage Types HonestSpec HonestCase TraceSpec TraceChecks ProofCheck CheckCase CommitSpec Commit CommitCase.
Import ListNotations.
Open Scope Z_scope.

(* the seven kinds of hashes have the numbers of the table, also as field elements, and no two kinds have the same *)
Theorem C66_domain_numbers : forall d x, In (d, x) domain_numbers <-> domain_u64 d = x /\ val (fdom d) = x.
Proof. exact domain_table. Qed.
Theorem C66_domains_differ : forall d d', fdom d = fdom d' -> d = d'.
Proof. exact domains_differ. Qed.
(* a node type in a trace is read as the kind with that number, and the two kinds that are no nodes are never read *)
Theorem C66_node_types : forall x d, domain_of_u64 x = Some d <-> In (d, x) domain_numbers /\ d <> DPair /\ d <> AccountFields.
Proof. exact node_types. Qed.
(* the key of a slot is the hash of its two halves *)
Theorem C66_storage_key : forall H slot, 0 <= slot < 2 ^ 256 -> storage_key_hash H slot = H (fz (slot / 2 ^ 128)) (fz (slot mod 2 ^ 128)) (fdom DPair).
Proof. exact storage_key_hash_spec. Qed.
(* two states with the same root are the same, accounts, storage and all, or their own hashes show a collision *)
Theorem C66_state_root : forall H t t', tree_all account_ok t -> tree_all account_ok t' -> state_root H t = state_root H t' ->
  t = t' \/ broken H (state_inputs H t ++ state_inputs H t').
Proof. exact same_state. Qed.
Theorem C66_storage_root : forall H s s', tree_all word_ok s -> tree_all word_ok s' -> storage_root H s = storage_root H s' ->
  s = s' \/ broken H (tree_inputs H (word_hash H) word_inputs s ++ tree_inputs H (word_hash H) word_inputs s').
Proof. exact same_storage. Qed.
(* what a converted and checked trace says about an account and about a slot is true of the state with that root *)
Theorem C66_old_account : forall H ty tr p, proof_from H ty tr = Some p -> proof_check H p = Some tt -> address_ok (t_address tr) ->
  length (p_path (fst (t_account_path tr))) = length (p_path (snd (t_account_path tr))) -> branches (fst (t_account_path tr)) ->
  account_shown H tr (fst (t_account_path tr)) (fst (t_account_update tr)) (fst (t_state_path tr)).
Proof. exact old_account_shown. Qed.
Theorem C66_new_account : forall H ty tr p, proof_from H ty tr = Some p -> proof_check H p = Some tt -> address_ok (t_address tr) ->
  (length (p_path (fst (t_account_path tr))) <= length (p_path (snd (t_account_path tr))))%nat -> branches (snd (t_account_path tr)) ->
  account_shown H tr (snd (t_account_path tr)) (snd (t_account_update tr)) (snd (t_state_path tr)).
Proof. exact new_account_shown. Qed.
Theorem C66_slots : forall H ty tr p, proof_from H ty tr = Some p -> proof_check H p = Some tt -> t_common_state_root tr = None -> entries_ok tr ->
  exists pa pb eo en, t_state_path tr = (Some pa, Some pb) /\ t_state_update tr = Some (Some eo, Some en) /\
    (branches pa -> slot_shown H pa eo) /\ (branches pb -> slot_shown H pb en).
Proof. exact slots_shown. Qed.

(* filling a slot of an account, in a state whose top is a branch, meets all the conditions *)
Example C66_case : exists p a d pb en, proof_from mix StorageChanged (u_trace fill_slot) = Some p /\ proof_check mix p = Some tt /\ address_ok (t_address (u_trace fill_slot)) /\
  length (p_path (fst (t_account_path (u_trace fill_slot)))) = length (p_path (snd (t_account_path (u_trace fill_slot)))) /\
  branches (fst (t_account_path (u_trace fill_slot))) /\ branches (snd (t_account_path (u_trace fill_slot))) /\
  fst (t_account_update (u_trace fill_slot)) = Some d /\ data_fits d /\ tree_all account_ok S2 /\ get S2 0 (ac 11) = Some a /\
  fr (p_root (fst (t_account_path (u_trace fill_slot)))) = Some (state_root mix S2) /\
  t_common_state_root (u_trace fill_slot) = None /\ entries_ok (u_trace fill_slot) /\
  snd (t_state_path (u_trace fill_slot)) = Some pb /\ branches pb /\ (exists s, tree_all word_ok s /\ fr (p_root pb) = Some (storage_root mix s)) /\
  (exists eo, t_state_update (u_trace fill_slot) = Some (Some eo, Some en)) /\ be_val (sd_value en) <> 0.
Proof. exact shown_case. Qed.
(* with a hash function that has collisions, two states can have one root *)
Example C66_collision_case : exists t t' : tree account, let H := fun _ _ _ => f1 in t <> t' /\ tree_all account_ok t /\ tree_all account_ok t' /\ state_root H t = state_root H t'.
Proof. exact collision_case. Qed.

Print Assumptions C66_domain_numbers. Print Assumptions C66_domains_differ. Print Assumptions C66_node_types. Print Assumptions C66_storage_key. Print Assumptions C66_state_root.
Print Assumptions C66_storage_root. Print Assumptions C66_old_account. Print Assumptions C66_new_account. Print Assumptions C66_slots.
