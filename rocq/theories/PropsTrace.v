(* Property C53: inconsistent traces are rejected by the conversion.  Only statements; proofs in TraceChecks.v.
   Specification: TraceSpec.v.  [None] is a panic.  address_ok: 20 bytes; word: 32 bytes; entries_ok: the storage entries are words. *)
From Coq Require Import ZArith List Bool Lia.
From Verif Require Import Pocklington Fr Query Builder Gadgets MptUpdate Bytes TrieSpec Util UtilProofs Serde Trie Storage Types LookupMain HonestTrace ClaimSpec TraceSpec TraceChecks.
Import ListNotations.
Open Scope Z_scope.

(** * C53 *)
(* every hash function, proof type and trace that is converted: the account key is that of the address, on both account paths
   every node but the last records the hash of the next one, and the two paths agree beside the key's path *)
Theorem C53_paths_checked : forall H ty tr p, proof_from H ty tr = Some p -> address_ok (t_address tr) ->
  let key := addr_key H (be_val (t_address tr)) in
  let olds := p_path (fst (t_account_path tr)) in let news := p_path (snd (t_account_path tr)) in
  fr (t_account_key tr) = Some key /\ chained H key olds /\ chained_new H key olds news /\ same_branches key olds news /\
  ((length news < length olds)%nat -> (length news <= 1)%nat).
Proof. exact paths_checked. Qed.
(* a shrinking path is rejected, however consistent it is *)
Theorem C53_shrinking_path_panics : forall H ty tr, address_ok (t_address tr) ->
  (2 <= length (p_path (snd (t_account_path tr))) < length (p_path (fst (t_account_path tr))))%nat -> proof_from H ty tr = None.
Proof. exact removal_panics. Qed.
(* the leaf of each account path is the hash of the account data of that side, with that side's storage root *)
Theorem C53_accounts_checked : forall H ty tr p, proof_from H ty tr = Some p -> address_ok (t_address tr) ->
  leaf_of_account H tr (fst (t_account_path tr)) (fst (t_account_update tr)) (fst (t_state_path tr)) /\
  leaf_of_account H tr (snd (t_account_path tr)) (snd (t_account_update tr)) (snd (t_state_path tr)).
Proof. exact accounts_checked. Qed.
(* without a common storage root: both storage paths and entries are there, for one slot; each storage root is the hash of its
   path's top node, or of what ends the path *)
Theorem C53_storage_checked : forall H ty tr p, proof_from H ty tr = Some p -> t_common_state_root tr = None -> entries_ok tr ->
  exists key kb pa pb eo en, t_state_key tr = Some kb /\ fr kb = Some key /\ t_state_path tr = (Some pa, Some pb) /\
    t_state_update tr = Some (Some eo, Some en) /\ sd_key eo = sd_key en /\ same_branches key (p_path pa) (p_path pb) /\
    storage_root_ok H key pa pb eo /\ storage_root_ok H key pb pa en /\
    empty_slot_key H key (p_leaf pa) eo /\ empty_slot_key H key (p_leaf pb) en.
Proof. exact storage_checked. Qed.
(* What is not checked.  The state roots of the claim: they can be replaced by any others, whatever the account paths hash to. *)
Theorem C53_state_roots_unchecked_refuted : forall H ty tr p r0 r1 x0 x1, proof_from H ty tr = Some p -> fr r0 = Some x0 -> fr r1 = Some x1 ->
  exists p', proof_from H ty (with_roots tr r0 r1) = Some p' /\ c_old_root (pf_claim p') = x0 /\ c_new_root (pf_claim p') = x1 /\
    pf_account_trie_rows p' = pf_account_trie_rows p.
Proof. exact roots_unchecked. Qed.
(* The storage values, unless both storage paths are empty: they can be replaced by any other non-zero words. *)
Theorem C53_storage_values_unchecked_refuted : forall H tr p pa pb eo en v0 v1, proof_from H StorageChanged tr = Some p -> t_common_state_root tr = None ->
  t_state_path tr = (Some pa, Some pb) -> p_path pa <> [] \/ p_path pb <> [] -> p_leaf pa <> None -> p_leaf pb <> None ->
  t_state_update tr = Some (Some eo, Some en) -> word (sd_key eo) -> word v0 -> word v1 -> be_val v0 <> 0 -> be_val v1 <> 0 ->
  exists p', proof_from H StorageChanged (with_values tr v0 v1) = Some p' /\
    c_kind (pf_claim p') = KStorage (be_val (sd_key eo)) (Some (be_val v0)) (Some (be_val v1)) /\
    c_old_root (pf_claim p') = c_old_root (pf_claim p) /\ c_new_root (pf_claim p') = c_new_root (pf_claim p).
Proof. exact values_unchecked. Qed.
(* The last node of an account path against what ends the path. *)
Theorem C53_path_end_unchecked_refuted : exists ty tr p n v h, proof_from toy ty tr = Some p /\ p_path (fst (t_account_path tr)) = [n] /\ fr (n_value n) = Some v /\
  leaf_hashes_to toy (p_leaf (fst (t_account_path tr))) h /\ v <> h.
Proof. exact end_unchecked. Qed.
(* The nodes of a storage path below the top, and the key of that path. *)
Theorem C53_storage_interior_unchecked_refuted : exists ty tr p pa key kb eo, proof_from toy ty tr = Some p /\ t_common_state_root tr = None /\ fst (t_state_path tr) = Some pa /\
  t_state_key tr = Some kb /\ fr kb = Some key /\ ~ chained toy key (p_path pa) /\
  t_state_update tr = Some (Some eo, Some eo) /\ key <> slot_key toy (be_val (sd_key eo)).
Proof. exact interior_unchecked. Qed.
(* non-trivial cases: the insertion of an account below three branches; a storage update under a branch *)
Example C53_insertion_case : exists p, proof_from toy NonceChanged grow_trace = Some p /\ address_ok (t_address grow_trace) /\
  length (p_path (fst (t_account_path grow_trace))) = 3%nat /\ length (p_path (snd (t_account_path grow_trace))) = 4%nat /\ snd (t_account_update grow_trace) <> None.
Proof. exact insertion_converted. Qed.
Example C53_storage_case : exists p pa pb eo en, proof_from toy StorageChanged ex_storage_trace = Some p /\ t_common_state_root ex_storage_trace = None /\ entries_ok ex_storage_trace /\
  t_state_path ex_storage_trace = (Some pa, Some pb) /\ p_path pa <> [] /\ p_leaf pa <> None /\ p_leaf pb <> None /\ t_state_update ex_storage_trace = Some (Some eo, Some en) /\ word (sd_key eo) /\
  length (p_path (fst (t_account_path ex_storage_trace))) = 2%nat.
Proof. exact storage_case. Qed.

Print Assumptions C53_paths_checked. Print Assumptions C53_shrinking_path_panics. Print Assumptions C53_accounts_checked. Print Assumptions C53_storage_checked.
Print Assumptions C53_state_roots_unchecked_refuted. Print Assumptions C53_storage_values_unchecked_refuted. Print Assumptions C53_path_end_unchecked_refuted. Print Assumptions C53_storage_interior_unchecked_refuted.
