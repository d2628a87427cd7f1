(* Property C60: the consistency checks that the tests run on converted proofs (Proof::check and StorageProof::check).
   Only statements; proofs in CheckProofs.v, CheckHonest.v and CheckCase.v.  Specification: CheckSpec.v, TraceSpec.v, HonestSpec.v.
   [proof_check H p = Some tt]: the check passes; [None]: it panics. *)
From Coq Require Import ZArith List Bool Lia.
From Verif Require Import Pocklington Fr Query Gadgets MptUpdate Bytes TrieSpec UpdateRows Util UtilProofs Serde Trie Storage Types ClaimSpec HonestTrace HonestSpec HonestMain HonestCase
  TraceSpec TraceChecks CheckSpec ProofCheck CheckProofs CheckHonest CheckCase.
Import ListNotations.
Open Scope Z_scope.

(** * C60 *)
(* What a passed check says, for every hash function, proof type and trace.  Two account paths of one length lead from the state
   roots of the claim to their leaves, along the key of the address, each node hashed in its own type. *)
Theorem C60_accounts_opened : forall H ty tr p, proof_from H ty tr = Some p -> proof_check H p = Some tt -> address_ok (t_address tr) ->
  length (p_path (fst (t_account_path tr))) = length (p_path (snd (t_account_path tr))) ->
  let key := addr_key H (be_val (t_address tr)) in
  opened H (fun _ => False) key (fst (t_account_path tr)) /\ opened H (fun _ => False) key (snd (t_account_path tr)).
Proof. exact accounts_opened. Qed.
(* if the new path is the longer one, it does so too; the old one hashes to the old root from what its last node records *)
Theorem C60_created_opened : forall H ty tr p, proof_from H ty tr = Some p -> proof_check H p = Some tt -> address_ok (t_address tr) ->
  let p0 := fst (t_account_path tr) in let p1 := snd (t_account_path tr) in
  (length (p_path p0) < length (p_path p1))%nat -> opened H (fork p0 p1) (addr_key H (be_val (t_address tr))) p1.
Proof. exact created_opened. Qed.
Theorem C60_created_old_climbs : forall H ty tr p, proof_from H ty tr = Some p -> proof_check H p = Some tt -> address_ok (t_address tr) ->
  let p0 := fst (t_account_path tr) in
  (0 < length (p_path p0) < length (p_path (snd (t_account_path tr))))%nat ->
  exists x root, fr (p_root p0) = Some root /\ climbs H (fun _ => False) (addr_key H (be_val (t_address tr))) 0 (p_path p0) x root.
Proof. exact created_old. Qed.
(* but nothing ties that to the leaf at the end of the old path *)
Theorem C60_old_end_unchecked_refuted : exists ty tr p, proof_from toy ty tr = Some p /\ proof_check toy p = Some tt /\ address_ok (t_address tr) /\
  (length (p_path (fst (t_account_path tr))) < length (p_path (snd (t_account_path tr))))%nat /\
  forall g, ~ opened toy g (addr_key toy (be_val (t_address tr))) (fst (t_account_path tr)).
Proof. exact old_end_unchecked. Qed.
(* for a storage proof both storage paths lead from their roots to the entries, whichever way the lengths of the paths differ *)
Theorem C60_slots_opened : forall H ty tr p, proof_from H ty tr = Some p -> proof_check H p = Some tt -> t_common_state_root tr = None -> entries_ok tr ->
  exists key kb pa pb eo en, t_state_key tr = Some kb /\ fr kb = Some key /\ t_state_path tr = (Some pa, Some pb) /\ t_state_update tr = Some (Some eo, Some en) /\
    slot_opened H (fork pa pb) key pa eo /\ slot_opened H (fork pa pb) key pb en.
Proof. exact slots_opened. Qed.
(* but a slot that is said to be empty, at the empty end of a path, need not have that path *)
Theorem C60_empty_slot_unchecked_refuted : exists ty tr p pa eo, proof_from toy ty tr = Some p /\ proof_check toy p = Some tt /\ t_common_state_root tr = None /\ entries_ok tr /\
  fst (t_account_update tr) <> None /\ fst (t_state_path tr) = Some pa /\ t_state_update tr = Some (Some eo, Some eo) /\
  forall g h root, fr (p_root pa) = Some root -> ~ climbs toy g (slot_key toy (be_val (sd_key eo))) 0 (p_path pa) h root.
Proof. exact empty_slot_unchecked. Qed.

(* Which honest proofs pass.  Every honest update between states whose top is a branch: exactly if the type of that branch stays
   the same.  The storage part of the check passes for every honest update. *)
Theorem C60_honest_checked : forall H u p l r l' r', honest_update H u -> converts H u p -> u_old u = Node l r -> u_new u = Node l' r' ->
  (proof_check H p = Some tt <-> branch_domain l r = branch_domain l' r').
Proof. exact honest_checked_iff. Qed.
Theorem C60_honest_storage_checked : forall H u p, honest_update H u -> converts H u p -> storage_check H (pf_storage p) = Some tt.
Proof. exact honest_storage_checked. Qed.
(* so an account created below the top makes the check of an honest proof fail *)
Theorem C60_top_insertion_refuted : exists p, honest_update mix create_top /\ converts mix create_top p /\ proof_check mix p = None.
Proof. exact top_insertion_fails. Qed.
(* and so does every honest update of a state without branches *)
Theorem C60_single_account_refuted : forall H u p, honest_update H u -> converts H u p -> is_node (u_old u) = false -> is_node (u_new u) = false -> proof_check H p = None.
Proof. exact honest_single_panics. Qed.

(* non-trivial cases: an account inserted below three branches; a slot filled, below a branch; a state with a single account *)
Example C60_insertion_case : exists p, proof_from toy NonceChanged grow_trace = Some p /\ proof_check toy p = Some tt /\ address_ok (t_address grow_trace) /\
  (0 < length (p_path (fst (t_account_path grow_trace))) < length (p_path (snd (t_account_path grow_trace))))%nat.
Proof. exact insertion_checked. Qed.
Example C60_storage_case : exists p, honest_update mix fill_slot /\ converts mix fill_slot p /\ same_top (u_old fill_slot) (u_new fill_slot) /\ proof_check mix p = Some tt /\
  t_common_state_root (u_trace fill_slot) = None /\ entries_ok (u_trace fill_slot) /\ address_ok (t_address (u_trace fill_slot)) /\
  length (p_path (fst (t_account_path (u_trace fill_slot)))) = length (p_path (snd (t_account_path (u_trace fill_slot)))).
Proof. exact storage_checked_case. Qed.
Example C60_single_case : exists p, honest_update mix lone_update /\ converts mix lone_update p /\ is_node (u_old lone_update) = false /\ is_node (u_new lone_update) = false.
Proof. exact lone_case. Qed.

Print Assumptions C60_accounts_opened. Print Assumptions C60_created_opened. Print Assumptions C60_created_old_climbs. Print Assumptions C60_old_end_unchecked_refuted. Print Assumptions C60_slots_opened.
Print Assumptions C60_empty_slot_unchecked_refuted. Print Assumptions C60_honest_checked. Print Assumptions C60_honest_storage_checked. Print Assumptions C60_top_insertion_refuted. Print Assumptions C60_single_account_refuted.
