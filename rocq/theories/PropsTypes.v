(* Properties C32 and C37: conversions from traces.  Only statements; proofs in TypesProofs.v and ClaimSpec.v.
   Specification: TypesProofs.same_level (a hash trace and a trie row say the same thing) and the first part of ClaimSpec.v
   (claim_spec: which claim a trace stands for).  [None] is a panic. *)
From Coq Require Import ZArith List Bool Lia.
From Verif Require Import Pocklington Fr Query Builder Gadgets MptUpdate Bytes TrieSpec Util UtilProofs Serde Trie Storage Types TrieProofs TypesProofs ClaimSpec.
Import ListNotations.
Open Scope Z_scope.

(** * C32 *)
(* all keys and node lists; lo, ln: the hashes at the ends of the two paths *)
Theorem C32_traces_and_rows_agree : forall H key olds news old_leaf new_leaf lo ln,
  path_end_hash H olds old_leaf = Some lo -> path_end_hash H news new_leaf = Some ln ->
  match get_internal_hash_traces key lo ln olds news, trie_rows_new H key olds news old_leaf new_leaf with
  | Some traces, Some rows => Forall2 same_level (rev traces) rows
  | None, None => True
  | _, _ => False
  end.
Proof. exact traces_agree. Qed.
(* with other leaf hashes lo, ln passed to get_internal_hash_traces, everything but the padding hashes still agrees *)
Theorem C32_shape_agrees : forall H key olds news old_leaf new_leaf lo ln lo' ln',
  path_end_hash H olds old_leaf = Some lo' -> path_end_hash H news new_leaf = Some ln' ->
  match get_internal_hash_traces key lo ln olds news, trie_rows_new H key olds news old_leaf new_leaf with
  | Some traces, Some rows => map shape (rev traces) = map row_shape rows
  | None, None => True
  | _, _ => False
  end.
Proof. exact traces_shape. Qed.
(* The hash at the end of a path cannot be replaced by the leaf's own hash, which is what Proof::from passes: the last node
   of a path may record another hash than that of the leaf, and then the padding hashes differ. *)
Theorem C32_leaf_hash_needed_refuted : exists H key olds news old_leaf new_leaf lo ln traces rows,
  end_hash H old_leaf = Some lo /\ end_hash H new_leaf = Some ln /\
  get_internal_hash_traces key lo ln olds news = Some traces /\ trie_rows_new H key olds news old_leaf new_leaf = Some rows /\
  exists t r, nth_error (rev traces) 1 = Some t /\ nth_error rows 1 = Some r /\ ht_open t <> tr_old r.
Proof. exact leaf_hash_needed. Qed.
Example C32_case : exists H key olds news old_leaf new_leaf lo ln traces rows,
  path_end_hash H olds old_leaf = Some lo /\ path_end_hash H news new_leaf = Some ln /\
  get_internal_hash_traces key lo ln olds news = Some traces /\ trie_rows_new H key olds news old_leaf new_leaf = Some rows /\
  length rows = 3%nat /\ map tr_path rows = [Common; ExtensionNew; ExtensionNew].
Proof. exact agree_case. Qed.

(** * C37 *)
(* every proof type, every trace whose hex fields are 32 bytes and whose numbers are not negative *)
Theorem C37_claim_exact : forall p tr c, trace_wf tr -> (claim_from p tr = Some c <-> claim_spec p tr c).
Proof. exact claim_exact. Qed.
(* in words: the requested type ... *)
Theorem C37_requested_type : forall p tr c, claim_from p tr = Some c -> proof_type_of (c_kind c) = p.
Proof. exact claim_type. Qed.
(* ... and for an account that exists before and after, the old and new value of that field and no other difference *)
Theorem C37_only_that_field : forall p tr c old new, trace_wf tr -> claim_from p tr = Some c ->
  t_account_update tr = (Some old, Some new) -> In p account_types ->
  c_kind c = kind_of p (Some (field p old)) (Some (field p new)) /\
  (forall q, In q account_types -> q <> p -> field q old = field q new).
Proof. exact claim_only_field. Qed.
(* A created account is not compared with the empty account: a nonce claim is accepted although the balance is set too. *)
Theorem C37_creation_other_fields_refuted : exists p tr c old new,
  trace_wf tr /\ t_account_update tr = (old, Some new) /\ old = None /\ claim_from p tr = Some c /\ In p account_types /\
  exists q, In q account_types /\ q <> p /\ field q new <> 0.
Proof. exact creation_other_fields. Qed.
Example C37_case : exists c, claim_from NonceChanged
  (mkTrace (repeat 0 20) (repeat 0 32) (mkPath (fr_to_bytes f1) None [], mkPath (fr_to_bytes (fz 9)) None [])
     (Some (mkAccountData 1 5 6 7 8), Some (mkAccountData 2 5 6 7 8)) (None, None) (Some (repeat 0 32)) None None) = Some c /\
  c_kind c = KNonce (Some 1) (Some 2) /\ val (c_new_root c) = 9.
Proof. exact update_case. Qed.

Print Assumptions C32_traces_and_rows_agree. Print Assumptions C32_shape_agrees. Print Assumptions C32_leaf_hash_needed_refuted.
Print Assumptions C37_claim_exact. Print Assumptions C37_requested_type. Print Assumptions C37_only_that_field. Print Assumptions C37_creation_other_fields_refuted.
