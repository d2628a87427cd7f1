(* C60: cases, and traces that pass Proof::check although a part of them is wrong. *)
From Coq Require Import ZArith List Bool Lia.
From Verif Require Import Pocklington Fr Query Builder Gadgets MptUpdate Bytes TrieSpec UpdateRows Util UtilProofs Serde Trie Storage Types ClaimSpec LookupMain
  HonestTrace HonestSpec HonestMain HonestCase TraceSpec TraceChecks CheckSpec ProofCheck CheckProofs CheckHonest.
Import ListNotations.
Open Scope Z_scope.

(* H, the child on the path and the sibling in the order of the direction *)
Definition pair_of (right : bool) (x s : Fr) (d : HashDomain) : Fr := if right then toy s x (fdom d) else toy x s (fdom d).
Definition fresh_data : AccountData := mkAccountData 1 0 0 0 0.
Definition fresh_leaf (root : Fr) : SMTNode := mkNode (fr_to_bytes (data_hash toy fresh_data root)) (fr_to_bytes ex_key) 4.
Definition fresh_hash (root : Fr) : Fr := toy ex_key (data_hash toy fresh_data root) (fdom DLeaf).
(* the account 77 is created one level below an existing branch; the old path ends with nothing, below a node that records 7 *)
Definition cut_olds : list SMTNode := [mkNode (fr_to_bytes (fz 7)) (fr_to_bytes (fz 9)) 9].
Definition cut_trace : SMTTrace :=
  let b := kbit ex_key in
  let n1 := mkNode (fr_to_bytes (fresh_hash f0)) (fr_to_bytes (fz 8)) 6 in
  let h1 := pair_of (b 1%nat) (fresh_hash f0) (fz 8) Branch0 in
  let n0 := mkNode (fr_to_bytes h1) (fr_to_bytes (fz 9)) 9 in
  mkTrace (be_bytes 20 77) (fr_to_bytes ex_key)
    (mkPath (fr_to_bytes (pair_of (b 0%nat) (fz 7) (fz 9) Branch3)) None cut_olds,
     mkPath (fr_to_bytes (pair_of (b 0%nat) h1 (fz 9) Branch3)) (Some (fresh_leaf f0)) [n0; n1])
    (None, Some fresh_data) (None, None) (Some (fr_to_bytes f0)) None None.
(* slot 3 of account 77 is said to be empty, on a path of another key *)
Definition other_key : Fr := if kbit (slot_key toy 3) 0 then fz 4 else fz 5.
Definition other_root : Fr := pair_of (kbit other_key 0) f0 (fz 8) Branch0.
Definition other_nodes : list SMTNode := [mkNode (fr_to_bytes f0) (fr_to_bytes (fz 8)) 6].
Definition other_trace : SMTTrace :=
  let b := kbit ex_key in
  let p := mkPath (fr_to_bytes (pair_of (b 0%nat) (fresh_hash other_root) (fz 9) Branch0)) (Some (fresh_leaf other_root)) [mkNode (fr_to_bytes (fresh_hash other_root)) (fr_to_bytes (fz 9)) 6] in
  let s := mkPath (fr_to_bytes other_root) None other_nodes in
  let z := mkStateData (be_bytes 32 3) (be_bytes 32 0) in
  mkTrace (be_bytes 20 77) (fr_to_bytes ex_key) (p, p) (Some fresh_data, Some fresh_data) (Some s, Some s) None (Some (fr_to_bytes other_key)) (Some (Some z, Some z)).
Definition passes (H : Fr -> Fr -> Fr -> Fr) (ty : MPTProofType) (tr : SMTTrace) : option bool :=
  p <- proof_from H ty tr; Some (match proof_check H p with Some _ => true | None => false end).
Lemma passes_true H ty tr : checkb (passes H ty tr) = true -> exists p, proof_from H ty tr = Some p /\ proof_check H p = Some tt.
Proof. unfold passes. destruct (proof_from H ty tr) as [p|]; [|discriminate]. cbn [obind]. intros E. exists p. split; [reflexivity|]. destruct (proof_check H p) as [[]|]; [reflexivity|discriminate E]. Qed.
Lemma passes_false H ty tr : checkb (b <- passes H ty tr; Some (negb b)) = true -> exists p, proof_from H ty tr = Some p /\ proof_check H p = None.
Proof. unfold passes. destruct (proof_from H ty tr) as [p|]; [|discriminate]. cbn [obind]. intros E. exists p. split; [reflexivity|]. destruct (proof_check H p) as [[]|]; [discriminate E|reflexivity]. Qed.
Lemma cut_passes : checkb (passes toy NonceChanged cut_trace) = true.
Proof. vm_compute. reflexivity. Qed.
Lemma other_passes : checkb (passes toy StorageDoesNotExist other_trace) = true.
Proof. vm_compute. reflexivity. Qed.
Lemma address_bytes a : address_ok (be_bytes 20 a).
Proof. split; [apply be_bytes_length|apply be_bytes_ok]. Qed.
(* the old path ends below a node that does not record its end *)
Theorem old_end_unchecked : exists ty tr p, proof_from toy ty tr = Some p /\ proof_check toy p = Some tt /\ address_ok (t_address tr) /\
  (length (p_path (fst (t_account_path tr))) < length (p_path (snd (t_account_path tr))))%nat /\
  forall g, ~ opened toy g (addr_key toy (be_val (t_address tr))) (fst (t_account_path tr)).
Proof.
  destruct (passes_true _ _ _ cut_passes) as (p & E & C). exists NonceChanged, cut_trace, p. split; [exact E|]. split; [exact C|]. split; [apply address_bytes|]. split; [cbn; lia|].
  intros g (h & root & L & _ & Cl). cbn [cut_trace t_account_path fst p_leaf leaf_hashes_to p_path] in L, Cl. subst h. unfold cut_olds in Cl. inversion Cl as [|? ? ? ? ? h ? ? _ _ V Ce _]; subst. inversion Ce; subst.
  unfold fr in V. cbn [n_value] in V. rewrite fr_from_to in V. apply LookupMain.some_eq in V. apply (f_equal val) in V. vm_compute in V. discriminate V.
Qed.
(* an empty slot on the path of another key *)
Lemma other_apart d : other_root <> pair_of (kbit (slot_key toy 3) 0) f0 (fz 8) d.
Proof. intros E. apply (f_equal val) in E. destruct d; vm_compute in E; discriminate E. Qed.
Theorem empty_slot_unchecked : exists ty tr p pa eo, proof_from toy ty tr = Some p /\ proof_check toy p = Some tt /\ t_common_state_root tr = None /\ entries_ok tr /\
  fst (t_account_update tr) <> None /\ fst (t_state_path tr) = Some pa /\ t_state_update tr = Some (Some eo, Some eo) /\
  forall g h root, fr (p_root pa) = Some root -> ~ climbs toy g (slot_key toy (be_val (sd_key eo))) 0 (p_path pa) h root.
Proof.
  destruct (passes_true _ _ _ other_passes) as (p & E & C). eexists StorageDoesNotExist, other_trace, p, _, _. split; [exact E|]. split; [exact C|]. split; [reflexivity|].
  split; [|split; [discriminate|split; [reflexivity|split; [reflexivity|]]]].
  - assert (G : forall x, word (be_bytes 32 x)) by (intros x; split; [apply be_bytes_length|apply be_bytes_ok]). intros eo en Q. cbn [other_trace t_state_update] in Q. injection Q as <- <-. cbn [sd_key sd_value]. repeat split; apply G.
  - intros g h root R Cl. cbn [p_root p_path sd_key] in R, Cl. unfold fr in R. rewrite fr_from_to in R. apply LookupMain.some_eq in R. subst root. rewrite be_val_be_bytes in Cl by (split; [lia|reflexivity]).
    unfold other_nodes in Cl. inversion Cl as [|? ? ? ? d ? ? ? _ _ _ _ Hh]; subst. destruct Hh as (v & s & V & S & Eq). unfold fr in V, S. cbn [n_value n_sibling] in V, S. rewrite fr_from_to in V, S. apply LookupMain.some_eq in V, S. subst v s.
    exact (other_apart d Eq).
Qed.

(** * Cases *)
Lemma grow_passes : checkb (passes toy NonceChanged grow_trace) = true.
Proof. vm_compute. reflexivity. Qed.
Theorem insertion_checked : exists p, proof_from toy NonceChanged grow_trace = Some p /\ proof_check toy p = Some tt /\ address_ok (t_address grow_trace) /\
  (0 < length (p_path (fst (t_account_path grow_trace))) < length (p_path (snd (t_account_path grow_trace))))%nat.
Proof.
  destruct (passes_true _ _ _ grow_passes) as (p & E & C). exists p. split; [exact E|]. split; [exact C|]. split; [apply address_bytes|]. destruct insertion_converted as (_ & _ & _ & L0 & L1 & _). rewrite L0, L1. lia.
Qed.
(* the third of the honest updates: a slot of account 11 is filled *)
Definition fill_slot : update := Update (ad 11) S2 S3 StorageChanged (storage_trace_of mix S2 S3 (ad 11) 5).
(* the fourth one: account 14 is created, and the right child of the top becomes a branch *)
Definition create_top : update := Update (ad 14) S3 S4 BalanceChanged (account_trace_of mix S3 S4 (ad 14)).
Lemma fill_honest : honest_update mix fill_slot.
Proof. pose proof us_ok as F. rewrite Forall_forall in F. apply F. right. right. left. reflexivity. Qed.
Lemma create_honest : honest_update mix create_top.
Proof. pose proof us_ok as F. rewrite Forall_forall in F. apply F. right. right. right. left. reflexivity. Qed.
Lemma fill_passes : checkb (passes mix StorageChanged (u_trace fill_slot)) = true.
Proof. vm_compute. reflexivity. Qed.
Lemma create_fails : checkb (b <- passes mix BalanceChanged (u_trace create_top); Some (negb b)) = true.
Proof. vm_compute. reflexivity. Qed.
Lemma fill_top : same_top S2 S3.
Proof.
  assert (E : checkb (match S2, S3 with Node l r, Node l' r' => Some (Z.eqb (domain_u64 (branch_domain l r)) (domain_u64 (branch_domain l' r'))) | _, _ => None end) = true) by (vm_compute; reflexivity).
  destruct S2 as [| |l r]; try discriminate E. destruct S3 as [| |l' r']; try discriminate E. exists l, r, l', r'. split; [reflexivity|]. split; [reflexivity|]. cbn [checkb] in E. apply Z.eqb_eq in E.
  destruct (branch_domain l r), (branch_domain l' r'); try reflexivity; discriminate E.
Qed.
Theorem storage_checked_case : exists p, honest_update mix fill_slot /\ converts mix fill_slot p /\ same_top (u_old fill_slot) (u_new fill_slot) /\ proof_check mix p = Some tt /\
  t_common_state_root (u_trace fill_slot) = None /\ entries_ok (u_trace fill_slot) /\ address_ok (t_address (u_trace fill_slot)) /\
  length (p_path (fst (t_account_path (u_trace fill_slot)))) = length (p_path (snd (t_account_path (u_trace fill_slot)))).
Proof.
  destruct (passes_true _ _ _ fill_passes) as (p & E & C). exists p. split; [exact fill_honest|]. split; [exact E|]. split; [exact fill_top|]. split; [exact C|]. split; [reflexivity|]. split; [exact (proj1 (storage_entries mix S2 S3 (ad 11) 5))|]. split; [apply address_bytes|].
  assert (X : checkb (Some ((length (p_path (fst (t_account_path (u_trace fill_slot)))) =? length (p_path (snd (t_account_path (u_trace fill_slot)))))%nat)) = true) by (vm_compute; reflexivity). apply Nat.eqb_eq. exact X.
Qed.
Theorem top_insertion_fails : exists p, honest_update mix create_top /\ converts mix create_top p /\ proof_check mix p = None.
Proof. destruct (passes_false _ _ _ create_fails) as (p & E & C). exists p. split; [exact create_honest|]. split; [exact E|exact C]. Qed.
(* a state with a single account, whose nonce is changed *)
Definition lone : tree account := Leaf (ac 2) A3.
Definition lone' : tree account := Leaf (ac 2) (set_nonce 9 A3).
Definition lone_update : update := Update (ad 2) lone lone' NonceChanged (account_trace_of mix lone lone' (ad 2)).
Lemma lone_checks : wf_check lone && wf_check lone' && cf_check (all_inputs mix lone lone') = true.
Proof. vm_compute. reflexivity. Qed.
Theorem lone_case : exists p, honest_update mix lone_update /\ converts mix lone_update p /\ is_node (u_old lone_update) = false /\ is_node (u_new lone_update) = false.
Proof.
  assert (HU : honest_update mix lone_update).
  { pose proof lone_checks as Ch. rewrite !andb_true_iff in Ch. destruct Ch as [[X1 X2] X3]. constructor; [| |apply wf_check_ok, X1|apply wf_check_ok, X2|apply cf_check_ok, X3].
    - cbn [lone_update u_address u_old u_new u_kind u_trace]. apply (hon_nonce mix _ _ _ A3 9). split; [vm_compute; reflexivity|reflexivity].
    - cbn [lone_update u_address]. unfold ad. lia. }
  assert (X : checkb (_ <- proof_from mix NonceChanged (u_trace lone_update); Some true) = true) by (vm_compute; reflexivity).
  destruct (proof_from mix NonceChanged (u_trace lone_update)) as [p|] eqn:E; [|discriminate X]. exists p. split; [exact HU|]. split; [exact E|]. split; reflexivity.
Qed.
