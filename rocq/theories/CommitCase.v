(* Concrete cases for C66. *)
From Coq Require Import ZArith List Bool Lia.
From Verif Require Import Pocklington Fr Query Builder Gadgets MptUpdate Bytes TrieSpec UpdateRows UpdateWalk LagrangeProofs GadgetProofs Util UtilProofs Serde Trie TrieProofs Storage Types LookupProofs ClaimSpec LookupMain
  HonestTrace HonestSpec HonestMain HonestCase TraceSpec TraceChecks CheckSpec ProofCheck CheckProofs CheckCase CommitSpec Commit ChangeSpec NewAccount.
Import ListNotations.
Open Scope Z_scope.

(* the traces of honest updates meet the conditions *)
Section Honest.
  Variable H : Fr -> Fr -> Fr -> Fr.
  Lemma honest_branches {V} (hv : V -> Fr) (t : tree V) k : branches (trace_path H hv t k).
  Proof.
    unfold branches. cbn [trace_path p_path]. generalize 0%nat as d. induction t as [|k' v|l IHl r IHr]; intros d; cbn [tree_nodes]; [constructor|constructor|].
    constructor; [|destruct (kbit k d); auto]. cbn [n_type]. unfold branch_domain. destruct (is_node l), (is_node r); cbn; lia.
  Qed.
  Lemma honest_root {V} (hv : V -> Fr) (t : tree V) k : fr (p_root (trace_path H hv t k)) = Some (thash H hv t).
  Proof. cbn [trace_path p_root]. unfold fr. apply fr_from_to. Qed.
  Lemma data_of_fits a : account_ok a -> data_fits (data_of a).
  Proof. intros (A1 & A2 & A3 & A4 & _). unfold data_fits, data_of. cbn [ad_nonce ad_code_size ad_balance ad_code_hash ad_poseidon_code_hash]. pose proof (val_range (poseidon_code_hash a)). auto. Qed.
  Lemma get_sat {V} (P : V -> Prop) (t : tree V) k v : forall d, tree_all P t -> get t d k = Some v -> P v.
  Proof.
    induction t as [|k' w|l IHl r IHr]; intros d A E; cbn [get tree_all] in *; [discriminate E| |destruct A as [A B]; destruct (kbit k d); eauto].
    destruct (feqb k k'); [|discriminate E]. injection E as <-. exact A.
  Qed.
End Honest.

Lemma fill_there : checkb (match get S2 0 (ac 11) with Some _ => Some true | None => None end) = true.
Proof. vm_compute. reflexivity. Qed.
Lemma fill_value : checkb (match t_state_update (u_trace fill_slot) with Some (_, Some en) => Some (negb (be_val (sd_value en) =? 0)) | _ => None end) = true.
Proof. vm_compute. reflexivity. Qed.
Theorem shown_case : exists p a d pb en, proof_from mix StorageChanged (u_trace fill_slot) = Some p /\ proof_check mix p = Some tt /\ address_ok (t_address (u_trace fill_slot)) /\
  length (p_path (fst (t_account_path (u_trace fill_slot)))) = length (p_path (snd (t_account_path (u_trace fill_slot)))) /\
  branches (fst (t_account_path (u_trace fill_slot))) /\ branches (snd (t_account_path (u_trace fill_slot))) /\
  fst (t_account_update (u_trace fill_slot)) = Some d /\ data_fits d /\ tree_all account_ok S2 /\ get S2 0 (ac 11) = Some a /\
  fr (p_root (fst (t_account_path (u_trace fill_slot)))) = Some (state_root mix S2) /\
  t_common_state_root (u_trace fill_slot) = None /\ entries_ok (u_trace fill_slot) /\
  snd (t_state_path (u_trace fill_slot)) = Some pb /\ branches pb /\ (exists s, tree_all word_ok s /\ fr (p_root pb) = Some (storage_root mix s)) /\
  (exists eo, t_state_update (u_trace fill_slot) = Some (Some eo, Some en)) /\ be_val (sd_value en) <> 0.
Proof.
  destruct storage_checked_case as (p & HU & E & _ & C & TC & W & A & L). pose proof fill_there as G. pose proof (hu_old _ _ HU) as [F _]. pose proof (hu_new _ _ HU) as [F' _]. change (u_old fill_slot) with S2 in F. change (u_new fill_slot) with S3 in F'.
  assert (Ok : forall t, tree_all (fits) t -> tree_all account_ok t).
  { induction t as [|k v|l IHl r IHr]; cbn [tree_all]; [auto|intros [X _]; exact X|tauto]. }
  destruct (get S2 0 (ac 11)) as [a|] eqn:Ga; [|discriminate G]. clear G.
  exists p, a, (data_of a). eexists _, _. split; [exact E|]. split; [exact C|]. split; [exact A|]. split; [exact L|]. split; [apply honest_branches|]. split; [apply honest_branches|].
  split; [unfold fill_slot, storage_trace_of; cbv zeta; cbn [u_trace t_account_update fst]; change (addr_key mix (ad 11)) with (ac 11); rewrite Ga; reflexivity|].
  split; [apply data_of_fits, (get_sat account_ok S2 (ac 11) a 0); [apply Ok, F|exact Ga]|]. split; [apply Ok, F|]. split; [reflexivity|]. split; [apply honest_root|]. split; [exact TC|]. split; [exact W|].
  split; [reflexivity|]. split; [apply honest_branches|]. split.
  - exists (storage_of (get S3 0 (ac 11))). split; [|apply honest_root]. destruct (get S3 0 (ac 11)) as [a'|] eqn:Ga'; [|exact Logic.I]. exact (proj2 (proj2 (proj2 (proj2 (get_sat account_ok S3 (ac 11) a' 0%nat (Ok _ F') Ga'))))).
  - split; [eexists; reflexivity|]. pose proof fill_value as X. cbn [sd_value]. intros Z. apply Z.eqb_eq in Z. change (checkb (Some (negb (be_val (be_bytes 32 (slot_value_of (storage_of (get S3 0 (addr_key mix (ad 11)))) (slot_key mix 5))) =? 0))) = true) in X. rewrite Z in X. discriminate X.
Qed.
(* hashes that collide: two states with one root *)
Theorem collision_case : exists t t' : tree account, let H := fun _ _ _ => f1 in t <> t' /\ tree_all account_ok t /\ tree_all account_ok t' /\ state_root H t = state_root H t'.
Proof.
  exists (Leaf f0 new_account), (Leaf f1 new_account). cbv zeta. split; [intros E; discriminate (f_equal (fun t => match t with Leaf k _ => val k | _ => 0 end) E)|]. split; [exact zero_account_ok|]. split; [exact zero_account_ok|reflexivity].
Qed.
