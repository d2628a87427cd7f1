(* What the conversion of an honest trace yields: the path of the account in the two states. *)
From Coq Require Import ZArith List Bool Lia.
From Verif Require Import Pocklington Fr Query Builder BuilderProofs Gadgets MptUpdate Bytes GadgetProofs UpdateRows TrieSpec UpdateComplete Util UtilProofs Serde Trie Storage Types TypesProofs Lookups LookupMain
  TrieProofs HonestTrace HonestSpec UpdateAssign BlockView BlocksOk RowsOk Chain UpperOk TreeChain.
Import ListNotations.
Open Scope Z_scope.

Lemma get_end {V} (t : tree V) k : forall d, get t d k = match tree_end t d k with Leaf k' v => if feqb k k' then Some v else None | _ => None end.
Proof. induction t as [|k' v|l IHl r IHr]; intros d; try reflexivity. cbn [get tree_end]. destruct (kbit k d); auto. Qed.
Lemma end_with_get {V} (t : tree V) k d v : end_with k v (tree_end t d k) -> get t d k = v.
Proof.
  rewrite get_end. destruct v as [v|]; cbn [end_with]; [intros ->; rewrite feqb_refl; reflexivity|]. intros [->|(k' & v' & -> & N)]; [reflexivity|].
  destruct (feqb k k') eqn:E; [|reflexivity]. apply feqb_eq in E. congruence.
Qed.
Lemma tree_path_end {V} H (hv : V -> Fr) (t : tree V) k : path_end_hash H (tree_nodes H hv t 0 k) (tree_leaf hv t 0 k) = Some (thash H hv (tree_end t 0 k)).
Proof. exact (end_merkle H k 0 _ _ _ _ (tree_end_hash H hv t 0 k) (tree_merkle H hv t 0 k)). Qed.
(* the rows of a trie whose value under one key changes *)
Lemma written_good {V} H (hv : V -> Fr) k ov nv (t t' : tree V) rows : written k ov nv t t' ->
  trie_rows_new H k (tree_nodes H hv t 0 k) (tree_nodes H hv t' 0 k) (tree_leaf hv t 0 k) (tree_leaf hv t' 0 k) = Some rows -> good H hv k ov nv 0 t t' rows.
Proof.
  intros W E. unfold trie_rows_new in E. rewrite !tree_path_end in E. cbn [obind] in E. exact (along_good H hv k ov nv _ _ 0 t t' (written_along k ov nv t t' W) rows E).
Qed.
Lemma written_get {V} k ov nv (t t' : tree V) : written k ov nv t t' -> get t 0 k = ov /\ get t' 0 k = nv.
Proof. intros W. destruct (along_ends k ov nv 0 t t' (written_along k ov nv t t' W)) as (A & B & _). split; eapply end_with_get; eassumption. Qed.

Lemma forall2_length {X Y} (R : X -> Y -> Prop) l l' : Forall2 R l l' -> length l = length l'.
Proof. induction 1; cbn [length]; congruence. Qed.
Lemma claim_from_inv ty tr c : claim_from ty tr = Some c -> exists o n kd, fr (p_root (fst (t_account_path tr))) = Some o /\ fr (p_root (snd (t_account_path tr))) = Some n /\
  claim_kind_from ty tr = Some kd /\ oassert (ptype_eqb (proof_type_of kd) ty) = Some tt /\ c = mkClaim o n (t_address tr) kd.
Proof. intros E. unfold claim_from in E. ob E. ob E. ob E. ob E. apply some_eq in E. exists a, a0, a1. destruct a2. auto. Qed.
Lemma fr_of_bytes x : fr (fr_to_bytes x) = Some x. Proof. apply fr_from_to. Qed.
Lemma root_of {V} H (hv : V -> Fr) (t : tree V) k : fr (p_root (trace_path H hv t k)) = Some (thash H hv t).
Proof. apply fr_from_to. Qed.
Definition end_path {V} (hv : V -> Fr) (k : Fr) (x : tree V) : Path := match x with Leaf k' v => mkP k' (Some (hv v)) | _ => mkP k None end.

Section Account.
  Context {H : Fr -> Fr -> Fr -> Fr} {ty : MPTProofType} {tr : SMTTrace} {p : Proof} {address : Z} {t t' : tree account} {ov nv : option account}.
  Notation k := (addr_key H address).
  Notation hv := (account_hash H).
  Hypothesis PF : proof_from H ty tr = Some p.
  Hypothesis Ad : 0 <= address < 2 ^ 160.
  Hypothesis TA : t_address tr = be_bytes 20 address.
  Hypothesis TK : t_account_path tr = (trace_path H hv t k, trace_path H hv t' k).
  Hypothesis W : written k ov nv t t'.
  Notation rows := (pf_account_trie_rows p).
  Notation eo := (tree_end t 0 k).
  Notation en := (tree_end t' 0 k).
  Lemma ok_address : address_ok (be_bytes 20 address) /\ be_val (be_bytes 20 address) = address.
  Proof. split; [split; [apply be_bytes_length|apply be_bytes_ok]|]. apply be_val_be_bytes. exact Ad. Qed.
  Record honest_path : Prop := {
    hp_address : c_address (pf_claim p) = be_bytes 20 address;
    hp_type : proof_type_of (c_kind (pf_claim p)) = ty;
    hp_kind : claim_kind_from ty tr = Some (c_kind (pf_claim p));
    hp_roots : c_old_root (pf_claim p) = state_root H t /\ c_new_root (pf_claim p) = state_root H t';
    hp_key : akey H p = k;
    hp_good : good H hv k ov nv 0 t t' rows;
    hp_even : even_proof p;
    hp_hashes : final_hashes H p = (thash H hv eo, thash H hv en);
    hp_final : final_path_type p = Some (match nth_error rows (pred (length rows)) with Some row => tr_path row | None => Common end);
    hp_old : pf_old p = end_path hv k eo;
    hp_new : pf_new p = end_path hv k en;
    hp_leafs : exists p0 p1 lh0 lh1, from_trace H ty tr p p0 p1 lh0 lh1 }.
  Theorem path_of : honest_path.
  Proof.
    destruct (proof_from_inv _ _ _ _ PF) as (p0 & p1 & lh0 & lh1 & F). assert (FL := F). destruct F as [F1 F2 F3 F4 F5 F6 F7 F8 F9 F10 F11 F12 F13 F14 F15 F16 F17 F18 F19].
    rewrite TK in F3. assert (p0 = trace_path H hv t k) as -> by congruence. assert (p1 = trace_path H hv t' k) as -> by congruence. clear F3.
    destruct (claim_from_inv _ _ _ F1) as (ro & rn & kd & Q1 & Q2 & E & E0 & F1'). clear F1. rename F1' into F1. rewrite TK in Q1, Q2. cbn [fst snd] in Q1, Q2.
    rewrite root_of in Q1, Q2. apply some_eq in Q1, Q2. subst ro rn. rewrite TA in F1.
    destruct ok_address as [OA OV].
    assert (C1 : c_address (pf_claim p) = be_bytes 20 address) by (rewrite F1; reflexivity).
    assert (C2 : c_kind (pf_claim p) = kd) by (rewrite F1; reflexivity).
    assert (C3 : c_old_root (pf_claim p) = state_root H t /\ c_new_root (pf_claim p) = state_root H t') by (rewrite F1; split; reflexivity).
    assert (C4 : akey H p = k) by (unfold akey; rewrite C1, account_key_spec by exact OA; rewrite OV; reflexivity).
    unfold akey in C4. rewrite C4 in *. cbn [trace_path p_path p_leaf] in *.
    pose proof (written_good H hv k ov nv t t' _ W F5) as G.
    assert (X : lh0 = thash H hv eo /\ lh1 = thash H hv en).
    { unfold leaf_hash in F8, F9. cbn [trace_path p_leaf] in F8, F9. pose proof (tree_end_hash H hv t 0 k) as Y0. pose proof (tree_end_hash H hv t' 0 k) as Y1. unfold end_hash, node_leaf_hash in Y0, Y1.
      destruct (tree_leaf hv t 0 k), (tree_leaf hv t' 0 k); split; congruence. }
    destruct X as [-> ->].
    assert (LP : forall x q, path_from H (c_address (pf_claim p)) (trace_path H hv x k) = Some q -> q = end_path hv k (tree_end x 0 k)).
    { clear - C1 C4 OA. intros x q E. unfold path_from in E. cbn [trace_path p_leaf] in E. unfold tree_leaf in E. pose proof (tree_end_not_node x 0 k).
      destruct (tree_end x 0 k) as [|k' v|]; [| |discriminate]; cbn [end_path].
      - rewrite C4 in E. congruence.
      - cbn [n_sibling n_value] in E. rewrite !fr_of_bytes in E. cbn [obind] in E. congruence. }
    pose proof (traces_agree H k _ _ _ _ _ _ (tree_path_end H hv t k) (tree_path_end H hv t' k)) as Ag. rewrite F10, F5 in Ag.
    assert (LL : length rows = length (pf_address_hash_traces p)) by (rewrite <- (forall2_length _ _ _ Ag), rev_length; reflexivity).
    assert (La : match pf_address_hash_traces p with [] => rows = [] | x :: _ => exists row, nth_error rows (pred (length rows)) = Some row /\ same_level x row end).
    { clear - Ag LL. destruct (pf_address_hash_traces p) as [|x l]; [destruct rows; [reflexivity|discriminate LL]|]. cbn [rev] in Ag. apply Forall2_app_inv_l in Ag. destruct Ag as (l1 & l2 & A1 & A2 & ->).
      inversion A2 as [|? row ? ? S1 S2]; subst. inversion S2; subst. exists row. split; [|exact S1]. rewrite app_length. cbn [length]. rewrite nth_error_app2 by lia. replace (pred _ - length l1)%nat with 0%nat by lia. reflexivity. }
    pose proof (LP t _ F16) as PO. pose proof (LP t' _ F17) as PN.
    assert (PH : forall x, path_hash H (end_path hv k (tree_end x 0 k)) = thash H hv (tree_end x 0 k)).
    { intros x. pose proof (tree_end_not_node x 0 k). destruct (tree_end x 0 k); [reflexivity|reflexivity|discriminate]. }
    constructor; auto.
    - rewrite C2. apply oassert_some in E0. destruct (proof_type_of kd), ty; try reflexivity; discriminate E0.
    - rewrite C2. exact E.
    - unfold final_hashes. destruct (chain_last H rows _ _ _ _ (gd_chain _ _ _ _ _ _ _ _ _ G)) as [L1 L2]. destruct (pf_address_hash_traces p) as [|x l].
      + rewrite PO, PN, !PH. reflexivity.
      + destruct La as (row & R1 & R2). rewrite <- L1, <- L2. destruct (length rows) as [|m] eqn:Lm; [cbn in LL; discriminate LL|]. cbn [pred] in R1. cbn [above_old above_new]. rewrite R1. destruct R2 as (_ & _ & -> & -> & _). reflexivity.
    - unfold final_path_type. destruct (pf_address_hash_traces p) as [|x l]; [rewrite La; reflexivity|]. destruct La as (row & -> & (_ & _ & _ & _ & _ & S)). unfold ht_path_type. destruct (tr_path row); [contradiction| | |]; destruct S as [-> ->]; reflexivity.
    - eauto 10.
  Qed.
End Account.
