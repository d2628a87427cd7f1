(* C60: honest updates pass Proof::check when the type of the top branch does not change, and only then. *)
From Coq Require Import ZArith List Bool Lia.
From Verif Require Import Pocklington Fr Query Builder BuilderProofs Gadgets MptUpdate Bytes GadgetProofs UpdateRows TrieSpec UpdateComplete Util UtilProofs Serde Trie Storage Types TypesProofs ClaimSpec Lookups LookupMain
  UpdateAssign TrieProofs HonestTrace HonestSpec RowView BlockView LeafOk Chain TreeChain HonestPath HonestInputs HonestBlock HonestConvert HonestAssign HonestMain TraceSpec TraceChecks CheckSpec ProofCheck CheckProofs.
Import ListNotations.
Open Scope Z_scope.

Section Honest.
  Variable H : Fr -> Fr -> Fr -> Fr.
  (** * The storage part *)
  Lemma dirs_ok ko kn rows : forall i, (forall j row, nth_error rows j = Some row -> row_direction_ok ko kn (i + j) row = Some tt) -> directions_ok ko kn i rows = Some tt.
  Proof.
    induction rows as [|row rows IH]; intros i E; [reflexivity|]. cbn [directions_ok]. pose proof (E 0%nat row eq_refl) as E0. rewrite Nat.add_0_r in E0. rewrite E0. cbn [obind]. apply IH. intros j r Hj. replace (S i + j)%nat with (i + S j)%nat by lia. apply E. exact Hj.
  Qed.
  Lemma leaf_key_of slot s v : 0 <= slot < 2 ^ 256 -> v <> Some 0 -> tree_all word_ok s -> end_with (slot_key H slot) v (tree_end s 0 (slot_key H slot)) ->
    exists l, storage_leaf_new H (slot_key H slot) (tree_leaf (word_hash H) s 0 (slot_key H slot)) (mkStateData (be_bytes 32 slot) (be_bytes 32 (oz v))) = Some l /\
      sl_key H l = match tree_end s 0 (slot_key H slot) with Leaf k' _ => k' | _ => slot_key H slot end.
  Proof.
    intros Sl Nz A E. pose proof (word_of s v A E) as Rv. pose proof (storage_key_hash_spec H slot Sl) as Sk. unfold storage_leaf_new. cbn [sd_value sd_key]. rewrite (hex_word _ Rv). cbn [obind]. unfold tree_leaf.
    destruct v as [w|]; cbn [end_with oz] in E |- *.
    - rewrite E. rewrite (proj2 (Z.eqb_neq w 0)) by congruence. rewrite (hex_word _ Sl). cbn [obind]. eexists. split; [reflexivity|]. cbn [sl_key]. exact Sk.
    - destruct E as [E|(k' & w & E & Ne)]; rewrite E; change (0 =? 0) with true; cbv iota.
      + eexists. split; reflexivity.
      + rewrite (hex_word _ Sl). cbn [obind]. rewrite Sk, feqb_refl. cbn [obind oassert n_sibling n_value]. rewrite !fr_of_bytes. cbn [obind]. eexists. split; reflexivity.
  Qed.
  Lemma leaf_keys slot s v l : 0 <= slot < 2 ^ 256 -> v <> Some 0 -> tree_all word_ok s -> end_with (slot_key H slot) v (tree_end s 0 (slot_key H slot)) ->
    storage_leaf_new H (slot_key H slot) (tree_leaf (word_hash H) s 0 (slot_key H slot)) (mkStateData (be_bytes 32 slot) (be_bytes 32 (oz v))) = Some l ->
    sl_hash H l = Some (thash H (word_hash H) (tree_end s 0 (slot_key H slot))) /\
    sl_key H l = match tree_end s 0 (slot_key H slot) with Leaf k' _ => k' | _ => slot_key H slot end.
  Proof.
    intros Sl Nz A E EL. destruct (leaf_new Sl s v Nz A E) as (l' & L1 & L2). destruct (leaf_key_of slot s v Sl Nz A E) as (l2 & L3 & L4). cbn [trace_path p_leaf] in L1. rewrite EL in L1, L3. apply some_eq in L1, L3. split; congruence.
  Qed.
  Section Slot.
    Variables (slot : Z) (sov snv : option Z) (s s' : tree Z) (tr : SMTTrace) (sp : StorageProof).
    Notation sk := (slot_key H slot).
    Hypothesis Sl : 0 <= slot < 2 ^ 256.
    Hypothesis WS : written sk sov snv s s'.
    Hypothesis Zo : sov <> Some 0.
    Hypothesis Zn : snv <> Some 0.
    Hypothesis Ao : tree_all word_ok s.
    Hypothesis An : tree_all word_ok s'.
    Hypothesis Po : placed s [].
    Hypothesis Pn : placed s' [].
    Hypothesis TC : t_common_state_root tr = None.
    Hypothesis TSK : t_state_key tr = Some (fr_to_bytes sk).
    Hypothesis TSP : t_state_path tr = (Some (trace_path H (word_hash H) s sk), Some (trace_path H (word_hash H) s' sk)).
    Hypothesis TSU : t_state_update tr = Some (Some (mkStateData (be_bytes 32 slot) (be_bytes 32 (oz sov))), Some (mkStateData (be_bytes 32 slot) (be_bytes 32 (oz snv)))).
    Hypothesis SP : storage_proof_from H tr = Some sp.
    Lemma slot_checked : storage_check H sp = Some tt.
    Proof.
      destruct (storage_proof_inv _ _ _ _ _ _ _ _ SP TC TSK TSP TSU) as (key & sk' & rows & old & new & Fk & R & _ & Lo & Ln & Es & _). rewrite fr_of_bytes in Fk. apply some_eq in Fk. subst key. cbn [trace_path p_path p_leaf] in R, Lo, Ln.
      destruct (along_ends sk sov snv 0 s s' (written_along sk sov snv s s' WS)) as (E1 & E2 & _).
      destruct (tree_rows H (word_hash H) sk s s' (along_off_path sk sov snv 0 s s' (written_along sk sov snv s s' WS))) as (rows' & R' & R0 & R1 & Ct). rewrite R in R'. apply some_eq in R'. subst rows'.
      destruct (leaf_keys slot s sov old Sl Zo Ao E1 Lo) as [Ho Ko]. destruct (leaf_keys slot s' snv new Sl Zn An E2 Ln) as [Hn Kn].
      rewrite Es. cbn [storage_check sp_old_root sp_new_root]. rewrite Ho, Hn, R0, R1. cbn [obind]. rewrite Ct. cbn [obind oassert]. rewrite dirs_ok.
      - cbn [obind]. pose proof (written_good H (word_hash H) sk sov snv s s' rows WS R) as G. destruct (chain_last H rows _ _ _ _ (gd_chain _ _ _ _ _ _ _ _ _ G)) as [L1 L2].
        destruct (rev rows) as [|re rest] eqn:Rv; [reflexivity|]. apply (f_equal (@rev _)) in Rv. rewrite rev_involutive in Rv. cbn [rev] in Rv. subst rows. rewrite app_length, Nat.add_1_r in L1, L2. cbn [above_old above_new] in L1, L2.
        rewrite nth_error_app2 in L1, L2 by lia. rewrite Nat.sub_diag in L1, L2. cbn [nth_error] in L1, L2. rewrite L1, L2, !feqb_refl. reflexivity.
      - intros j row Er. cbn [Nat.add]. pose proof (row_bits H _ _ _ _ _ _ R j row Er) as B. pose proof (path_at _ _ _ _ _ _ _ R j row Er) as P. pose proof (nth_lt _ _ _ Er) as L. rewrite (rows_length _ _ _ _ _ _ _ R) in L.
        assert (Bo : (j < length (tree_nodes H (word_hash H) s 0 sk))%nat -> fr_bit (sl_key H old) j = kbit sk j).
        { intros Lj. rewrite fr_bit_testbit, Ko. fold (kbit (match tree_end s 0 sk with Leaf k' _ => k' | _ => sk end) j). pose proof (tree_end_not_node s 0 sk). destruct (tree_end s 0 sk) as [|k' v|] eqn:Et; try reflexivity. exact (placed_bits H (word_hash H) s sk k' v j Po Et Lj). }
        assert (Bn : (j < length (tree_nodes H (word_hash H) s' 0 sk))%nat -> fr_bit (sl_key H new) j = kbit sk j).
        { intros Lj. rewrite fr_bit_testbit, Kn. fold (kbit (match tree_end s' 0 sk with Leaf k' _ => k' | _ => sk end) j). pose proof (tree_end_not_node s' 0 sk). destruct (tree_end s' 0 sk) as [|k' v|] eqn:Et; try reflexivity. exact (placed_bits H (word_hash H) s' sk k' v j Pn Et Lj). }
        unfold row_direction_ok. rewrite P, B. destruct (Nat.ltb_spec j (length (tree_nodes H (word_hash H) s 0 sk))) as [Lo'|Lo'].
        + destruct (Nat.ltb_spec j (length (tree_nodes H (word_hash H) s' 0 sk))) as [Ln'|Ln']; [rewrite Bo, Bn by assumption|rewrite Bo by assumption]; rewrite eqb_reflx; reflexivity.
        + rewrite Bn by lia. rewrite eqb_reflx. reflexivity.
    Qed.
  End Slot.

  (** * The account part *)
  Lemma directions_of key l0 l1 olds news traces : get_internal_hash_traces key l0 l1 olds news = Some traces -> trace_directions_ok key (length traces) 0 traces = Some tt.
  Proof.
    intros E. destruct (level _ _ _ _ _ _ E) as [Le Lv]. rewrite rev_length in Le.
    assert (D : forall i t, nth_error traces i = Some t -> ht_direction t = fr_bit key (length traces - i - 1)).
    { intros i t Hi. pose proof (nth_lt _ _ _ Hi) as L. destruct (Lv (length traces - i - 1)%nat ltac:(lia)) as (t' & E1 & I).
      rewrite (nth_error_nth' (rev traces) t) in E1 by (rewrite rev_length; lia). rewrite rev_nth in E1 by lia. replace (length traces - S (length traces - i - 1))%nat with i in E1 by lia. rewrite (nth_error_nth _ _ t Hi) in E1. apply some_eq in E1. subst t'.
      destruct (nth_error olds _), (nth_error news _); cbn [internal_hash_trace] in I; try discriminate I.
      - do 7 (apply obind_some in I; destruct I as (? & _ & I)). apply some_eq in I. subst t. reflexivity.
      - do 3 (apply obind_some in I; destruct I as (? & _ & I)). apply some_eq in I. subst t. reflexivity.
      - do 3 (apply obind_some in I; destruct I as (? & _ & I)). apply some_eq in I. subst t. reflexivity. }
    assert (G : forall l i len, (forall j t, nth_error l j = Some t -> ht_direction t = fr_bit key (len - (i + j) - 1)) -> trace_directions_ok key len i l = Some tt).
    { clear. induction l as [|t l IH]; intros i len D; [reflexivity|]. cbn [trace_directions_ok]. pose proof (D 0%nat t eq_refl) as D0. rewrite Nat.add_0_r in D0. rewrite D0, eqb_reflx. cbn [obind oassert]. apply IH. intros j t' Hj. replace (S i + j)%nat with (i + S j)%nat by lia. apply D. exact Hj. }
    apply G. exact D.
  Qed.
  Lemma side_leaf path leaf lh y : get_leaf path = Some leaf -> leaf_hash H path = Some lh -> y = lh -> leaf_ok H leaf lh y = Some tt.
  Proof.
    unfold get_leaf, leaf_hash. destruct (p_leaf path) as [l|].
    - intros G L _. ob G. ob G. apply some_eq in G. subst leaf. rewrite E, E0 in L. cbn [obind] in L. apply some_eq in L. subst lh. cbn [leaf_ok ln_key ln_value_hash]. rewrite feqb_refl. reflexivity.
    - intros G L ->. apply some_eq in G, L. subst leaf lh. reflexivity.
  Qed.
  Section Account.
    Context {ty : MPTProofType} {tr : SMTTrace} {p : Proof} {address : Z} {t t' : tree account} {ov nv : option account}.
    Notation k := (addr_key H address).
    Notation hv := (account_hash H).
    Hypothesis PF : proof_from H ty tr = Some p.
    Hypothesis Ad : 0 <= address < 2 ^ 160.
    Hypothesis TA : t_address tr = be_bytes 20 address.
    Hypothesis TK : t_account_path tr = (trace_path H hv t k, trace_path H hv t' k).
    Hypothesis W : written k ov nv t t'.
    Theorem account_checked : storage_check H (pf_storage p) = Some tt -> same_top t t' -> proof_check H p = Some tt.
    Proof.
      intros SC (l & r & l' & r' & -> & -> & SD). destruct (path_of PF Ad TA TK W) as [A1 _ _ [C1 C2] A5 _ _ A8 _ _ _ (p0 & p1 & lh0 & lh1 & F)].
      destruct F as [F1 F2 F3 F4 F5 F6 F7 F8 F9 F10 F11 F12 F13 F14 F15 F16 F17 F18 F19]. rewrite TK in F3. assert (p0 = trace_path H hv (Node l r) k) as -> by congruence. assert (p1 = trace_path H hv (Node l' r') k) as -> by congruence. clear F3.
      unfold akey in A5. unfold proof_check. rewrite SC. cbn [obind]. rewrite F11. cbn [obind]. rewrite (directions_of _ _ _ _ _ _ F10). cbn [obind].
      rewrite A5 in F10. cbn [trace_path p_path] in F10. destruct (level _ _ _ _ _ _ F10) as [Le Lv].
      assert (N : forall x y : tree account, tree_nodes H hv (Node x y) 0 k = mkNode (fr_to_bytes (thash H hv (if kbit k 0 then y else x))) (fr_to_bytes (thash H hv (if kbit k 0 then x else y))) (domain_u64 (branch_domain x y)) :: tree_nodes H hv (if kbit k 0 then y else x) 1 k).
      { intros x y. cbn [tree_nodes]. destruct (kbit k 0); reflexivity. }
      destruct (Lv 0%nat) as (t0 & E0 & I0); [rewrite N; cbn [length]; lia|]. rewrite !N in I0. cbn [nth_error] in I0. apply level_both in I0; [|cbn [length]; lia|cbn [length]; lia]. cbn [n_value n_sibling n_type] in I0.
      destruct I0 as (Sb & Dr & _ & Vo & Vc & Vs & d & d' & Od & On & Ds). rewrite fr_of_bytes in Vo, Vc, Vs. apply some_eq in Vo, Vc, Vs.
      assert (Dm : ht_domain t0 = branch_domain l r).
      { unfold own_domain in Od, On. cbn [n_type] in Od, On. rewrite <- SD in On. rewrite Od in On. apply some_eq in On. subst d'.
        assert (d = branch_domain l r) as ->. { destruct (tree_decodes H hv l r true) as (_ & _ & X & _). cbn [n_type] in X. congruence. }
        destruct Ds as [[_ X]|(_ & _ & [(_ & X & _)|(_ & X & _)])]; exact X. }
      assert (Vs' : thash H hv (if kbit k 0 then l' else r') = ht_sibling t0) by (rewrite <- Vs; apply (f_equal fr) in Sb; rewrite !fr_of_bytes in Sb; apply some_eq in Sb; auto).
      assert (Rt : trace_roots_ok H (pf_claim p) (pf_address_hash_traces p) = Some tt).
      { unfold trace_roots_ok. destruct (rev (pf_address_hash_traces p)) as [|x rest]; [discriminate E0|]. cbn in E0. apply some_eq in E0. subst x. rewrite Dr, Dm, C1, C2, <- Vo, <- Vc.
        unfold state_root. cbn [thash]. rewrite <- SD. unfold domain_hash. destruct (kbit k 0); [rewrite <- Vs at 1; rewrite <- Vs'|rewrite <- Vs at 1; rewrite <- Vs']; rewrite !feqb_refl; reflexivity. }
      rewrite Rt. cbn [obind]. unfold final_hashes in A8. destruct (pf_address_hash_traces p) as [|f rest]; [discriminate E0|].
      assert (X : lh0 = ht_open f /\ lh1 = ht_close f).
      { pose proof (leaf_hash_some (H := H) (address := address) (Node l r)) as Y0. pose proof (leaf_hash_some (H := H) (address := address) (Node l' r')) as Y1. rewrite Y0 in F8. rewrite Y1 in F9. apply some_eq in F8, F9. cbn [tree_end] in A8, F8, F9. apply pair_equal_spec in A8. destruct A8 as [Q1 Q2]. rewrite <- F8, <- F9. split; symmetry; assumption. }
      destruct X as [X0 X1]. rewrite F14, F15, X0, X1, !feqb_refl. cbn [obind oassert]. rewrite <- X0, <- X1, (side_leaf _ _ _ _ F6 F8 eq_refl), (side_leaf _ _ _ _ F7 F9 eq_refl). reflexivity.
    Qed.
    Theorem single_panics : is_node t = false -> is_node t' = false -> proof_check H p = None.
    Proof.
      intros N N'. destruct (proof_check H p) as [[]|] eqn:E; [exfalso|reflexivity]. destruct (proof_from_inv _ _ _ _ PF) as (p0 & p1 & lh0 & lh1 & F). pose proof (ft_paths _ _ _ _ _ _ _ _ F) as F3. pose proof (ft_traces _ _ _ _ _ _ _ _ F) as F10.
      rewrite TK in F3. assert (p0 = trace_path H hv t k) as -> by congruence. assert (p1 = trace_path H hv t' k) as -> by congruence. destruct (level _ _ _ _ _ _ F10) as [Le _]. cbn [trace_path p_path] in Le.
      pose proof (tree_nodes_nil H hv t 0 k) as Z. pose proof (tree_nodes_nil H hv t' 0 k) as Z'. rewrite N in Z. rewrite N' in Z'. destruct (tree_nodes H hv t 0 k); [|discriminate Z]. destruct (tree_nodes H hv t' 0 k); [|discriminate Z']. cbn in Le. rewrite rev_length in Le.
      destruct (pa_end _ _ (check_passed H p E)) as (x & rest & Q & _). rewrite Q in Le. discriminate Le.
    Qed.
    (* with two branches at the top whose types differ, the one type recorded cannot give both roots *)
    Theorem account_rejected l r l' r' : t = Node l r -> t' = Node l' r' -> collision_free H (inputs_of H t t') -> proof_check H p = Some tt -> branch_domain l r = branch_domain l' r'.
    Proof.
      intros Et Et' CF Ck. destruct (path_of PF Ad TA TK W) as [A1 _ _ [C1 C2] A5 _ _ A8 _ _ _ (p0 & p1 & lh0 & lh1 & F)]. pose proof (ft_paths _ _ _ _ _ _ _ _ F) as F3. pose proof (ft_traces _ _ _ _ _ _ _ _ F) as F10. clear F.
      rewrite TK in F3. assert (p0 = trace_path H hv t k) as -> by congruence. assert (p1 = trace_path H hv t' k) as -> by congruence. clear F3.
      destruct (pa_top _ _ (check_passed H p Ck)) as (t0 & rest & Rv & Ro & Rn). clear A8. unfold akey in A5. rewrite A5 in F10. cbn [trace_path p_path] in F10. destruct (level _ _ _ _ _ _ F10) as [Le Lv].
      assert (N : forall x y : tree account, tree_nodes H hv (Node x y) 0 k = mkNode (fr_to_bytes (thash H hv (if kbit k 0 then y else x))) (fr_to_bytes (thash H hv (if kbit k 0 then x else y))) (domain_u64 (branch_domain x y)) :: tree_nodes H hv (if kbit k 0 then y else x) 1 k).
      { intros x y. cbn [tree_nodes]. destruct (kbit k 0); reflexivity. }
      rewrite Et, Et', !N in Lv. destruct (Lv 0%nat) as (t1 & E0 & I0); [cbn [length]; lia|]. cbn [nth_error] in I0. apply level_both in I0; [|cbn [length]; lia|cbn [length]; lia]. cbn [n_value n_sibling n_type] in I0. rewrite Rv in E0. cbn in E0. apply some_eq in E0. subst t1.
      destruct I0 as (Sb & Dr & _ & Vo & Vc & Vs & _). rewrite fr_of_bytes in Vo, Vc, Vs. apply some_eq in Vo, Vc, Vs.
      assert (Vs' : thash H hv (if kbit k 0 then l' else r') = ht_sibling t0) by (rewrite <- Vs; apply (f_equal fr) in Sb; rewrite !fr_of_bytes in Sb; apply some_eq in Sb; auto).
      rewrite C1, Et, Dr, <- Vo in Ro. rewrite <- Vs in Ro. rewrite C2, Et', Dr, <- Vc, <- Vs' in Rn. unfold state_root in Ro, Rn. cbn [thash] in Ro, Rn.
      assert (Io : forall x y d, Node x y = t \/ Node x y = t' -> inputs_of H t t' (thash H hv x, thash H hv y, fdom d)).
      { intros x y d Q. split; [|exists d; reflexivity]. exists (fdom (branch_domain x y)). right. apply in_or_app. destruct Q as [<-|<-]; [left|right]; left; reflexivity. }
      assert (Q : ht_domain t0 = branch_domain l r).
      { apply fdom_inj. assert (X := proj1 CF (thash H hv l, thash H hv r, fdom (branch_domain l r)) (thash H hv l, thash H hv r, fdom (ht_domain t0)) ltac:(apply Io; left; congruence) ltac:(apply Io; left; congruence)). cbn [fst snd] in X.
        apply pair_equal_spec in X; [destruct X as [_ X]; symmetry; exact X|]. rewrite Ro at 1. destruct (kbit k 0); reflexivity. }
      assert (Q' : ht_domain t0 = branch_domain l' r').
      { apply fdom_inj. assert (X := proj1 CF (thash H hv l', thash H hv r', fdom (branch_domain l' r')) (thash H hv l', thash H hv r', fdom (ht_domain t0)) ltac:(apply Io; right; congruence) ltac:(apply Io; right; congruence)). cbn [fst snd] in X.
        apply pair_equal_spec in X; [destruct X as [_ X]; symmetry; exact X|]. rewrite Rn at 1. destruct (kbit k 0); reflexivity. }
      congruence.
    Qed.
  End Account.
  (* every honest update *)
  Theorem honest_written u : honest_update H u -> t_address (u_trace u) = be_bytes 20 (u_address u) /\
    t_account_path (u_trace u) = (trace_path H (account_hash H) (u_old u) (addr_key H (u_address u)), trace_path H (account_hash H) (u_new u) (addr_key H (u_address u))) /\
    exists ov nv, written (addr_key H (u_address u)) ov nv (u_old u) (u_new u).
  Proof.
    intros [HO _ _ _ _]. destruct u as [address t t' ty tr]. cbn [u_address u_old u_new u_kind u_trace] in *.
    destruct HO as [a x W|a x W|a x W|a x W|a x W|x Nx W|x Nx W|ty Ty W|a slot ov nv s' Sl Some1 Zo Zn WS W|a slot Sl G Gs Eq|slot Sl W]; (split; [reflexivity|]; split; [reflexivity|]); eauto.
    exists (Some a), (Some a). split; [exact G|]. rewrite Eq. symmetry. apply modify_same. exact G.
  Qed.
  Lemma slot_fields t t' address slot s s' v v' : storage_of (get t 0 (addr_key H address)) = s -> storage_of (get t' 0 (addr_key H address)) = s' -> get s 0 (slot_key H slot) = v -> get s' 0 (slot_key H slot) = v' ->
    let tr := storage_trace_of H t t' address slot in
    t_common_state_root tr = None /\ t_state_key tr = Some (fr_to_bytes (slot_key H slot)) /\
    t_state_path tr = (Some (trace_path H (word_hash H) s (slot_key H slot)), Some (trace_path H (word_hash H) s' (slot_key H slot))) /\
    t_state_update tr = Some (Some (mkStateData (be_bytes 32 slot) (be_bytes 32 (oz v))), Some (mkStateData (be_bytes 32 slot) (be_bytes 32 (oz v')))).
  Proof.
    intros E E' V V'. unfold storage_trace_of. cbv zeta. cbn [t_common_state_root t_state_key t_state_path t_state_update]. rewrite E, E'. unfold slot_value_of. rewrite V, V'. split; [reflexivity|]. split; [reflexivity|]. split; reflexivity.
  Qed.
  Lemma slot_update_checked t t' address slot s s' v v' sp : storage_of (get t 0 (addr_key H address)) = s -> storage_of (get t' 0 (addr_key H address)) = s' -> 0 <= slot < 2 ^ 256 -> written (slot_key H slot) v v' s s' ->
    v <> Some 0 -> v' <> Some 0 -> tree_all word_ok s -> tree_all word_ok s' -> placed s [] -> placed s' [] -> storage_proof_from H (storage_trace_of H t t' address slot) = Some sp -> storage_check H sp = Some tt.
  Proof.
    intros E E' Sl WS Zo Zn As As' Po Pn SP. destruct (written_get _ _ _ _ _ WS) as [V V']. destruct (slot_fields t t' address slot s s' v v' E E' V V') as (T1 & T2 & T3 & T4). exact (slot_checked slot v v' s s' _ sp Sl WS Zo Zn As As' Po Pn T1 T2 T3 T4 SP).
  Qed.
  Lemma get_all (P : account -> Prop) x k a : tree_all P x -> get x 0 k = Some a -> P a.
  Proof.
    intros Ax G. rewrite get_end in G. destruct (tree_end x 0 k) as [|k' v|] eqn:E; try discriminate G. destruct (feqb _ k') eqn:Q; [|discriminate G]. apply some_eq in G. subst v. exact (HonestInputs.end_all P x _ k' a 0 Ax E).
  Qed.
  Lemma root_checked tr b sp : t_common_state_root tr = Some b -> storage_proof_from H tr = Some sp -> storage_check H sp = Some tt.
  Proof. intros E SP. unfold storage_proof_from in SP. rewrite E in SP. destruct (fr b); [|discriminate SP]. cbn [obind] in SP. apply some_eq in SP. rewrite <- SP. reflexivity. Qed.
  Lemma account_trace_checked t t' address sp : storage_proof_from H (account_trace_of H t t' address) = Some sp -> storage_check H sp = Some tt.
  Proof. apply (root_checked (account_trace_of H t t' address) (fr_to_bytes (storage_root H (storage_of (match get t 0 (addr_key H address) with Some a => Some a | None => get t' 0 (addr_key H address) end))))). reflexivity. Qed.
  Lemma empty_written k : written (V := Z) k None None Empty Empty.
  Proof. split; reflexivity. Qed.
  Theorem honest_storage_checked u p : honest_update H u -> converts H u p -> storage_check H (pf_storage p) = Some tt.
  Proof.
    intros [HO Ad (Ft & _ & Fs) (Ft' & _ & Fs') _] PF. destruct u as [address t t' ty tr]. unfold converts in PF. cbn [u_address u_old u_new u_kind u_trace] in *.
    destruct (proof_from_inv _ _ _ _ PF) as (p0 & p1 & lh0 & lh1 & F). pose proof (ft_storage _ _ _ _ _ _ _ _ F) as SP. clear F PF. revert SP. generalize (pf_storage p). clear p. intros sp SP.
    destruct HO as [a x W|a x W|a x W|a x W|a x W|x Nx W|x Nx W|ty Ty W|a slot ov nv s' Sl Some1 Zo Zn WS W|a slot Sl G Gs Eq|slot Sl W].
    1-8: exact (account_trace_checked _ _ _ _ SP).
    - destruct (written_get _ _ _ t t' W) as [G G']. pose proof (get_all _ t _ a Ft G) as [(_ & _ & _ & _ & As) _]. pose proof (get_all _ t' _ _ Ft' G') as [(_ & _ & _ & _ & As') _]. pose proof (proj1 (get_all _ t _ a Fs G)) as Po. pose proof (proj1 (get_all _ t' _ _ Fs' G')) as Pn. cbn [storage set_storage] in As', Pn.
      refine (slot_update_checked t t' address slot (storage a) s' ov nv sp _ _ Sl WS Zo Zn As As' Po Pn SP); [rewrite G|rewrite G']; reflexivity.
    - pose proof (get_all _ t _ a Ft G) as [(_ & _ & _ & _ & As) _]. pose proof (proj1 (get_all _ t _ a Fs G)) as Po.
      refine (slot_update_checked t t' address slot (storage a) (storage a) None None sp _ _ Sl (conj Gs eq_refl) ltac:(discriminate) ltac:(discriminate) As As Po Po SP); rewrite ?Eq, G; reflexivity.
    - destruct (written_get _ _ _ t t' W) as [G G'].
      refine (slot_update_checked t t' address slot Empty Empty None None sp _ _ Sl (empty_written _) ltac:(discriminate) ltac:(discriminate) Logic.I Logic.I Logic.I Logic.I SP); [rewrite G|rewrite G']; reflexivity.
  Qed.
  Theorem honest_checked u p : honest_update H u -> converts H u p -> same_top (u_old u) (u_new u) -> proof_check H p = Some tt.
  Proof.
    intros HU C ST. destruct (honest_written u HU) as (TA & TK & ov & nv & W). exact (account_checked C (hu_address _ _ HU) TA TK W (honest_storage_checked u p HU C) ST).
  Qed.
  Theorem honest_single_panics u p : honest_update H u -> converts H u p -> is_node (u_old u) = false -> is_node (u_new u) = false -> proof_check H p = None.
  Proof.
    intros HU C N N'. destruct (honest_written u HU) as (TA & TK & ov & nv & W). exact (single_panics C TK N N').
  Qed.
  (* the check passes exactly if the type of the branch at the top stays the same *)
  Theorem honest_checked_iff u p l r l' r' : honest_update H u -> converts H u p -> u_old u = Node l r -> u_new u = Node l' r' -> (proof_check H p = Some tt <-> branch_domain l r = branch_domain l' r').
  Proof.
    intros HU C E E'. destruct (honest_written u HU) as (TA & TK & ov & nv & W). split.
    - exact (account_rejected C (hu_address _ _ HU) TA TK W l r l' r' E E' (hu_hash _ _ HU)).
    - intros Q. apply (honest_checked u p HU C). exists l, r, l', r'. auto.
  Qed.
End Honest.
