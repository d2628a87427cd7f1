(* The block of an honest update is accepted. *)
From Coq Require Import ZArith List Bool Lia.
From Verif Require Import Pocklington Fr Query Builder BuilderProofs Gadgets MptUpdate Bytes GadgetProofs UpdateRows TrieSpec UpdateComplete Util UtilProofs Serde Trie Storage Types TypesProofs Lookups LookupMain
  Assign AssignProofs UpdateAssign MptAssign GadgetMain GadgetMain2 TrieProofs HonestTrace HonestSpec RowView BlockView BlocksOk RowsOk RowCells BlockRows Chain UpperOk LeafOk StorageOk TreeChain HonestPath TablesOk HonestInputs.
Import ListNotations.
Open Scope Z_scope.

Lemma storage_proof_inv H tr s kb pa pb eo en : storage_proof_from H tr = Some s -> t_common_state_root tr = None -> t_state_key tr = Some kb -> t_state_path tr = (Some pa, Some pb) -> t_state_update tr = Some (Some eo, Some en) ->
  exists key sk rows old new, fr kb = Some key /\ trie_rows_new H key (p_path pa) (p_path pb) (p_leaf pa) (p_leaf pb) = Some rows /\ u256_from_hex (sd_key eo) = Some sk /\
    storage_leaf_new H key (p_leaf pa) eo = Some old /\ storage_leaf_new H key (p_leaf pb) en = Some new /\ s = SUpdate sk key rows old new /\
    sp_old_root H s = fr (p_root pa) /\ sp_new_root H s = fr (p_root pb).
Proof.
  intros E TC TK TP TU. unfold storage_proof_from in E. rewrite TC, TK, TP, TU in E. cbn [obind fst snd] in E.
  apply obind_some in E. destruct E as (key & E1 & E). apply obind_some in E. destruct E as (rows & E2 & E). ob E. clear E0 a. apply obind_some in E. destruct E as (sk & E3 & E).
  apply obind_some in E. destruct E as (old & E4 & E). apply obind_some in E. destruct E as (new & E5 & E). ob E. ob E. ob E. ob E. ob E. ob E. apply some_eq in E. subst s.
  apply oassert_some, feqb_eq in E7. apply oassert_some, feqb_eq in E10. exists key, sk, rows, old, new. split; [exact E1|]. split; [exact E2|]. split; [exact E3|]. split; [exact E4|]. split; [exact E5|]. split; [reflexivity|]. split; congruence.
Qed.
Lemma claim_storage_inv ty tr kd eo en : claim_kind_from ty tr = Some kd -> t_state_update tr = Some (Some eo, Some en) ->
  exists o n k, u256_from_hex (sd_value eo) = Some o /\ u256_from_hex (sd_value en) = Some n /\ u256_from_hex (sd_key eo) = Some k /\
    kd = if (o =? 0) && (n =? 0) then KIsEmpty (Some k) else KStorage k (nonzero o) (nonzero n).
Proof.
  intros E TU. unfold claim_kind_from in E. rewrite TU in E. destruct (t_account_update tr) as [x y]. ob E. apply obind_some in E. destruct E as (o & E1 & E). apply obind_some in E. destruct E as (n & E2 & E). ob E.
  apply obind_some in E. destruct E as (k & E4 & E). exists o, n, k. split; [exact E1|]. split; [exact E2|]. split; [exact E4|]. destruct ((o =? 0) && (n =? 0)); congruence.
Qed.
Lemma along_empty {V} k (ov nv : option V) d t t' : along k ov nv d t t' -> is_node t = false -> is_node t' = false ->
  (path_between ov nv = ExtensionNew -> t = Empty) /\ (path_between ov nv = ExtensionOld -> t' = Empty).
Proof.
  intros A N1 N2. inversion A as [d' x x' P| |]; subst; try discriminate N1. inversion P; subst; cbn [path_between]; (split; intros Q; try discriminate Q); try reflexivity.
  - match goal with F : fork _ _ _ _ _ _ |- _ => destruct (fork_end k _ _ _ _ _ F) as (_ & X & _); congruence end.
  - match goal with F : fork _ _ _ _ _ _ |- _ => destruct (fork_end k _ _ _ _ _ F) as (_ & X & _); congruence end.
Qed.
Lemma modify_same {V} (t : tree V) k v : forall d, get t d k = Some v -> modify (fun _ => v) t d k = t.
Proof.
  induction t as [|k' x|l IHl r IHr]; intros d G; cbn [get modify] in *; [reflexivity| |].
  - destruct (feqb k k'); [congruence|reflexivity].
  - destruct (kbit k d); [rewrite IHr by exact G|rewrite IHl by exact G]; reflexivity.
Qed.

Section Block.
  Context {H : Fr -> Fr -> Fr -> Fr} {e : env} {proofs : list Proof} {traces : list Trace} {lookups : list (Fr * Z * bool)} {reprs : Reprs} {p : Proof} {address : Z} {t t' : tree account}.
  Hypothesis ET : hash_traces H proofs = Some traces.
  Hypothesis EK : key_bit_lookups H proofs = Some lookups.
  Hypothesis ER : byte_representations proofs = Some reprs.
  Hypothesis T : tables e traces lookups (re_u32s reprs) (re_u64s reprs) (re_u128s reprs) (re_frs reprs) (mpt_update_keys H proofs).
  Hypothesis Hp : In p proofs.
  Hypothesis CF : collision_free H (inputs_of H t t').
  Context {ty : MPTProofType} {tr : SMTTrace} {ov nv : option account}.
  Notation k := (addr_key H address).
  Notation hv := (account_hash H).
  Notation S := (state_inputs H t ++ state_inputs H t').
  Hypothesis PF : proof_from H ty tr = Some p.
  Hypothesis Ad : 0 <= address < 2 ^ 160.
  Hypothesis TA : t_address tr = be_bytes 20 address.
  Hypothesis TK : t_account_path tr = (trace_path H hv t k, trace_path H hv t' k).
  Hypothesis TU : t_account_update tr = (option_map data_of ov, option_map data_of nv).
  Hypothesis W : written k ov nv t t'.
  Notation rows := (pf_account_trie_rows p).
  Notation eo := (tree_end t 0 k).
  Notation en := (tree_end t' 0 k).
  Notation kt := (proof_type_of (c_kind (pf_claim p))).
  Notation r := (echal e).
  Let HP := path_of PF Ad TA TK W.
  Let AE := along_ends k ov nv 0 t t' (written_along k ov nv t t' W).
  Lemma old_in k' a : eo = Leaf k' a -> In (k', hv a, fdom DLeaf) S /\ incl (account_inputs H a) S.
  Proof. intros E. destruct (@end_inputs H account hv (account_inputs H) t k k' a 0 E) as [A B]. split; [apply in_or_app; left; exact A|apply incl_appl, B]. Qed.
  Lemma new_in k' a : en = Leaf k' a -> In (k', hv a, fdom DLeaf) S /\ incl (account_inputs H a) S.
  Proof. intros E. destruct (@end_inputs H account hv (account_inputs H) t' k k' a 0 E) as [A B]. split; [apply in_or_app; right; exact A|apply incl_appr, B]. Qed.
  Lemma own : extension_is_own (account_key H (c_address (pf_claim p))) p.
  Proof.
    fold (akey H p). rewrite (hp_key HP). destruct AE as (A1 & A2 & _). split; intros row Hr P; destruct (gd_paths _ _ _ _ _ _ _ _ _ (hp_good HP) row Hr) as [X|X]; try congruence; rewrite X in P.
    - destruct ov, nv; try discriminate P. rewrite (hp_old HP). cbn [end_with] in A1. rewrite A1. reflexivity.
    - destruct ov, nv; try discriminate P. rewrite (hp_new HP). cbn [end_with] in A2. rewrite A2. reflexivity.
  Qed.
  Lemma other_one other data : other_key_and_data (akey H p) (pf_old p) (pf_new p) = Some (other, data) -> other = pth_key (pf_old p) \/ other = pth_key (pf_new p).
  Proof.
    unfold other_key_and_data. destruct (negb (feqb (pth_key (pf_old p)) _)); [|destruct (negb (feqb (pth_key (pf_new p)) _))]; intros E; [ob E; ob E|ob E|]; apply some_eq in E;
      apply (f_equal fst) in E; cbn [fst] in E; auto.
  Qed.
  Lemma tab other : other = pth_key (pf_old p) \/ other = pth_key (pf_new p) -> upper_tables H e p r other.
  Proof.
    intros Ho. destruct (reprs_cover _ _ _ ER Hp) as (C1 & C2 & _). destruct (ok_address Ad) as [OA OV]. rewrite <- (hp_address HP) in OA. destruct (address_val _ OA) as (_ & R1 & R2). clear OA OV.
    destruct (keys_cover_roots H proofs p Hp) as [K1 K2]. pose proof (account_bits_covered H proofs lookups p ty tr other EK Hp PF own Ho) as Bt.
    constructor.
    - apply (tb_hash _ _ _ _ _ _ _ _ T). rewrite <- fz_mul. apply (address_covered H proofs traces p ET Hp).
    - apply (tb_128 _ _ _ _ _ _ _ _ T _ C1 R1).
    - apply (tb_32 _ _ _ _ _ _ _ _ T _ C2 R2).
    - apply (tb_root _ _ _ _ _ _ _ _ T _ K1).
    - apply (tb_root _ _ _ _ _ _ _ _ T _ K2).
    - apply (rows_hit_of H e traces); [intros; apply (tb_hash _ _ _ _ _ _ _ _ T); assumption|apply (account_rows_covered H proofs traces p ET Hp)].
    - intros j row Hj. destruct (Bt j row Hj) as [B1 B2]. split; [apply (tb_bit _ _ _ _ _ _ _ _ T), B1|]. intros P. apply (tb_bit _ _ _ _ _ _ _ _ T), (B2 P).
  Qed.
  Lemma chained : chain H (c_old_root (pf_claim p)) (c_new_root (pf_claim p)) rows (fst (final_hashes H p)) (snd (final_hashes H p)).
  Proof. rewrite (hp_hashes HP). cbn [fst snd]. destruct (hp_roots HP) as [-> ->]. exact (gd_chain _ _ _ _ _ _ _ _ _ (hp_good HP)). Qed.
  (* a place without the account *)
  Lemma leaf_hit k' a : eo = Leaf k' a -> hit e k' (hv a) DLeaf (thash H hv eo).
  Proof.
    intros E. pose proof (leaf_covered H proofs traces p (pf_old p) (hv a) ET Hp (or_introl eq_refl)) as L. rewrite (hp_old HP), E in L. rewrite E. apply (tb_hash _ _ _ _ _ _ _ _ T). apply L. reflexivity.
  Qed.
  Lemma absent_old other data : ov = None -> (forall a, nv = Some a -> True) -> other_key_and_data (akey H p) (pf_old p) (pf_new p) = Some (other, data) -> absent e (akey H p) other (fst (final_hashes H p)) data.
  Proof.
    intros O _ E. rewrite (hp_hashes HP), (hp_key HP) in *. cbn [fst]. rewrite (hp_old HP), (hp_new HP) in E. destruct AE as (A1 & A2 & A3 & _). rewrite O in A1. cbn [end_with] in A1. destruct A1 as [A1|(k' & a & A1 & Ne)].
    - rewrite A1 in *. cbn [end_path other_key_and_data pth_key] in E. left. split; [|reflexivity]. unfold other_key_and_data in E. cbn [pth_key] in E. rewrite feqb_refl in E. cbn [negb] in E.
      assert (X : pth_key (end_path hv k en) = k).
      { destruct nv as [a|]; cbn [end_with] in A2; [rewrite A2; reflexivity|]. rewrite <- (A3 O eq_refl). reflexivity. }
      rewrite X, feqb_refl in E. cbn [negb] in E. apply some_eq in E. exact (f_equal fst E).
    - pose proof (leaf_hit _ _ A1) as Lh. destruct (old_in _ _ A1) as [I1 _]. rewrite A1 in *. cbn [end_path] in E. unfold other_key_and_data in E. cbn [pth_key pth_leaf_data_hash] in E.
      rewrite (proj2 (feqb_neq k' k) Ne) in E. cbn [negb] in E. ob E. cbn [obind] in E. apply some_eq in E. right. assert (other = k') by (symmetry; exact (f_equal fst E)). assert (data = hv a) by (symmetry; exact (f_equal snd E)). subst other data.
      split; [auto|]. split; [|exact Lh]. exact (cf_nonzero CF _ _ _ DLeaf I1).
  Qed.
  Lemma accounts_of : pf_old_account p = None <-> ov = None.
  Proof.
    destruct (hp_leafs HP) as (p0 & p1 & l0 & l1 & F). pose proof (ft_old_account _ _ _ _ _ _ _ _ F) as A. rewrite TU in A. cbn [fst] in A. unfold account_of in A. destruct ov as [a|]; cbn [option_map] in A; [|apply some_eq in A; rewrite <- A; tauto].
    ob A. ob A. apply some_eq in A. rewrite <- A. split; discriminate.
  Qed.
  Lemma accounts_of_new : pf_new_account p = None <-> nv = None.
  Proof.
    destruct (hp_leafs HP) as (p0 & p1 & l0 & l1 & F). pose proof (ft_new_account _ _ _ _ _ _ _ _ F) as A. rewrite TU in A. cbn [snd] in A. unfold account_of in A. destruct nv as [a|]; cbn [option_map] in A; [|apply some_eq in A; rewrite <- A; tauto].
    ob A. ob A. apply some_eq in A. rewrite <- A. split; discriminate.
  Qed.
  Lemma no_account_of : no_account p = (is_none ov && is_none nv)%bool.
  Proof.
    unfold no_account. pose proof accounts_of. pose proof accounts_of_new. destruct (pf_old_account p), ov; cbn [is_none]; try (exfalso; intuition congruence); destruct (pf_new_account p), nv; cbn [is_none]; try reflexivity; exfalso; intuition congruence.
  Qed.
  Lemma rows_end : no_account p = true -> proof_n_rows p = (1 + length rows)%nat.
  Proof. intros N. unfold proof_n_rows. unfold no_account in N. rewrite N. pose proof (hp_even HP) as E. unfold even_proof in E. lia. Qed.
  (* no account before, none after *)
  Theorem none_ok : ov = None -> nv = None -> @ov_ p r = f0 -> @nv_ p r = f0 -> ~ In kt [AccountDestructed; StorageChanged; PoseidonCodeHashExists] -> block_accepted H e r p.
  Proof.
    intros O N Zo Zn Kt o w Ew HR St. destruct (block_view H p r o w (hp_even HP) Ew) as (other & data & final & B).
    assert (NA : no_account p = true) by (rewrite no_account_of, O, N; reflexivity). pose proof (rows_end NA) as NR.
    assert (Eo : o + 1 + Z.of_nat (length rows) = o + Z.of_nat (proof_n_rows p)) by lia.
    assert (Same : t' = t) by (clear - W O N; rewrite O, N in W; exact (proj2 W)).
    assert (RC : forall row, In row rows -> tr_path row = Common /\ tr_old row = tr_new row) by (intros row; apply (gd_same _ _ _ _ _ _ _ _ _ (hp_good HP)); symmetry; exact Same).
    rewrite <- Eo. destruct St as [S1 S2]. rewrite <- Eo in S1, S2.
    apply (upper_ok B HR (hp_even HP) S1 S2); try (intros X; congruence); try tauto.
    - exact (tab other (other_one _ _ (ba_other _ _ _ _ _ _ _ _ B))).
    - constructor.
      + intros X. apply Kt. rewrite X. left. reflexivity.
      + intros row Hr. rewrite (proj1 (RC row Hr)). discriminate.
      + intros row Hr X. rewrite (proj1 (RC row Hr)) in X. discriminate X.
      + intros _. split; [exact Zo|]. split; [exact Zn|]. split; [|exact RC]. destruct (hp_roots HP) as [-> ->]. rewrite Same. reflexivity.
      + intros _. split; [exact NA|]. split; [exact Zo|]. split; [exact Zn|]. split; [rewrite (hp_hashes HP), Same; reflexivity|]. exact (absent_old other data O (fun _ _ => Logic.I) (ba_other _ _ _ _ _ _ _ _ B)).
      + left. split; [reflexivity|]. intros X. apply Kt. right. exact X.
    - exact chained.
    - intros row Hr. pose proof (gd_last _ _ _ _ _ _ _ _ _ (hp_good HP) row Hr) as X. unfold link_end in *. rewrite (proj1 (RC row (nth_error_In _ _ Hr))). exact Logic.I.
  Qed.

  (** * The account is there before and after *)
  Lemma traces_new a' : nv = Some a' -> account_ok a' -> sp_new_root H (pf_storage p) = Some (storage_root H (storage a')) ->
    en = Leaf k a' /\ pf_new_account_hash_traces p = lv_traces H (akey H p) (lv_acc H a') /\ snd (final_hashes H p) = lv_top H (akey H p) (lv_acc H a') /\ lv_hit H e (akey H p) (lv_acc H a') /\ snd (final_hashes H p) <> f0.
  Proof.
    intros N OK SN. destruct AE as (_ & A2 & _). rewrite N in A2. cbn [end_with] in A2. split; [exact A2|].
    destruct (hp_leafs HP) as (p0 & p1 & l0 & l1 & F). pose proof (ft_new_traces _ _ _ _ _ _ _ _ F) as A. rewrite TU, N, SN in A. cbn [snd option_map traces_of obind] in A. apply some_eq in A. rewrite traces_lv in A.
    fold (akey H p) in A. fold (lv_acc H a') in A. split; [symmetry; exact A|]. rewrite (hp_hashes HP), (hp_key HP), A2 in *. cbn [snd thash].
    split; [unfold lv_top; rewrite (acc_hash a' OK); reflexivity|]. destruct (new_in _ _ A2) as [I1 I2]. split; [|exact (cf_nonzero CF _ _ _ DLeaf I1)].
    apply (acc_hit ET T Hp CF k a' OK I1 I2). right. symmetry. exact A.
  Qed.
  Lemma traces_old a : ov = Some a -> account_ok a -> sp_old_root H (pf_storage p) = Some (storage_root H (storage a)) ->
    eo = Leaf k a /\ pf_old_account_hash_traces p = lv_traces H (akey H p) (lv_acc H a) /\ fst (final_hashes H p) = lv_top H (akey H p) (lv_acc H a) /\ lv_hit H e (akey H p) (lv_acc H a) /\ fst (final_hashes H p) <> f0.
  Proof.
    intros N OK SN. destruct AE as (A2 & _). rewrite N in A2. cbn [end_with] in A2. split; [exact A2|].
    destruct (hp_leafs HP) as (p0 & p1 & l0 & l1 & F). pose proof (ft_old_traces _ _ _ _ _ _ _ _ F) as A. rewrite TU, N, SN in A. cbn [fst option_map traces_of obind] in A. apply some_eq in A. rewrite traces_lv in A.
    fold (akey H p) in A. fold (lv_acc H a) in A. split; [symmetry; exact A|]. rewrite (hp_hashes HP), (hp_key HP), A2 in *. cbn [fst thash].
    split; [unfold lv_top; rewrite (acc_hash a OK); reflexivity|]. destruct (old_in _ _ A2) as [I1 I2]. split; [|exact (cf_nonzero CF _ _ _ DLeaf I1)].
    apply (acc_hit ET T Hp CF k a OK I1 I2). left. symmetry. exact A.
  Qed.
  Lemma last_row : final_path_type p = Some Common \/ final_path_type p = Some (path_between ov nv).
  Proof.
    rewrite (hp_final HP). destruct (nth_error rows (pred (length rows))) as [row|] eqn:E; [|auto]. destruct (gd_paths _ _ _ _ _ _ _ _ _ (hp_good HP) row (nth_error_In _ _ E)) as [-> | ->]; auto.
  Qed.
  (* the rows above the account leaf, and the leaf rows *)
  Definition row_above : rowf -> Prop := fun f' => f_pt f' = kt /\ f_skr f' = skr_ (p := p) (r := r) /\ f_ov f' = @ov_ p r /\ f_nv f' = @nv_ p r /\ f_key f' = akey H p /\
    f_old f' = fst (final_hashes H p) /\ f_new f' = snd (final_hashes H p).
  Lemma above_leaf o w other data final : block_at H p r o w other data final -> holds_rows e w o (o + Z.of_nat (proof_n_rows p)) ->
    exists f', row_above f' /\ f_other f' = other /\ reads e (o + 1 + Z.of_nat (length rows) - 1) f'.
  Proof.
    intros B HR. destruct (above_reads B HR (hp_even HP) (length rows) (le_n _)) as (A1 & A2 & A3 & A4 & A5 & A6 & A7 & A8 & A9 & A10). eexists. split; [|split; [exact A10|exact A1]].
    destruct (chain_last H rows _ _ _ _ chained) as [C1 C2]. rewrite C1 in A2. rewrite C2 in A3. unfold row_above. auto 10.
  Qed.
  Lemma with_leaves o w other data final q f' : block_at H p r o w other data final -> holds_rows e w o (o + Z.of_nat (proof_n_rows p)) -> starts e (o + Z.of_nat (proof_n_rows p)) ->
    reads e (o + 1 + Z.of_nat (length rows) - 1) f' ->
    (exists l, leafs H e (o + 1 + Z.of_nat (length rows)) f' l SegStart PathStart /\ o + 1 + Z.of_nat (length rows) + Z.of_nat (length l) = o + Z.of_nat (proof_n_rows p) /\ match l with f :: _ => f_sg f = AccountLeaf0 /\ f_pa f = q | [] => False end) ->
    upper_claim H e p r other data AccountLeaf0 -> (forall row, nth_error rows (pred (length rows)) = Some row -> link_end row q) -> q = Common \/ q = ExtensionNew ->
    rows_ok H e o (o + Z.of_nat (proof_n_rows p)).
  Proof.
    intros B HR [S1 S2] Rf (l & Ls & Le & Lq) UC Lk Q. destruct l as [|f l]; [contradiction|]. destruct Lq as [Q1 Q2].
    assert (R0 : reads e (o + 1 + Z.of_nat (length rows)) f) by (cbn [leafs] in Ls; cbv zeta in Ls; tauto).
    pose proof (rd_sg _ _ _ R0) as E1. pose proof (rd_pa _ _ _ R0) as E2. rewrite Q1 in E1. rewrite Q2 in E2.
    rewrite <- Le in S1, S2. pose proof (leafs_ok H e _ _ _ _ _ Rf S1 S2 Ls) as Low. rewrite Le in Low.
    assert (Up : rows_ok H e o (o + 1 + Z.of_nat (length rows))).
    { apply (upper_ok B HR (hp_even HP) E1 E2 (tab other (other_one _ _ (ba_other _ _ _ _ _ _ _ _ B))) UC chained Lk).
      - split; intros X; [exfalso; destruct Q as [Q|Q]; rewrite Q in X; discriminate X|discriminate X].
      - intros X. destruct Q as [Q|Q]; rewrite Q in X; discriminate X. }
    intros i Hi. destruct (Z_lt_dec i (o + 1 + Z.of_nat (length rows))) as [Lt|Ge]; [apply Up; lia|apply Low; lia].
  Qed.
  Lemma common_claim a a' other data : ov = Some a -> nv = Some a' -> ~ In kt [AccountDestructed; AccountDoesNotExist] -> (kt = StorageDoesNotExist -> @ov_ p r = f0 /\ @nv_ p r = f0 /\ t' = t) ->
    upper_claim H e p r other data AccountLeaf0.
  Proof.
    intros O N Kt Ks. assert (RC : forall row, In row rows -> tr_path row = Common).
    { intros row Hr. destruct (gd_paths _ _ _ _ _ _ _ _ _ (hp_good HP) row Hr) as [X|X]; [exact X|]. rewrite X, O, N. reflexivity. }
    constructor.
    - intros X. apply Kt. rewrite X. left. reflexivity.
    - intros row Hr. rewrite (RC row Hr). discriminate.
    - intros row Hr X. rewrite (RC row Hr) in X. discriminate X.
    - intros X. assert (Y : kt = StorageDoesNotExist) by (destruct X as [X|[X|[]]]; [exfalso; apply Kt; rewrite <- X; cbn; auto|auto]). destruct (Ks Y) as (Z1 & Z2 & Z3). split; [exact Z1|]. split; [exact Z2|].
      split; [destruct (hp_roots HP) as [-> ->]; rewrite Z3; reflexivity|]. intros row. apply (gd_same _ _ _ _ _ _ _ _ _ (hp_good HP)). symmetry. exact Z3.
    - discriminate.
    - right. split; [reflexivity|]. intros X. apply Kt. rewrite X. cbn. auto.
  Qed.
  Theorem both_ok a a' x : ov = Some a -> nv = Some a' -> account_ok a -> account_ok a' -> pf_storage p = SRoot x -> x = storage_root H (storage a) -> x = storage_root H (storage a') ->
    changed H e r (c_kind (pf_claim p)) (lv_acc H a) (lv_acc H a') -> block_accepted H e r p.
  Proof.
    intros O N OKa OKa' Sx X1 X2 Cg o w Ew HR St. destruct (block_view H p r o w (hp_even HP) Ew) as (other & data & final & B).
    assert (SO : sp_old_root H (pf_storage p) = Some (storage_root H (storage a))) by (rewrite Sx, <- X1; reflexivity).
    assert (SN : sp_new_root H (pf_storage p) = Some (storage_root H (storage a'))) by (rewrite Sx, <- X2; reflexivity).
    destruct (traces_old a O OKa SO) as (E1 & T1 & F1 & H1 & Z1). destruct (traces_new a' N OKa' SN) as (E2 & T2 & F2 & H2 & Z2).
    assert (NA : no_account p = false) by (rewrite no_account_of, O; reflexivity).
    assert (Fc : final = Common) by (pose proof (ba_final _ _ _ _ _ _ _ _ B) as Y; destruct last_row as [Q|Q]; rewrite Q in Y; apply some_eq in Y; subst final; [reflexivity|rewrite O, N; reflexivity]).
    assert (LP : leaf_path_type final (fst (final_hashes H p)) (snd (final_hashes H p)) = Some Common).
    { rewrite Fc. cbn [leaf_path_type]. rewrite (proj2 (feqb_neq _ _) Z1), (proj2 (feqb_neq _ _) Z2). reflexivity. }
    destruct (above_leaf o w other data final B HR) as (f' & (P1 & P2 & P3 & P4 & P5 & P7 & P8) & P6 & Rf).
    pose proof (common_leafs B HR (hp_even HP) NA f' P1 P2 P3 P4 P5 P6 P7 P8 Sx T1 T2 H1 H2 LP F1 F2 Cg) as Ls.
    apply (with_leaves o w other data final Common f' B HR St Rf Ls).
    - apply (common_claim a a'); auto; destruct (c_kind (pf_claim p)) as [? ?|? ?|? ?|? ?|? ?|? ? ?|?]; cbn in Cg |- *; try contradiction; intuition discriminate.
    - intros row Hr. pose proof (gd_last _ _ _ _ _ _ _ _ _ (hp_good HP) row Hr) as Y. rewrite O, N in Y. exact Y.
    - auto.
  Qed.

  (** * The account is created *)
  Lemma created_old : ov = None -> forall a', nv = Some a' -> rows = [] -> fst (final_hashes H p) = f0.
  Proof.
    intros O a' N R. rewrite (hp_hashes HP). cbn [fst]. pose proof (proj1 (gd_some _ _ _ _ _ _ _ _ _ (hp_good HP)) R) as NN. apply orb_false_elim in NN. destruct NN as [N1 N2].
    pose proof (written_along k ov nv t t' W) as A. inversion A as [d x x' P| |]; subst; try discriminate N1. inversion P; subst; try congruence.
    - reflexivity.
    - match goal with F : fork _ _ _ _ _ _ |- _ => destruct (fork_end k _ _ _ _ _ F) as (_ & X & _); rewrite X in N2; discriminate N2 end.
  Qed.
  Theorem created_ok a' x : ov = None -> nv = Some a' -> account_ok a' -> pf_storage p = SRoot x -> x = storage_root H (storage a') ->
    created (H := H) (e := e) (r := r) (c_kind (pf_claim p)) (lv_acc H a') -> block_accepted H e r p.
  Proof.
    intros O N OKa' Sx X2 Cg o w Ew HR St. destruct (block_view H p r o w (hp_even HP) Ew) as (other & data & final & B).
    assert (SN : sp_new_root H (pf_storage p) = Some (storage_root H (storage a'))) by (rewrite Sx, <- X2; reflexivity).
    destruct (traces_new a' N OKa' SN) as (E2 & T2 & F2 & H2 & Z2).
    assert (NA : no_account p = false) by (rewrite no_account_of, O, N; reflexivity).
    assert (Lk : forall row, nth_error rows (pred (length rows)) = Some row -> link_end row ExtensionNew).
    { intros row Hr. pose proof (gd_last _ _ _ _ _ _ _ _ _ (hp_good HP) row Hr) as Y. rewrite O, N in Y. exact Y. }
    assert (LP : leaf_path_type final (fst (final_hashes H p)) (snd (final_hashes H p)) = Some ExtensionNew).
    { pose proof (ba_final _ _ _ _ _ _ _ _ B) as Y. rewrite (hp_final HP) in Y. apply some_eq in Y. destruct (nth_error rows (pred (length rows))) as [row|] eqn:Er.
      - specialize (Lk row eq_refl). unfold link_end in Lk. subst final. destruct (tr_path row); try contradiction; [|reflexivity]. cbn [leaf_path_type].
        destruct (chain_last H rows _ _ _ _ chained) as [C1 _]. destruct rows as [|r0 rs]; [discriminate Er|]. cbn [length pred] in Er. cbn [above_old length] in C1. rewrite Er in C1. rewrite <- C1, (proj1 Lk), feqb_refl, (proj2 (feqb_neq _ _) Z2). reflexivity.
      - subst final. cbn [leaf_path_type]. assert (R : rows = []) by (destruct rows; [reflexivity|apply nth_error_None in Er; cbn [length pred] in Er; lia]). rewrite (created_old O a' N R), feqb_refl, (proj2 (feqb_neq _ _) Z2). reflexivity. }
    destruct (above_leaf o w other data final B HR) as (f' & (P1 & P2 & P3 & P4 & P5 & P7 & P8) & P6 & Rf).
    pose proof (absent_old other data O (fun _ _ => Logic.I) (ba_other _ _ _ _ _ _ _ _ B)) as Ab.
    pose proof (created_leafs B HR (hp_even HP) NA f' P1 P2 P3 P4 P5 P6 P7 P8 Sx T2 H2 LP F2 Ab Cg) as Ls.
    apply (with_leaves o w other data final ExtensionNew f' B HR St Rf Ls); auto.
    assert (KT : In kt [NonceChanged; BalanceChanged; StorageChanged] /\ ~ In kt [AccountDestructed; AccountDoesNotExist; StorageDoesNotExist] /\ @ov_ p r = f0).
    { destruct Cg as (_ & _ & Cg). unfold ov_, old_value_assignment. destruct (c_kind (pf_claim p)) as [[?|] [?|]|[?|] [?|]|? ?|? ?|? ?|? ? ?|?]; try contradiction; cbn; (split; [auto|]); (split; [intuition discriminate|]); [reflexivity|apply rlc_zero_word]. }
    destruct KT as (K1 & K2 & K3). constructor.
    - intros X. apply K2. rewrite X. cbn; auto.
    - intros row Hr. destruct (gd_paths _ _ _ _ _ _ _ _ _ (hp_good HP) row Hr) as [X|X]; rewrite X, ?O, ?N; discriminate.
    - intros row Hr X. auto.
    - intros X. exfalso. apply K2. cbn in X |- *. tauto.
    - discriminate.
    - right. split; [reflexivity|]. intros X. apply K2. rewrite X. cbn; auto.
  Qed.

  (** * A storage slot of the account *)
  Section Slot.
    Context {slot : Z} {sov snv : option Z} {a a' : account}.
    Notation sk := (slot_key H slot).
    Notation s0 := (storage a).
    Notation s1 := (storage a').
    Definition oz (v : option Z) : Z := match v with Some w => w | None => 0 end.
    Hypothesis Sl : 0 <= slot < 2 ^ 256.
    Hypothesis O : ov = Some a.
    Hypothesis N : nv = Some a'.
    Hypothesis OKa : account_ok a.
    Hypothesis OKa' : account_ok a'.
    Hypothesis Ea : a' = set_storage s1 a.
    Hypothesis WS : written sk sov snv s0 s1.
    Hypothesis Zo : sov <> Some 0.
    Hypothesis Zn : snv <> Some 0.
    Hypothesis TC : t_common_state_root tr = None.
    Hypothesis TSK : t_state_key tr = Some (fr_to_bytes sk).
    Hypothesis TSP : t_state_path tr = (Some (trace_path H (word_hash H) s0 sk), Some (trace_path H (word_hash H) s1 sk)).
    Hypothesis TSU : t_state_update tr = Some (Some (mkStateData (be_bytes 32 slot) (be_bytes 32 (oz sov))), Some (mkStateData (be_bytes 32 slot) (be_bytes 32 (oz snv)))).
    Let SE := along_ends sk sov snv 0 s0 s1 (written_along sk sov snv s0 s1 WS).
    Lemma word_of (x : tree Z) (v : option Z) : tree_all word_ok x -> end_with sk v (tree_end x 0 sk) -> 0 <= oz v < 2 ^ 256.
    Proof. intros A E. destruct v as [w|]; cbn [oz]; [|lia]. cbn [end_with] in E. exact (end_all word_ok x sk sk w 0 A E). Qed.
    Lemma hex_word v : 0 <= v < 2 ^ 256 -> u256_from_hex (be_bytes 32 v) = Some v.
    Proof. intros Hv. destruct (u256_from_hex_spec (be_bytes 32 v)) as [-> _]; [apply be_bytes_length|apply be_bytes_ok|]. rewrite be_val_be_bytes by exact Hv. reflexivity. Qed.
    Definition leaf_shape (v : option Z) (x : tree Z) (l : StorageLeaf) : Prop :=
      match v with
      | Some w => x = Leaf sk w /\ l = SEntry slot w
      | None => (x = Empty /\ l = SEmpty sk) \/ exists k' w, x = Leaf k' w /\ k' <> sk /\ l = SLeaf k' (word_hash H w)
      end.
    Lemma shape_of x v l : v <> Some 0 -> tree_all word_ok x -> end_with sk v (tree_end x 0 sk) -> storage_leaf_new H sk (p_leaf (trace_path H (word_hash H) x sk)) (mkStateData (be_bytes 32 slot) (be_bytes 32 (oz v))) = Some l ->
      leaf_shape v (tree_end x 0 sk) l.
    Proof.
      intros Nz A E F. pose proof (word_of x v A E) as Rv. unfold storage_leaf_new in F. cbn [sd_value sd_key] in F. rewrite (hex_word _ Rv) in F. cbn [obind trace_path p_leaf] in F. unfold tree_leaf in F.
      destruct v as [w|]; cbn [end_with oz leaf_shape] in *.
      - rewrite E in F. rewrite (proj2 (Z.eqb_neq w 0)) in F by congruence. rewrite (hex_word _ Sl) in F. cbn [obind] in F. apply some_eq in F. auto.
      - destruct E as [E|(k' & w & E & Ne)]; rewrite E in F |- *; change (0 =? 0) with true in F; cbv iota in F.
        + apply some_eq in F. auto.
        + right. exists k', w. split; [reflexivity|]. split; [exact Ne|]. rewrite (hex_word _ Sl) in F. cbn [obind] in F. ob F. cbn [n_sibling n_value] in F. rewrite !fr_of_bytes in F. cbn [obind] in F. apply some_eq in F. auto.
    Qed.
    Lemma storage_all : tree_all word_ok s0 /\ tree_all word_ok s1.
    Proof. destruct OKa as (_ & _ & _ & _ & A). destruct OKa' as (_ & _ & _ & _ & A'). auto. Qed.
    Lemma slot_storage : exists srows old new, pf_storage p = SUpdate slot sk srows old new /\ good H (word_hash H) sk sov snv 0 s0 s1 srows /\ leaf_shape sov (tree_end s0 0 sk) old /\ leaf_shape snv (tree_end s1 0 sk) new /\
      sp_old_root H (pf_storage p) = Some (storage_root H s0) /\ sp_new_root H (pf_storage p) = Some (storage_root H s1).
    Proof.
      destruct (hp_leafs HP) as (p0 & p1 & l0 & l1 & F). pose proof (ft_storage _ _ _ _ _ _ _ _ F) as E. clear F. destruct SE as (S1 & S2 & _). destruct storage_all as [A0 A1].
      destruct (storage_proof_inv H tr _ _ _ _ _ _ E TC TSK TSP TSU) as (key & sk' & srows & old & new & E1 & E2 & E3 & E4 & E5 & E6 & E7 & E8). rewrite fr_of_bytes in E1. apply some_eq in E1. subst key.
      cbn [sd_key] in E3. rewrite (hex_word _ Sl) in E3. apply some_eq in E3. subst sk'. rewrite root_of in E7, E8.
      exists srows, old, new. split; [exact E6|]. split; [exact (written_good H (word_hash H) sk sov snv s0 s1 srows WS E2)|]. split; [exact (shape_of _ _ _ Zo A0 S1 E4)|]. split; [exact (shape_of _ _ _ Zn A1 S2 E5)|]. split; [exact E7|exact E8].
    Qed.
    Lemma nonzero_oz v : v <> Some 0 -> nonzero (oz v) = v.
    Proof. intros Nz. destruct v as [w|]; [|reflexivity]. unfold nonzero. cbn [oz]. destruct (Z.eqb_spec w 0); congruence. Qed.
    Lemma slot_kind : c_kind (pf_claim p) = match sov, snv with None, None => KIsEmpty (Some slot) | _, _ => KStorage slot sov snv end.
    Proof.
      destruct SE as (S1 & S2 & _). destruct storage_all as [A0 A1].
      destruct (claim_storage_inv _ _ _ _ _ (hp_kind HP) TSU) as (vo & vn & kk & E1 & E2 & E3 & E4). cbn [sd_value sd_key] in E1, E2, E3.
      rewrite (hex_word _ (word_of _ _ A0 S1)) in E1. rewrite (hex_word _ (word_of _ _ A1 S2)) in E2. rewrite (hex_word _ Sl) in E3. apply some_eq in E1, E2, E3. subst vo vn kk. rewrite E4, !nonzero_oz by assumption.
      destruct sov as [w|], snv as [w'|]; cbn [oz]; try reflexivity.
      - rewrite (proj2 (Z.eqb_neq w 0)) by congruence. reflexivity.
      - rewrite (proj2 (Z.eqb_neq w 0)) by congruence. reflexivity.
      - rewrite (proj2 (Z.eqb_neq w' 0)) by congruence. reflexivity.
    Qed.
    (* the inputs of the storage tries *)
    Lemma storage_in k' w : (tree_end s0 0 sk = Leaf k' w \/ tree_end s1 0 sk = Leaf k' w) -> In (k', word_hash H w, fdom DLeaf) S /\ In (fz (w / 2 ^ 128), fz (w mod 2 ^ 128), fdom DPair) S /\ 0 <= w < 2 ^ 256.
    Proof.
      intros E. destruct AE as (A1 & A2 & _). rewrite O in A1. rewrite N in A2. cbn [end_with] in A1, A2. destruct (old_in _ _ A1) as [_ I1]. destruct (new_in _ _ A2) as [_ I2]. destruct storage_all as [X0 X1].
      assert (G : forall b, incl (account_inputs H b) S -> tree_all word_ok (storage b) -> tree_end (storage b) 0 sk = Leaf k' w -> In (k', word_hash H w, fdom DLeaf) S /\ In (fz (w / 2 ^ 128), fz (w mod 2 ^ 128), fdom DPair) S /\ 0 <= w < 2 ^ 256).
      { intros b Ib Wb Eb. destruct (@end_inputs H Z (word_hash H) (word_inputs) (storage b) sk k' w 0 Eb) as [B1 B2]. unfold account_inputs in Ib.
        assert (J : incl (tree_inputs H (word_hash H) word_inputs (storage b)) S) by (intros y Hy; apply Ib; apply in_or_app; right; apply in_or_app; right; exact Hy).
        split; [apply J, B1|]. split; [apply J, B2; left; reflexivity|]. exact (end_all word_ok (storage b) sk k' w 0 Wb Eb). }
      destruct E as [E|E]; [exact (G a I1 X0 E)|exact (G a' I2 X1 E)].
    Qed.
    Lemma slot_vacant x l : (x = tree_end s0 0 sk \/ x = tree_end s1 0 sk) -> leaf_shape None x l -> leaf_hashed H traces l -> vacant H e sk l (thash H (word_hash H) x) /\ thash H (word_hash H) x <> ZERO_PAIR_HASH H.
    Proof.
      intros Hx L LH. destruct L as [[-> ->]|(k' & w & E & Ne & ->)].
      - split; [left; auto|]. cbn [thash]. intros X. apply (cf_pair_nonzero CF). symmetry. exact X.
      - assert (I1 : In (k', word_hash H w, fdom DLeaf) S) by (apply (storage_in k' w); destruct Hx as [<-|<-]; auto). rewrite E. cbn [thash]. split.
        + right. exists k', (word_hash H w). split; [reflexivity|]. split; [exact Ne|]. split; [reflexivity|]. split; [exact (cf_nonzero CF _ _ _ DLeaf I1)|]. cbn [leaf_hashed] in LH. apply (tb_hash _ _ _ _ _ _ _ _ T). exact LH.
        + intros X. apply (cf_zero_pair CF _ _ _ _ I1) in X. destruct X as (_ & _ & X). discriminate X.
    Qed.
    Lemma slot_present x l w : (x = tree_end s0 0 sk \/ x = tree_end s1 0 sk) -> w <> 0 -> leaf_shape (Some w) x l -> leaf_hashed H traces l -> halves_in w (re_u128s reprs) -> present H e r sk l slot w (thash H (word_hash H) x).
    Proof.
      intros Hx Nz [E ->] LH Hv. assert (I1 : In (sk, word_hash H w, fdom DLeaf) S /\ In (fz (w / 2 ^ 128), fz (w mod 2 ^ 128), fdom DPair) S /\ 0 <= w < 2 ^ 256) by (apply (storage_in sk w); destruct Hx as [<-|<-]; auto).
      destruct I1 as (I1 & I2 & Rw). cbn [leaf_hashed] in LH. destruct (LH Sl Rw) as [L1 L2]. split; [reflexivity|]. exists (fz (w / 2 ^ 128)), (fz (w mod 2 ^ 128)), (word_hash H w).
      split; [apply (word_in T _ _ Rw Hv); apply (tb_hash _ _ _ _ _ _ _ _ T); exact L1|]. split; [reflexivity|]. split.
      - intros X. apply (cf_zero_pair CF _ _ _ DPair I2) in X. destruct X as (X1 & X2 & _). apply Nz. clear - X1 X2 Rw.
        assert (0 <= w / 2 ^ 128 < 2 ^ 128) by (split; [apply Z.div_pos; lia|apply Z.div_lt_upper_bound; lia]). assert (0 <= w mod 2 ^ 128 < 2 ^ 128) by (apply Z.mod_pos_bound; lia). assert (2 ^ 128 < modulus) by reflexivity.
        apply (f_equal val) in X1, X2. rewrite val_fz, Z.mod_small in X1, X2 by lia. change (val f0) with 0 in X1, X2. rewrite (Z.div_mod w (2 ^ 128)) by lia. rewrite X1, X2. reflexivity.
      - rewrite E. cbn [thash]. apply (tb_hash _ _ _ _ _ _ _ _ T). exact L2.
    Qed.
    Definition slot_seg : SegmentType := match sov, snv with None, None => SegStart | _, _ => StorageLeaf0 end.
    Definition slot_path : PathType := match sov, snv with None, None => PathStart | _, _ => path_between sov snv end.
    Lemma slot_changes srows old new : pf_storage p = SUpdate slot sk srows old new -> leaf_shape sov (tree_end s0 0 sk) old -> leaf_shape snv (tree_end s1 0 sk) new ->
      slot_change H e r sk slot old new (thash H (word_hash H) (tree_end s0 0 sk)) (thash H (word_hash H) (tree_end s1 0 sk)) (c_kind (pf_claim p)) slot_seg slot_path.
    Proof.
      intros Es Lo Ln. destruct (storage_covered H proofs traces p _ _ _ _ _ ET Hp Es) as (_ & _ & C1 & C2). pose proof slot_kind as SK. pose proof (reprs_cover _ _ _ ER Hp) as (_ & _ & RC).
      assert (HV : kt = StorageChanged -> forall x, x = old \/ x = new -> 0 <= sl_value x < 2 ^ 256 -> halves_in (sl_value x) (re_u128s reprs)).
      { intros K. rewrite K in RC. destruct RC as (_ & sk' & key & rs & o' & n' & R1 & R2). rewrite Es in R1. assert (o' = old) by congruence. assert (n' = new) by congruence. subst o' n'. exact R2. }
      clear RC. unfold slot_seg, slot_path.
      destruct sov as [w|] eqn:Qo, snv as [w'|] eqn:Qn; rewrite SK in HV |- *; cbn [proof_type_of] in HV; cbn [path_between].
      - constructor; apply slot_present; try assumption; auto; try congruence.
        + destruct Lo as [Lo L]. specialize (HV eq_refl old (or_introl eq_refl)). rewrite L in HV. cbn [sl_value] in HV. apply HV. apply (storage_in sk w). auto.
        + destruct Ln as [Ln L]. specialize (HV eq_refl new (or_intror eq_refl)). rewrite L in HV. cbn [sl_value] in HV. apply HV. apply (storage_in sk w'). auto.
      - destruct (slot_vacant _ _ (or_intror eq_refl) Ln C2) as [V1 V2]. constructor; try assumption. apply slot_present; try assumption; auto; try congruence.
        destruct Lo as [Lo L]. specialize (HV eq_refl old (or_introl eq_refl)). rewrite L in HV. cbn [sl_value] in HV. apply HV. apply (storage_in sk w). auto.
      - destruct (slot_vacant _ _ (or_introl eq_refl) Lo C1) as [V1 V2]. constructor; try assumption. apply slot_present; try assumption; auto; try congruence.
        destruct Ln as [Ln L]. specialize (HV eq_refl new (or_intror eq_refl)). rewrite L in HV. cbn [sl_value] in HV. apply HV. apply (storage_in sk w'). auto.
      - destruct (slot_vacant _ _ (or_introl eq_refl) Lo C1) as [V1 V2]. destruct SE as (_ & _ & SE3 & _). pose proof (SE3 eq_refl eq_refl) as EQ. rewrite <- EQ in *. constructor; [exact V1| |reflexivity].
        destruct Lo as [[L1 ->]|(k1 & w1 & L1 & Nk & ->)], Ln as [[L2 ->]|(k2 & w2 & L2 & Nk2 & ->)]; try congruence.
    Qed.
    Theorem slot_block_ok : block_accepted H e r p.
    Proof.
      intros o w Ew HR St. destruct (block_view H p r o w (hp_even HP) Ew) as (other & data & final & B).
      destruct slot_storage as (srows & old & new & Es & G & Lo & Ln & SO & SN). pose proof (slot_changes srows old new Es Lo Ln) as SC.
      destruct (traces_old a O OKa SO) as (E1 & T1 & F1 & H1 & Z1). destruct (traces_new a' N OKa' SN) as (E2 & T2 & F2 & H2 & Z2).
      assert (NA : no_account p = false) by (rewrite no_account_of, O; reflexivity).
      assert (Fc : final = Common) by (pose proof (ba_final _ _ _ _ _ _ _ _ B) as Y; destruct last_row as [Q|Q]; rewrite Q in Y; apply some_eq in Y; subst final; [reflexivity|rewrite O, N; reflexivity]).
      assert (LP : leaf_path_type final (fst (final_hashes H p)) (snd (final_hashes H p)) = Some Common).
      { rewrite Fc. cbn [leaf_path_type]. rewrite (proj2 (feqb_neq _ _) Z1), (proj2 (feqb_neq _ _) Z2). reflexivity. }
      destruct (above_leaf o w other data final B HR) as (f' & (P1 & P2 & P3 & P4 & P5 & P7 & P8) & P6 & Rf).
      destruct (storage_covered H proofs traces p _ _ _ _ _ ET Hp Es) as (Ck & Crows & _ & _).
      pose proof slot_kind as SK.
      assert (KT : kt = StorageChanged /\ slot_path = path_between sov snv \/ kt = StorageDoesNotExist /\ slot_path = PathStart /\ s1 = s0).
      { rewrite SK. unfold slot_path. clear - WS. destruct sov, snv; auto. right. split; [reflexivity|]. split; [reflexivity|]. exact (proj2 WS). }
      assert (Rk : halves_in slot (re_u128s reprs)).
      { pose proof (reprs_cover _ _ _ ER Hp) as (_ & _ & RC). assert (CS : claim_storage_key (pf_claim p) = slot) by (unfold claim_storage_key; rewrite SK; clear; destruct sov, snv; reflexivity). rewrite CS in RC.
        destruct KT as [[K _]|[K _]]; rewrite K in RC; [apply (proj1 RC)|apply RC]; exact Sl. }
      destruct (word_in T slot sk Sl Rk) as (rh & rl & Wk1 & Wk2); [apply (tb_hash _ _ _ _ _ _ _ _ T); apply Ck, Sl|].
      assert (Wk : word_here e r slot sk (w1 (Some (halves slot r))) (w2 (Some (halves slot r)))) by (exists rh, rl; rewrite Wk1; cbn [w1 w2]; auto).
      assert (Bt : forall j row, nth_error srows j = Some row -> accepts e key_bit_lookup [sk; fz (Z.of_nat j); fb (tr_direction row)] /\
        (tr_path row = Common -> accepts e key_bit_lookup [@so_ H sk old new; fz (Z.of_nat j); fb (tr_direction row)])).
      { assert (Oth : sp_other_key H (pf_storage p) = Some (@so_ H sk old new)) by (rewrite Es; reflexivity).
        destruct (hp_leafs HP) as (p0 & p1 & l0 & l1 & F). pose proof (ft_storage _ _ _ _ _ _ _ _ F) as FS. rewrite Es in FS.
        intros j row Hj. destruct (storage_bits_covered H proofs lookups p _ _ _ _ _ _ EK Hp Es Oth (storage_rows_not_start _ _ _ _ _ _ _ FS) j row Hj) as [B1 B2].
        split; [apply (tb_bit _ _ _ _ _ _ _ _ T), B1|]. intros P. apply (tb_bit _ _ _ _ _ _ _ _ T), (B2 P). }
      assert (Ac : pf_old_account p <> None) by (intros X; apply accounts_of in X; congruence).
      assert (VE : lv_n H (lv_acc H a) = lv_n H (lv_acc H a') /\ lv_k H (lv_acc H a) = lv_k H (lv_acc H a') /\ lv_pch (lv_acc H a) = lv_pch (lv_acc H a')) by (rewrite Ea; repeat split). destruct VE as (V1 & V2 & V3).
      assert (Pq : forall row, In row srows -> tr_path row = Common \/ tr_path row = slot_path).
      { intros row Hr. destruct KT as [[_ K]|(_ & _ & K)]; [rewrite K; apply (gd_paths _ _ _ _ _ _ _ _ _ G row Hr)|]. left. apply (gd_same _ _ _ _ _ _ _ _ _ G (eq_sym K) row Hr). }
      assert (Lk : forall row, nth_error srows (pred (length srows)) = Some row -> link_end row slot_path).
      { intros row Hr. destruct KT as [[_ K]|(_ & K1 & K)]; [rewrite K; apply (gd_last _ _ _ _ _ _ _ _ _ G row Hr)|]. unfold link_end. rewrite (proj1 (gd_same _ _ _ _ _ _ _ _ _ G (eq_sym K) row (nth_error_In _ _ Hr))), K1. exact Logic.I. }
      assert (Em : srows = [] -> (slot_path = ExtensionNew -> thash H (word_hash H) (tree_end s0 0 sk) = f0) /\ (slot_path = ExtensionOld -> thash H (word_hash H) (tree_end s1 0 sk) = f0)).
      { intros Hs. pose proof (proj1 (gd_some _ _ _ _ _ _ _ _ _ G) Hs) as NN. apply orb_false_elim in NN. destruct NN as [N1 N2]. destruct (along_empty sk sov snv 0 s0 s1 (written_along sk sov snv s0 s1 WS) N1 N2) as [Y1 Y2].
        destruct KT as [[_ K]|(_ & K & _)]; rewrite K; split; intros X; try discriminate X; [rewrite (Y1 X)|rewrite (Y2 X)]; reflexivity. }
      assert (Same : kt = StorageDoesNotExist -> lv_root (lv_acc H a) = lv_root (lv_acc H a') /\ forall row, In row srows -> tr_path row = Common /\ tr_old row = tr_new row).
      { intros X. destruct KT as [[K _]|(_ & _ & K)]; [congruence|]. split; [unfold lv_acc, lv_of; cbn [lv_root]; rewrite K; reflexivity|]. exact (gd_same _ _ _ _ _ _ _ _ _ G (eq_sym K)). }
      assert (Ch : chain H (lv_root (lv_acc H a)) (lv_root (lv_acc H a')) srows (thash H (word_hash H) (tree_end s0 0 sk)) (thash H (word_hash H) (tree_end s1 0 sk))) by exact (gd_chain _ _ _ _ _ _ _ _ _ G).
      assert (Rh : rows_hit H e srows) by (apply (rows_hit_of H e traces); [intros; apply (tb_hash _ _ _ _ _ _ _ _ T); assumption|exact Crows]).
      pose proof (storage_key_hash_spec H slot Sl) as Kh. symmetry in Kh.
      destruct (slot_ok B HR (hp_even HP) NA Es SC Kh Ch Rh Lk Pq Bt Wk T1 T2 Ac H1 H2 LP F1 F2 V1 V2 V3 Same St Em f' P1 P2 P3 P4 P5 P6 P7 P8 Rf) as (Low & L1 & L2).
      assert (Up : rows_ok H e o (o + 1 + Z.of_nat (length rows))).
      { apply (upper_ok B HR (hp_even HP) L1 L2 (tab other (other_one _ _ (ba_other _ _ _ _ _ _ _ _ B)))).
        - apply (common_claim a a'); auto.
          + destruct KT as [[K _]|(K & _)]; rewrite K; cbn; intuition discriminate.
          + intros X. destruct KT as [[K _]|(_ & K1 & K)]; [congruence|].
            unfold slot_path in K1. unfold ov_, nv_, old_value_assignment, new_value_assignment. rewrite SK. assert (Eq : sov = None /\ snv = None) by (clear - K1; destruct sov, snv; try discriminate K1; auto). destruct Eq as [-> ->].
            split; [reflexivity|]. split; [reflexivity|]. pose proof W as W'. rewrite O, N in W'. destruct W' as [W1 W2]. rewrite W2.
            assert (a' = a) as -> by (rewrite Ea, K; clear; destruct a; reflexivity). apply modify_same, W1.
        - exact chained.
        - intros row Hr. pose proof (gd_last _ _ _ _ _ _ _ _ _ (hp_good HP) row Hr) as Y. rewrite O, N in Y. exact Y.
        - split; intros X; discriminate X.
        - discriminate. }
      intros i Hi. destruct (Z_lt_dec i (o + 1 + Z.of_nat (length rows))) as [Lt|Ge]; [apply Up; lia|apply Low; lia].
    Qed.
  End Slot.
End Block.
