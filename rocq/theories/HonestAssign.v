(* Honest updates can be assigned: no panic between conversion and assignment. *)
From Coq Require Import ZArith List Bool Lia.
From Verif Require Import Pocklington Fr Query Builder BuilderProofs Gadgets MptUpdate Bytes GadgetProofs UpdateRows TrieSpec UpdateComplete Util UtilProofs Serde Trie Storage Types TypesProofs Lookups LookupMain
  Assign AssignProofs UpdateAssign MptAssign GadgetMain GadgetMain2 TrieProofs HonestTrace HonestSpec RowView BlockView MptRows BlocksOk RowsOk RowCells BlockRows Chain UpperOk LeafOk StorageOk TreeChain HonestPath TablesOk HonestInputs HonestBlock HonestUpdate.
Import ListNotations.
Open Scope Z_scope.

Section Tree.
  Context {V : Type} (H : Fr -> Fr -> Fr -> Fr) (hv : V -> Fr).
  Lemma nodes_height (t : tree V) k : forall d, (length (tree_nodes H hv t d k) <= height t)%nat.
  Proof. induction t as [|k' v|l IHl r IHr]; intros d; cbn [tree_nodes height length]; try lia. destruct (kbit k d); [specialize (IHr (S d))|specialize (IHl (S d))]; cbn [length]; lia. Qed.
  Lemma nth_error_snoc {X} (l : list X) x i y : nth_error (l ++ [x]) i = Some y -> nth_error l i = Some y \/ (i = length l /\ y = x).
  Proof.
    intros E. destruct (Nat.lt_ge_cases i (length l)) as [L|L]; [rewrite nth_error_app1 in E by exact L; auto|]. rewrite nth_error_app2 in E by exact L.
    destruct (i - length l)%nat as [|m] eqn:Em; [cbn in E; right; split; [lia|congruence]|]. destruct m; discriminate E.
  Qed.
  (* the leaf at the end of the path of k shares k's bits on the way *)
  Lemma placed_end (t : tree V) k k' v : forall prefix, placed t prefix -> (forall i b, nth_error prefix i = Some b -> kbit k i = b) -> tree_end t (length prefix) k = Leaf k' v ->
    forall i, (i < length prefix + length (tree_nodes H hv t (length prefix) k))%nat -> kbit k' i = kbit k i.
  Proof.
    induction t as [|k0 v0|l IHl r IHr]; intros prefix P B E i Hi; cbn [tree_end tree_nodes length] in *; [discriminate E| |].
    - injection E as -> ->. rewrite Nat.add_0_r in Hi. destruct (nth_error prefix i) as [b|] eqn:N; [|apply nth_error_None in N; lia]. rewrite (P i b N), (B i b N). reflexivity.
    - destruct P as [Pl Pr]. destruct (kbit k (length prefix)) eqn:Bk.
      + assert (L : length (prefix ++ [true]) = S (length prefix)) by (rewrite app_length; cbn; lia). apply (IHr (prefix ++ [true]) Pr).
        * intros j b N. apply nth_error_snoc in N. destruct N as [N|[-> ->]]; [exact (B j b N)|exact Bk].
        * rewrite L. exact E.
        * rewrite L. cbn [length] in Hi. lia.
      + assert (L : length (prefix ++ [false]) = S (length prefix)) by (rewrite app_length; cbn; lia). apply (IHl (prefix ++ [false]) Pl).
        * intros j b N. apply nth_error_snoc in N. destruct N as [N|[-> ->]]; [exact (B j b N)|exact Bk].
        * rewrite L. exact E.
        * rewrite L. cbn [length] in Hi. lia.
  Qed.
  Lemma placed_bits (t : tree V) k k' v i : placed t [] -> tree_end t 0 k = Leaf k' v -> (i < length (tree_nodes H hv t 0 k))%nat -> kbit k' i = kbit k i.
  Proof. intros P E Hi. apply (placed_end t k k' v [] P); [intros j b N; destruct j; discriminate N|exact E|exact Hi]. Qed.
End Tree.
Lemma common_both key o n a b olds : forall i news rows j row, trie_rows_from key o n i a b olds news = Some rows -> nth_error rows j = Some row -> tr_path row = Common -> (j < length olds)%nat /\ (j < length news)%nat.
Proof.
  induction olds as [|x olds IH]; intros i news rows j row E Hj C.
  - rewrite rows_from_nil in E. exfalso. revert i rows j E Hj. induction news as [|y news IH]; intros i rows j E Hj; cbn [ext_new_rows] in E; [apply some_eq in E; subst rows; destruct j; discriminate Hj|].
    do 4 ob E. apply some_eq in E. subst rows. destruct j as [|j]; [cbn in Hj; apply some_eq in Hj; subst row; discriminate C|]. exact (IH _ _ _ E3 Hj).
  - destruct news as [|y news]; cbn [trie_rows_from] in E.
    + do 4 ob E. apply some_eq in E. subst rows. destruct j as [|j]; [cbn in Hj; apply some_eq in Hj; subst row; discriminate C|]. exfalso. destruct (IH _ _ _ _ _ E3 Hj C) as [_ X]. cbn in X. lia.
    + do 2 ob E. apply some_eq in E. subst rows. destruct j as [|j]; [cbn [length]; lia|]. destruct (IH _ _ _ _ _ E1 Hj C). cbn [length]. lia.
Qed.
Lemma kb_some v x b : (x < 256)%nat -> b = kbit v x -> kb_row (v, Z.of_nat x, b) <> None.
Proof. intros L B. destruct (kb_row_some v (Z.of_nat x) b ltac:(lia) B) as (rw & ->). discriminate. Qed.
Lemma chain_cells H : forall rows o n fo fn i, chain H o n rows fo fn -> trie_rows_cells i rows <> None.
Proof.
  induction rows as [|row rest IH]; intros o n fo fn i C; [discriminate|]. cbn [trie_rows_cells]. destruct C as (_ & (od & nd & Ed & _) & C). specialize (IH _ _ _ _ (S i) C).
  destruct (trie_rows_cells (S i) rest) as [cs|]; [|congruence]. unfold trie_row_cells. unfold hash_domains in Ed. destruct rest as [|nx rest]; [discriminate|]. cbn [hd_error option_map] in Ed.
  destruct (tr_path nx), (tr_path row); try discriminate; unfold get_domains in Ed; destruct (next_domain _ _); try discriminate Ed; cbn [obind]; discriminate.
Qed.

Lemma chain_lookups H : forall rows o n fo fn, chain H o n rows fo fn -> trie_poseidon_lookups H rows <> None.
Proof.
  induction rows as [|row rest IH]; intros o n fo fn C; [discriminate|]. cbn [trie_poseidon_lookups]. destruct C as (_ & (od & nd & Ed & P) & C). specialize (IH _ _ _ _ C).
  destruct (order _ _ (tr_old row)), (order _ _ (tr_new row)). destruct (trie_poseidon_lookups H rest) as [cs|]; [|congruence]. unfold hash_domains in Ed.
  assert (X : tr_path row = Common -> exists ds, (match rest with next :: _ => get_domains (tr_path next) (tr_domain row) (tr_direction row) | [] => Some (tr_domain row, tr_domain row) end) = Some ds).
  { intros Pc. rewrite Pc in Ed. destruct rest as [|nx rest]; [eauto|]. cbn [hd_error option_map] in Ed. destruct C as (_ & (od1 & nd1 & _ & Pn) & _). destruct (tr_path nx); try contradiction; cbn [get_domains]; cbn [get_domains] in Ed; eauto. }
  destruct (tr_path row); try contradiction; cbn [obind]; try discriminate. destruct (X eq_refl) as (ds & ->). cbn [obind]. discriminate.
Qed.

Section Proof.
  Context {H : Fr -> Fr -> Fr -> Fr} {p : Proof} {address : Z} {t t' : tree account}.
  Hypothesis Ad : 0 <= address < 2 ^ 160.
  Context {ty : MPTProofType} {tr : SMTTrace} {ov nv : option account}.
  Notation k := (addr_key H address).
  Notation hv := (account_hash H).
  Hypothesis PF : proof_from H ty tr = Some p.
  Hypothesis TA : t_address tr = be_bytes 20 address.
  Hypothesis TK : t_account_path tr = (trace_path H hv t k, trace_path H hv t' k).
  Hypothesis TU : t_account_update tr = (option_map data_of ov, option_map data_of nv).
  Hypothesis W : written k ov nv t t'.
  Hypothesis Kept : ov <> None -> nv <> None.
  Hypothesis Pt : placed t [].
  Hypothesis Pt' : placed t' [].
  Hypothesis Ht : (height t <= 256)%nat.
  Hypothesis Ht' : (height t' <= 256)%nat.
  Notation rows := (pf_account_trie_rows p).
  Notation eo := (tree_end t 0 k).
  Notation en := (tree_end t' 0 k).
  Notation HP := (path_of PF Ad TA TK W).
  Notation AE := (along_ends k ov nv 0 t t' (written_along k ov nv t t' W)).
  Lemma rows_from : trie_rows_from k (thash H hv eo) (thash H hv en) 0 (length (tree_nodes H hv t 0 k)) (length (tree_nodes H hv t' 0 k)) (tree_nodes H hv t 0 k) (tree_nodes H hv t' 0 k) = Some rows.
  Proof.
    destruct (hp_leafs HP) as (p0 & p1 & l0 & l1 & F). pose proof (ft_rows _ _ _ _ _ _ _ _ F) as E. pose proof (ft_paths _ _ _ _ _ _ _ _ F) as Pp. rewrite TK in Pp.
    assert (p0 = trace_path H hv t k) as -> by congruence. assert (p1 = trace_path H hv t' k) as -> by congruence. fold (akey H p) in E. rewrite (hp_key HP) in E. cbn [trace_path p_path p_leaf] in E.
    unfold trie_rows_new in E. rewrite !tree_path_end in E. exact E.
  Qed.
  Lemma row_bits j row : nth_error rows j = Some row -> (j < 256)%nat /\ tr_direction row = kbit k j /\
    (tr_path row = Common -> kbit (pth_key (pf_old p)) j = kbit k j /\ kbit (pth_key (pf_new p)) j = kbit k j) /\ tr_path row <> ExtensionOld /\ (tr_path row = ExtensionNew -> pth_key (pf_new p) = k).
  Proof.
    intros Hj. pose proof (hp_good HP) as G. assert (Hl : (j < length rows)%nat) by (apply nth_error_Some; congruence). rewrite (gd_len _ _ _ _ _ _ _ _ _ G) in Hl.
    pose proof (nodes_height H hv t k 0). pose proof (nodes_height H hv t' k 0). split; [lia|]. split; [exact (gd_bits _ _ _ _ _ _ _ _ _ G j row Hj)|].
    assert (In1 : In row rows) by (eapply nth_error_In; exact Hj). split.
    - intros C. destruct (common_both _ _ _ _ _ _ _ _ _ _ _ rows_from Hj C) as [L1 L2]. rewrite (hp_old HP), (hp_new HP).
      split; [destruct eo as [|k' v|] eqn:E; cbn [end_path pth_key]; try reflexivity; exact (placed_bits H hv t k k' v j Pt E L1)|].
      destruct en as [|k' v|] eqn:E; cbn [end_path pth_key]; try reflexivity. exact (placed_bits H hv t' k k' v j Pt' E L2).
    - assert (Q := gd_paths _ _ _ _ _ _ _ _ _ G row In1). split.
      + intros X. rewrite X in Q. destruct Q as [Q|Q]; [discriminate|]. destruct ov, nv; try discriminate Q. apply Kept; [discriminate|reflexivity].
      + intros X. rewrite X in Q. destruct Q as [Q|Q]; [discriminate|]. destruct AE as (_ & A2 & _). rewrite (hp_new HP). destruct ov, nv as [a'|]; try discriminate Q. cbn [end_with] in A2. rewrite A2. reflexivity.
  Qed.
  Lemma trace_bits i x row : same_level x row -> nth_error rows i = Some row -> exists l, trace_key_bits H p i x = Some l /\ Forall (fun l => kb_row l <> None) l.
  Proof.
    intros (V1 & _ & _ & _ & _ & Q) Hj. destruct (row_bits i row Hj) as (L & D & C & NO & N). unfold trace_key_bits. fold (akey H p). rewrite V1, D. destruct (tr_path row); [contradiction| | |]; destruct Q as [-> ->].
    - destruct (C eq_refl) as [C1 C2]. eexists. split; [reflexivity|]. apply Forall_forall. intros y Hy. apply in_map_iff in Hy. destruct Hy as (z & <- & Hz). apply kb_some; [exact L|].
      assert (Z : z = pth_key (pf_old p) \/ z = pth_key (pf_new p) \/ z = akey H p).
      { destruct (existsb _ _); cbn in Hz; intuition congruence. }
      destruct Z as [->|[->| ->]]; [congruence|congruence|]. rewrite (hp_key HP). reflexivity.
    - congruence.
    - eexists. split; [reflexivity|]. constructor; [|constructor]. apply kb_some; [exact L|]. rewrite (N eq_refl). reflexivity.
  Qed.
  Lemma traces_bits : forall l m i, Forall2 same_level l m -> (forall j row, nth_error m j = Some row -> nth_error rows (i + j) = Some row) -> exists o, oconcat_from (trace_key_bits H p) i l = Some o /\ Forall (fun l => kb_row l <> None) o.
  Proof.
    intros l m i F. revert i. induction F as [|x row l m R F IH]; intros i N; [exists []; split; [reflexivity|constructor]|]. cbn [oconcat_from].
    destruct (trace_bits i x row R) as (a & -> & Fa); [rewrite <- (Nat.add_0_r i); apply N; reflexivity|]. cbn [obind].
    destruct (IH (S i)) as (b & -> & Fb); [intros j r' Hj; replace (S i + j)%nat with (i + S j)%nat by lia; apply N; exact Hj|]. cbn [obind]. eexists. split; [reflexivity|]. apply Forall_app. auto.
  Qed.
  Lemma levels : Forall2 same_level (rev (pf_address_hash_traces p)) rows.
  Proof.
    destruct (hp_leafs HP) as (p0 & p1 & lh0 & lh1 & F). pose proof (ft_traces _ _ _ _ _ _ _ _ F) as E. pose proof (ft_paths _ _ _ _ _ _ _ _ F) as Pp. rewrite TK in Pp.
    assert (p0 = trace_path H hv t k) as -> by congruence. assert (p1 = trace_path H hv t' k) as -> by congruence. fold (akey H p) in E. rewrite (hp_key HP) in E. cbn [trace_path p_path p_leaf] in E.
    pose proof (ft_lh0 _ _ _ _ _ _ _ _ F) as F8. pose proof (ft_lh1 _ _ _ _ _ _ _ _ F) as F9.
    assert (X : lh0 = thash H hv eo /\ lh1 = thash H hv en).
    { clear - F8 F9. unfold leaf_hash in F8, F9. cbn [trace_path p_leaf] in F8, F9. pose proof (tree_end_hash H hv t 0 k) as Y0. pose proof (tree_end_hash H hv t' 0 k) as Y1. unfold end_hash, node_leaf_hash in Y0, Y1.
      destruct (tree_leaf hv t 0 k), (tree_leaf hv t' 0 k); split; congruence. }
    destruct X as [-> ->]. pose proof (traces_agree H k _ _ _ _ _ _ (tree_path_end H hv t k) (tree_path_end H hv t' k)) as Ag. rewrite E in Ag. unfold trie_rows_new in Ag. rewrite !tree_path_end in Ag. cbn [obind] in Ag. rewrite rows_from in Ag. exact Ag.
  Qed.
  Lemma account_bits : exists o, oconcat_from (trace_key_bits H p) 0 (rev (pf_address_hash_traces p)) = Some o /\ Forall (fun l => kb_row l <> None) o.
  Proof. apply (traces_bits _ _ 0 levels). intros j row Hj. exact Hj. Qed.
  Lemma other_some : exists ok, other_key_and_data (akey H p) (pf_old p) (pf_new p) = Some ok.
  Proof.
    destruct AE as (A1 & A2 & A3 & _). rewrite (hp_key HP), (hp_old HP), (hp_new HP). unfold other_key_and_data.
    destruct ov as [a|], nv as [a'|]; cbn [end_with] in A1, A2.
    - rewrite A1, A2. cbn [end_path pth_key]. rewrite feqb_refl. cbn [negb]. eauto.
    - exfalso. apply Kept; [discriminate|reflexivity].
    - rewrite A2. cbn [end_path pth_key]. rewrite feqb_refl. destruct A1 as [->|(k' & v & -> & N)]; cbn [end_path pth_key pth_leaf_data_hash]; [rewrite feqb_refl; cbn [negb]; eauto|].
      destruct (feqb k' k); cbn [negb orb oassert obind]; eauto.
    - rewrite <- (A3 eq_refl eq_refl). destruct A1 as [->|(k' & v & -> & N)]; cbn [end_path pth_key pth_leaf_data_hash]; [rewrite feqb_refl; cbn [negb]; eauto|].
      rewrite feqb_refl. destruct (feqb k' k); cbn [negb orb]; rewrite ?orb_true_r; cbn [oassert obind]; eauto.
  Qed.
  Lemma account_cells : exists ws, assign_trie_rows AccountTrie (1 + 1) rows = Some ws.
  Proof. unfold assign_trie_rows. pose proof (chain_cells H rows _ _ _ _ 0 (gd_chain _ _ _ _ _ _ _ _ _ (hp_good HP))) as X. destruct (trie_rows_cells 0 rows); [cbn [obind]; eauto|congruence]. Qed.
  Lemma no_accounts : pf_old_account p = None <-> ov = None.
  Proof. exact (accounts_of PF Ad TA TK TU W). Qed.
  Lemma no_accounts_new : pf_new_account p = None <-> nv = None.
  Proof. exact (accounts_of_new PF Ad TA TK TU W). Qed.
  (* the first rows; what remains is the account leaf *)
  Lemma single_some r : (ov <> None \/ nv <> None -> forall off f fo fn ky ok da, final_path_type p = Some f -> final_hashes H p = (fo, fn) -> assign_account_leaf H off p f fo fn ky ok da r <> None) -> assign_single_proof H p r 1 <> None.
  Proof.
    intros L. unfold assign_single_proof. fold (akey H p). destruct other_some as ((ok & da) & Eo). rewrite Eo. cbn [obind]. destruct account_cells as (ws & Ew). rewrite Ew. cbn [obind].
    pose proof (hp_final HP) as Ff. rewrite Ff. cbn [obind]. destruct (final_hashes H p) as [fo fn] eqn:Eh.
    destruct (is_none (pf_old_account p) && is_none (pf_new_account p)) eqn:En; [cbn [obind]; discriminate|].
    assert (X : ov <> None \/ nv <> None).
    { destruct (pf_old_account p) eqn:E1; [left; intros Q; apply no_accounts in Q; congruence|]. destruct (pf_new_account p) eqn:E2; [right; intros Q; apply no_accounts_new in Q; congruence|]. discriminate En. }
    specialize (L X (1 + 1 + Z.of_nat (length rows)) _ fo fn (akey H p) ok da Ff eq_refl). destruct (assign_account_leaf _ _ _ _ _ _ _ _ _ _); [cbn [obind]; discriminate|congruence].
  Qed.
End Proof.

(* the rows of the storage trie and its leaf *)
Section Slot.
  Context {H : Fr -> Fr -> Fr -> Fr} {slot : Z} {sov snv : option Z} {s0 s1 : tree Z} {srows : TrieRows} {old new : StorageLeaf}.
  Notation sk := (slot_key H slot).
  Hypothesis Sl : 0 <= slot < 2 ^ 256.
  Hypothesis WS : written sk sov snv s0 s1.
  Hypothesis Ao : tree_all word_ok s0.
  Hypothesis An : tree_all word_ok s1.
  Hypothesis Go : good H (word_hash H) sk sov snv 0 s0 s1 srows.
  Hypothesis Er : trie_rows_new H sk (tree_nodes H (word_hash H) s0 0 sk) (tree_nodes H (word_hash H) s1 0 sk) (tree_leaf (word_hash H) s0 0 sk) (tree_leaf (word_hash H) s1 0 sk) = Some srows.
  Hypothesis Lo : leaf_shape (H := H) (slot := slot) sov (tree_end s0 0 sk) old.
  Hypothesis Ln : leaf_shape (H := H) (slot := slot) snv (tree_end s1 0 sk) new.
  Hypothesis Ps : placed s0 [].
  Hypothesis Ps' : placed s1 [].
  Hypothesis Hs : (height s0 <= 256)%nat.
  Hypothesis Hs' : (height s1 <= 256)%nat.
  Notation other := (if feqb sk (sl_key H old) then sl_key H new else sl_key H old).
  Lemma key_of v x l : leaf_shape (H := H) (slot := slot) v x l -> sl_key H l = sk \/ exists k' w, x = Leaf k' w /\ sl_key H l = k'.
  Proof. destruct v as [w|]; [intros [_ ->]; left; apply storage_key_hash_spec; exact Sl|]. intros [[_ ->]|(k' & w & -> & _ & ->)]; [left; reflexivity|right; exists k', w; auto]. Qed.
  Lemma other_bits j row : nth_error srows j = Some row -> (j < 256)%nat /\ tr_direction row = kbit sk j /\ (tr_path row = Common -> kbit other j = kbit sk j).
  Proof.
    intros Hj. assert (Hl : (j < length srows)%nat) by (apply nth_error_Some; congruence). rewrite (gd_len _ _ _ _ _ _ _ _ _ Go) in Hl.
    pose proof (nodes_height H (word_hash H) s0 sk 0). pose proof (nodes_height H (word_hash H) s1 sk 0). split; [lia|]. split; [exact (gd_bits _ _ _ _ _ _ _ _ _ Go j row Hj)|].
    intros C. assert (E := Er). unfold trie_rows_new in E. rewrite !tree_path_end in E. cbn [obind] in E. destruct (common_both _ _ _ _ _ _ _ _ _ _ _ E Hj C) as [L1 L2].
    assert (B0 : kbit (sl_key H old) j = kbit sk j) by (destruct (key_of _ _ _ Lo) as [->|(k' & w & X & ->)]; [reflexivity|exact (placed_bits H (word_hash H) s0 sk k' w j Ps X L1)]).
    assert (B1 : kbit (sl_key H new) j = kbit sk j) by (destruct (key_of _ _ _ Ln) as [->|(k' & w & X & ->)]; [reflexivity|exact (placed_bits H (word_hash H) s1 sk k' w j Ps' X L2)]).
    destruct (feqb _ _); assumption.
  Qed.
  Lemma slot_bits : Forall (fun l => kb_row l <> None) (trie_key_bit_lookups srows sk other).
  Proof.
    unfold trie_key_bit_lookups. assert (N : forall j row, nth_error srows j = Some row -> nth_error srows (0 + j) = Some row) by auto. revert N. generalize srows at 1 3 as m. intros m. generalize 0%nat as i.
    induction m as [|row m IH]; intros i N; [constructor|]. cbn [trie_key_bit_lookups_from]. apply Forall_app. split.
    - destruct (other_bits i row) as (L & D & C); [rewrite <- (Nat.add_0_r i); apply N; reflexivity|].
      assert (K1 : kb_row (sk, Z.of_nat i, tr_direction row) <> None) by (apply kb_some; auto).
      destruct (tr_path row); repeat constructor; try exact K1. apply kb_some; [exact L|]. rewrite (C eq_refl). exact D.
    - apply IH. intros j r' Hj. replace (S i + j)%nat with (i + S j)%nat by lia. apply N. exact Hj.
  Qed.
  Lemma hash_some l : exists h, sl_hash H l = Some h.
  Proof. destruct l as [x|x y|x y]; unfold sl_hash, sl_value_hash; [eauto|cbn [obind]; eauto|]. destruct (u256_hi_lo y). cbn [obind]. eauto. Qed.
  Lemma entry_hash x y : exists h, sl_value_hash H (SEntry x y) = Some h.
  Proof. unfold sl_value_hash. destruct (u256_hi_lo y). eauto. Qed.
  Lemma leaf_lookups l : exists x, sl_poseidon_lookups H l = Some x.
  Proof. destruct (hash_some l) as (h & E). unfold sl_poseidon_lookups. destruct l as [x|x y|x y]; [eauto|rewrite E; cbn [obind]; eauto|]. destruct (entry_hash x y) as (g & ->). rewrite E. cbn [obind]. eauto. Qed.
  Lemma vacant_key v x l : v = None -> leaf_shape (H := H) (slot := slot) v x l -> feqb sk (sl_key H l) = true \/ exists h, sl_value_hash H l = Some h.
  Proof. intros -> [[_ ->]|(k' & w & _ & _ & ->)]; [left; apply feqb_refl|right; eexists; reflexivity]. Qed.
  Lemma slot_leaf off r : exists ws, assign_storage_leaf_row H off sk other old new r = Some ws.
  Proof.
    destruct (along_ends sk sov snv 0 s0 s1 (written_along sk sov snv s0 s1 WS)) as (_ & _ & Same & _).
    assert (SK : storage_key_hash H slot = sk) by (apply storage_key_hash_spec; exact Sl). unfold assign_storage_leaf_row. destruct (hash_some old) as (ho & Eho). destruct (hash_some new) as (hn & Ehn).
    destruct sov as [w|], snv as [w'|]; cbn [leaf_shape] in Lo, Ln.
    - destruct Lo as [_ ->]. destruct Ln as [_ ->]. cbn [storage_leaf_path storage_leaf_hashes storage_leaf_nonexistence]. destruct (entry_hash slot w) as (x & ->). destruct (entry_hash slot w') as (y & ->). cbn [obind]. eauto.
    - destruct Lo as [_ ->]. destruct (vacant_key None _ new eq_refl Ln) as [V|V].
      + replace (storage_leaf_path (SEntry slot w) new) with (Some ExtensionOld) by (destruct Ln as [[_ ->]|(k' & w' & _ & _ & ->)]; reflexivity). cbn [storage_leaf_hashes storage_leaf_nonexistence].
        destruct (entry_hash slot w) as (x & ->). rewrite Ehn. cbn [obind]. rewrite V. cbn [negb sl_key]. rewrite SK, feqb_refl. cbn [negb obind]. eauto.
      + replace (storage_leaf_path (SEntry slot w) new) with (Some ExtensionOld) by (destruct Ln as [[_ ->]|(k' & w' & _ & _ & ->)]; reflexivity). cbn [storage_leaf_hashes storage_leaf_nonexistence].
        destruct (entry_hash slot w) as (x & ->). rewrite Ehn. cbn [obind]. destruct V as (h & ->). cbn [obind]. match goal with |- context [if ?b then Some [(A (iv 9), h)] else Some []] => destruct b end; cbn [obind]; eauto.
    - destruct Ln as [_ ->]. destruct (vacant_key None _ old eq_refl Lo) as [V|V].
      + replace (storage_leaf_path old (SEntry slot w')) with (Some ExtensionNew) by (destruct Lo as [[_ ->]|(k' & w & _ & _ & ->)]; reflexivity). cbn [storage_leaf_hashes storage_leaf_nonexistence].
        destruct (entry_hash slot w') as (x & ->). rewrite Eho. cbn [obind]. rewrite V. cbn [negb sl_key]. rewrite SK, feqb_refl. cbn [negb obind]. eauto.
      + replace (storage_leaf_path old (SEntry slot w')) with (Some ExtensionNew) by (destruct Lo as [[_ ->]|(k' & w & _ & _ & ->)]; reflexivity). cbn [storage_leaf_hashes storage_leaf_nonexistence].
        destruct (entry_hash slot w') as (x & ->). rewrite Eho. cbn [obind]. destruct V as (h & ->). cbn [obind]. match goal with |- context [if ?b then Some [(A (iv 9), h)] else Some []] => destruct b end; cbn [obind]; eauto.
    - specialize (Same eq_refl eq_refl). destruct Lo as [[E0 ->]|(k' & w & E0 & N0 & ->)], Ln as [[E1 ->]|(k'' & w' & E1 & N1 & ->)]; try congruence; cbn [storage_leaf_path assign_empty_storage_proof sl_key].
      + rewrite feqb_refl. cbn [oassert obind sl_hash]. rewrite !feqb_refl. cbn [oassert obind]. eauto.
      + assert (k'' = k' /\ word_hash H w' = word_hash H w) as [-> ->] by (split; congruence). assert (F : feqb sk k' = false) by (destruct (feqb sk k') eqn:F; [apply feqb_eq in F; congruence|reflexivity]).
        rewrite F. rewrite F. cbn [negb oassert obind]. rewrite !feqb_refl. cbn [oassert obind]. unfold sl_hash, sl_value_hash. cbn [obind]. eauto.
  Qed.
  Lemma slot_rows off r : exists ws, assign_storage H off (SUpdate slot sk srows old new) r = Some ws.
  Proof.
    unfold assign_storage, sp_other_key. cbn [obind]. unfold assign_trie_rows. pose proof (chain_cells H srows _ _ _ _ 0 (gd_chain _ _ _ _ _ _ _ _ _ Go)) as X.
    destruct (trie_rows_cells 0 srows); [|congruence]. cbn [obind]. destruct (slot_leaf (off + Z.of_nat (length srows)) r) as ((ws & m) & ->). cbn [obind]. eauto.
  Qed.
End Slot.

Section Leaf.
  Context {H : Fr -> Fr -> Fr -> Fr} {p : Proof} {address : Z} {t t' : tree account}.
  Hypothesis Ad : 0 <= address < 2 ^ 160.
  Hypothesis CF : collision_free H (inputs_of H t t').
  Hypothesis Ft : tree_all fits t.
  Hypothesis Ft' : tree_all fits t'.
  Hypothesis Pt : placed t [].
  Hypothesis Pt' : placed t' [].
  Hypothesis Ht : (height t <= 256)%nat.
  Hypothesis Ht' : (height t' <= 256)%nat.
  Context {ty : MPTProofType} {tr : SMTTrace} {ov nv : option account}.
  Notation k := (addr_key H address).
  Notation hv := (account_hash H).
  Hypothesis PF : proof_from H ty tr = Some p.
  Hypothesis TA : t_address tr = be_bytes 20 address.
  Hypothesis TK : t_account_path tr = (trace_path H hv t k, trace_path H hv t' k).
  Hypothesis TU : t_account_update tr = (option_map data_of ov, option_map data_of nv).
  Hypothesis W : written k ov nv t t'.
  Hypothesis Kept : ov <> None -> nv <> None.
  Notation HP := (path_of PF Ad TA TK W).
  Notation AE := (along_ends k ov nv 0 t t' (written_along k ov nv t t' W)).
  Lemma leaf_path f fo fn : ov <> None \/ nv <> None -> final_hashes H p = (fo, fn) -> exists q, leaf_path_type f fo fn = Some q.
  Proof.
    intros S E. rewrite (hp_hashes HP) in E. assert (X : fo <> f0 \/ fn <> f0).
    { destruct AE as (A1 & A2 & _). assert (fo = thash H hv (tree_end t 0 k)) as -> by congruence. assert (fn = thash H hv (tree_end t' 0 k)) as -> by congruence. destruct ov as [a|]; [left|right].
      - cbn [end_with] in A1. destruct (old_in (t' := t') _ _ A1) as [I _]. rewrite A1. exact (cf_nonzero CF _ _ _ DLeaf I).
      - destruct nv as [a|]; [|destruct S; congruence]. cbn [end_with] in A2. destruct (new_in (t := t) _ _ A2) as [I _]. rewrite A2. exact (cf_nonzero CF _ _ _ DLeaf I). }
    unfold leaf_path_type. destruct f; eauto. destruct (feqb fo f0) eqn:E0, (feqb fn f0) eqn:E1; eauto. apply feqb_eq in E0, E1. destruct X; congruence.
  Qed.
  (* kinds of claims about the account itself *)
  Definition own_kind (kd : ClaimKind) : Prop :=
    match kd with
    | KNonce o n | KBalance o n | KCodeHash o n | KCodeSize o n => o <> None \/ n <> None
    | KPoseidonCodeHash o n => o <> None \/ n <> None
    | _ => False
    end.
  Lemma choose_some {X} (o n : option X) : o <> None \/ n <> None -> exists ts, choose_traces o n p = Some ts.
  Proof. intros S. unfold choose_traces. destruct o, n; eauto. destruct S; congruence. Qed.
  Lemma cells_some off_path key other data r m : (forall s sib o n d i, In s SEGMENT_TYPES -> leaf_row_cells H p off_path key other data r s sib o n d i <> None) -> forall l i, (forall x, In x l -> In (fst (fst (fst (fst x)))) SEGMENT_TYPES) ->
    m = omap_from (fun i x => let '(s, sib, o, n, d) := x in leaf_row_cells H p off_path key other data r s sib o n d i) i l -> m <> None.
  Proof.
    intros A l. revert m. induction l as [|x l IH]; intros m i I ->; [discriminate|]. cbn [omap_from]. destruct x as ((((s & sib) & o) & n) & d). specialize (A s sib o n d i (I _ (or_introl eq_refl))).
    destruct (leaf_row_cells _ _ _ _ _ _ _ _ _ _ _ _ i); [|congruence]. cbn [obind]. specialize (IH _ (S i) (fun x Hx => I x (or_intror Hx)) eq_refl). destruct (omap_from _ (S i) l); [discriminate|congruence].
  Qed.
  Lemma izip_types {A} siblings olds news dirs (x : A * Fr * Fr * Fr * bool) ss : In x (izip5 ss siblings olds news dirs) -> In (fst (fst (fst (fst x)))) ss.
  Proof. destruct x as ((((s & sib) & o) & n) & d). unfold izip5. intros I. apply in_combine_l, in_combine_l, in_combine_l, in_combine_l in I. exact I. Qed.
  Lemma leaf_some_of r off f fo fn key other data : (ov <> None \/ nv <> None) -> final_hashes H p = (fo, fn) ->
    (exists dirs, leaf_directions (proof_type_of (c_kind (pf_claim p))) = Some dirs) -> (exists s, account_leaf_siblings H p = Some s) ->
    (match c_kind (pf_claim p) with KStorage _ _ _ | KIsEmpty (Some _) => exists a b c d e, pf_storage p = SUpdate a b c d e | _ => True end) ->
    (forall o, exists ws, assign_storage H o (pf_storage p) r = Some ws) -> assign_account_leaf H off p f fo fn key other data r <> None.
  Proof.
    intros S E (dirs & Ed) (sib & Es) K St. unfold assign_account_leaf. destruct (leaf_path f fo fn S E) as (q & ->). cbn [obind]. rewrite Ed, Es. cbn [obind].
    match goal with |- obind ?m _ <> None => assert (M : m <> None) end.
    { eapply cells_some; [|intros x Hx; apply izip_types in Hx; exact Hx|reflexivity]. clear - K. intros s sb o n d i Hs. unfold leaf_row_cells. destruct s; try discriminate.
      destruct (c_kind (pf_claim p)) as [? ?|? ?|? ?|? ?|? ?|? ? ?|[?|]]; try discriminate; destruct K as (a & b & c & e & g & K); rewrite K; cbn [sp_key sp_other_key obind]; discriminate. }
    destruct (omap_from _ 0 _) as [cs|]; [|congruence]. cbn [obind]. destruct (St (off + Z.of_nat (length dirs))) as (ws & ->). cbn [obind]. discriminate.
  Qed.
  Lemma reprs_some : (forall ea, pf_old_account p = Some ea -> val (ea_balance ea) < 256 ^ 31) -> (forall ea, pf_new_account p = Some ea -> val (ea_balance ea) < 256 ^ 31) ->
    (proof_type_of (c_kind (pf_claim p)) = StorageChanged -> exists a b c d e, pf_storage p = SUpdate a b c d e) -> exists o, proof_reprs p = Some o /\ Forall (fun x => val x < 256 ^ 31) (re_frs o).
  Proof.
    intros O N S. unfold proof_reprs. destruct (proof_type_of (c_kind (pf_claim p))); try (eexists; split; [reflexivity|constructor]).
    - eexists. split; [reflexivity|]. cbn [re_frs]. apply Forall_app. split; [destruct (pf_old_account p) as [ea|]|destruct (pf_new_account p) as [ea|]]; cbn [of_account]; repeat constructor; auto.
    - destruct (S eq_refl) as (a & b & c & d & e & ->). eexists. split; [reflexivity|constructor].
  Qed.
  Lemma balances : (forall ea, pf_old_account p = Some ea -> val (ea_balance ea) < 256 ^ 31) /\ (forall ea, pf_new_account p = Some ea -> val (ea_balance ea) < 256 ^ 31).
  Proof.
    assert (B : forall a, fits a -> val (fz (balance a)) < 256 ^ 31).
    { intros a [(_ & _ & A3 & _) A5]. rewrite val_fz, Z.mod_small by exact A3. replace (256 ^ 31) with (2 ^ 248) by reflexivity. exact A5. }
    split; intros ea E.
    - destruct ov as [a|] eqn:O; [|rewrite (proj2 (accounts_of PF Ad TA TK TU W) eq_refl) in E; discriminate E]. destruct (old_eth Ad Ft PF TA TK TU W a eq_refl) as (ea' & E' & (_ & _ & S & _)). assert (ea' = ea) as -> by congruence. rewrite S. apply B. exact (fits_old Ft W a eq_refl).
    - destruct nv as [a|] eqn:O; [|rewrite (proj2 (accounts_of_new PF Ad TA TK TU W) eq_refl) in E; discriminate E]. destruct (new_eth Ad Ft' PF TA TK TU W a eq_refl) as (ea' & E' & (_ & _ & S & _)). assert (ea' = ea) as -> by congruence. rewrite S. apply B. exact (fits_new Ft' W a eq_refl).
  Qed.
  Lemma key_bits_of : Forall (fun l => kb_row l <> None) (sp_key_bit_lookups H (pf_storage p)) -> exists o, proof_key_bits H p = Some o /\ Forall (fun l => kb_row l <> None) o.
  Proof.
    intros F. destruct (account_bits Ad PF TA TK TU W Kept Pt Pt' Ht Ht') as (o & E & Fo). unfold proof_key_bits. rewrite E. cbn [obind]. eexists. split; [reflexivity|]. apply Forall_app. auto.
  Qed.
  Lemma hashes_of : sp_poseidon_lookups H (pf_storage p) <> None -> proof_hash_traces H p <> None.
  Proof.
    intros S. unfold proof_hash_traces. pose proof (chain_lookups H _ _ _ _ _ (gd_chain _ _ _ _ _ _ _ _ _ (hp_good HP))) as X. destruct (trie_poseidon_lookups H (pf_account_trie_rows p)); [|congruence].
    destruct (sp_poseidon_lookups H (pf_storage p)); [cbn [obind]; discriminate|congruence].
  Qed.
  Theorem ready_root r x : pf_storage p = SRoot x -> (own_kind (c_kind (pf_claim p)) \/ (ov = None /\ nv = None)) -> proof_type_of (c_kind (pf_claim p)) <> StorageChanged -> ready H r p /\ proof_hash_traces H p <> None.
  Proof.
    intros Sx K NS. split; [|apply hashes_of; rewrite Sx; discriminate]. split; [|split].
    - apply (single_some Ad PF TA TK TU W Kept). intros S off f fo fn ky ok da Ef Eh. apply leaf_some_of; auto.
      + destruct K as [K|[K1 K2]]; [|destruct S; congruence]. destruct (c_kind (pf_claim p)) as [? ?|? ?|? ?|? ?|? ?|? ? ?|[?|]]; try contradiction; cbn; eauto.
      + destruct K as [K|[K1 K2]]; [|destruct S; congruence]. unfold account_leaf_siblings. destruct (c_kind (pf_claim p)) as [? ?|? ?|? ?|? ?|? ?|? ? ?|[?|]]; try contradiction; destruct (choose_some _ _ K) as (ts & ->); cbn [obind]; eauto.
      + destruct K as [K|[K1 K2]]; [|destruct S; congruence]. destruct (c_kind (pf_claim p)) as [? ?|? ?|? ?|? ?|? ?|? ? ?|[?|]]; try contradiction; exact Logic.I.
      + intros o. rewrite Sx. exists []. reflexivity.
    - destruct balances. apply reprs_some; auto. congruence.
    - apply key_bits_of. rewrite Sx. constructor.
  Qed.
  (* a slot, of an account with the storage tries s0 and s1 *)
  Section Slot.
    Context {slot : Z} {sov snv : option Z} {a a' : account}.
    Notation sk := (slot_key H slot).
    Hypothesis Sl : 0 <= slot < 2 ^ 256.
    Hypothesis OKa : account_ok a.
    Hypothesis OKa' : account_ok a'.
    Hypothesis Ea : a' = set_storage (storage a') a.
    Hypothesis WS : written sk sov snv (storage a) (storage a').
    Hypothesis Zo : sov <> Some 0.
    Hypothesis Zn : snv <> Some 0.
    Hypothesis Ps : placed (storage a) [].
    Hypothesis Ps' : placed (storage a') [].
    Hypothesis Hs : (height (storage a) <= 256)%nat.
    Hypothesis Hs' : (height (storage a') <= 256)%nat.
    Hypothesis TC : t_common_state_root tr = None.
    Hypothesis TSK : t_state_key tr = Some (fr_to_bytes sk).
    Hypothesis TSP : t_state_path tr = (Some (trace_path H (word_hash H) (storage a) sk), Some (trace_path H (word_hash H) (storage a') sk)).
    Hypothesis TSU : t_state_update tr = Some (Some (mkStateData (be_bytes 32 slot) (be_bytes 32 (oz sov))), Some (mkStateData (be_bytes 32 slot) (be_bytes 32 (oz snv)))).
    Hypothesis Who : (ov = Some a /\ nv = Some a') \/ (ov = None /\ nv = None).
    Theorem ready_slot r : ready H r p /\ proof_hash_traces H p <> None.
    Proof.
      destruct (slot_storage PF Ad TA TK W Sl OKa OKa' WS Zo Zn TC TSK TSP TSU) as (srows & old & new & Sx & Go & Lo & Ln & Ro & Rn).
      pose proof (slot_kind PF Ad TA TK W Sl OKa OKa' WS Zo Zn TSU) as Kd.
      assert (Er : trie_rows_new H sk (tree_nodes H (word_hash H) (storage a) 0 sk) (tree_nodes H (word_hash H) (storage a') 0 sk) (tree_leaf (word_hash H) (storage a) 0 sk) (tree_leaf (word_hash H) (storage a') 0 sk) = Some srows).
      { destruct (hp_leafs HP) as (p0 & p1 & l0 & l1 & F). pose proof (ft_storage _ _ _ _ _ _ _ _ F) as E. clear F. destruct (storage_proof_inv H tr _ _ _ _ _ _ E TC TSK TSP TSU) as (key & sk' & srows' & old' & new' & E1 & E2 & _ & _ & _ & E6 & _).
        rewrite fr_of_bytes in E1. apply some_eq in E1. subst key. rewrite Sx in E6. assert (srows' = srows) as -> by congruence. exact E2. }
      assert (Kd2 : (exists x y, c_kind (pf_claim p) = KStorage slot x y) \/ c_kind (pf_claim p) = KIsEmpty (Some slot)) by (destruct sov, snv; eauto).
      split; [|apply hashes_of; rewrite Sx; cbn [sp_poseidon_lookups]; destruct (u256_hi_lo slot); pose proof (chain_lookups H _ _ _ _ _ (gd_chain _ _ _ _ _ _ _ _ _ Go)) as X; destruct (trie_poseidon_lookups H srows); [cbn [obind]|congruence];
        destruct (leaf_lookups (H := H) old) as (x & ->); destruct (leaf_lookups (H := H) new) as (y & ->); cbn [obind]; discriminate].
      split; [|split].
      - apply (single_some Ad PF TA TK TU W Kept). intros S off f fo fn ky ok da Ef Eh. destruct Who as [[O N]|[O N]]; [|destruct S; congruence]. apply leaf_some_of; auto.
        + destruct Kd2 as [(x & y & ->)| ->]; cbn; eauto.
        + assert (T0 : exists root, pf_old_account_hash_traces p = lv_traces H (akey H p) (lv_of (data_of a) root)).
          { destruct (hp_leafs HP) as (p0 & p1 & l0 & l1 & F). pose proof (ft_old_traces _ _ _ _ _ _ _ _ F) as A. rewrite TU, O, Ro in A. cbn [fst option_map traces_of obind] in A. apply some_eq in A. rewrite traces_lv in A. eauto. }
          assert (T1 : exists root, pf_new_account_hash_traces p = lv_traces H (akey H p) (lv_of (data_of a') root)).
          { destruct (hp_leafs HP) as (p0 & p1 & l0 & l1 & F). pose proof (ft_new_traces _ _ _ _ _ _ _ _ F) as A. rewrite TU, N, Rn in A. cbn [snd option_map traces_of obind] in A. apply some_eq in A. rewrite traces_lv in A. eauto. }
          destruct T0 as (r0 & T0). destruct T1 as (r1 & T1). rewrite Ea in T1. change (data_of (set_storage (storage a') a)) with (data_of a) in T1.
          assert (Eq : feqb (at2 (pf_old_account_hash_traces p) 4 1) (at2 (pf_new_account_hash_traces p) 4 1) = true /\ feqb (at2 (pf_old_account_hash_traces p) 3 0) (at2 (pf_new_account_hash_traces p) 3 0) = true /\ feqb (at2 (pf_old_account_hash_traces p) 1 1) (at2 (pf_new_account_hash_traces p) 1 1) = true).
          { rewrite T0, T1. unfold at2, lv_traces. cbn [nth]. unfold lv_of, lv_n, lv_k. cbn [lv_nc lv_bal lv_root lv_hi lv_lo lv_pch]. rewrite !feqb_refl. auto. }
          destruct Eq as (Q1 & Q2 & Q3). unfold account_leaf_siblings. destruct Kd2 as [(x & y & ->)| ->]; rewrite Q1, Q2, Q3; cbn [oassert obind]; eauto.
        + rewrite Sx. destruct Kd2 as [(x & y & ->)| ->]; eauto 10.
        + intros o. rewrite Sx. exact (slot_rows Sl WS Go Lo Ln o r).
      - destruct balances. apply reprs_some; auto. rewrite Sx. eauto 10.
      - apply key_bits_of. rewrite Sx. cbn [sp_key_bit_lookups]. exact (slot_bits Sl Go Er Lo Ln Ps Ps' Hs Hs').
    Qed.
  End Slot.
End Leaf.

Theorem honest_ready H r address t t' ty tr p : honest H address t t' ty tr -> proof_from H ty tr = Some p -> 0 <= address < 2 ^ 160 -> collision_free H (inputs_of H t t') ->
  tree_all fits t -> tree_all fits t' -> shaped t -> shaped t' -> tree_all (fun a => shaped (storage a)) t -> tree_all (fun a => shaped (storage a)) t' -> ready H r p /\ proof_hash_traces H p <> None.
Proof.
  intros HO PF Ad CF Ft Ft' [Pt Ht] [Pt' Ht'] Sh Sh'.
  assert (GA : forall (P : account -> Prop) (x : tree account) a, tree_all P x -> get x 0 (addr_key H address) = Some a -> P a).
  { intros P x a A G. rewrite get_end in G. destruct (tree_end x 0 (addr_key H address)) as [|k' v|] eqn:E; try discriminate G. destruct (feqb _ k') eqn:F; [|discriminate G]. apply some_eq in G. subst v. exact (end_all P x _ k' a 0 A E). }
  destruct HO as [a x W|a x W|a x W|a x W|a x W|x Nx W|x Nx W|ty Ty W|a slot ov nv s' Sl _ Zo Zn WS W|a slot Sl G Gs Eq|slot Sl W].
  1-8: destruct (written_get _ _ _ t t' W) as [G G']; assert (TU : t_account_update (account_trace_of H t t' address) = (option_map data_of (get t 0 (addr_key H address)), option_map data_of (get t' 0 (addr_key H address)))) by reflexivity; rewrite G, G' in TU;
    pose proof (hp_kind (path_of PF Ad eq_refl eq_refl W)) as Kd.
  1-5: pose proof TU as TV; cbn [option_map] in TV; pose proof (kind_both _ _ _ _ _ Kd eq_refl TV) as Kb; cbv beta iota in Kb;
    refine (ready_root Ad CF Ft Ft' Pt Pt' Ht Ht' PF eq_refl eq_refl TU W ltac:(discriminate) r _ (root_storage Ad PF eq_refl eq_refl W _ eq_refl) (or_introl _) _).
  1-2: rewrite Kb; cbn; try discriminate; left; discriminate.
  1-2: destruct Kb as (o & n & _ & _ & ->); cbn; try discriminate; left; discriminate.
  1-2: rewrite Kb; cbn; try discriminate; left; discriminate.
  1-2: destruct Kb as (o & n & _ & _ & ->); cbn; try discriminate; left; discriminate.
  1-2: rewrite Kb; cbn; try discriminate; left; discriminate.
  1-2: pose proof TU as TV; cbn [option_map] in TV; pose proof (kind_new _ _ _ _ Kd eq_refl TV) as Kb;
    refine (ready_root Ad CF Ft Ft' Pt Pt' Ht Ht' PF eq_refl eq_refl TU W ltac:(congruence) r _ (root_storage Ad PF eq_refl eq_refl W _ eq_refl) (or_introl _) _);
    destruct Kb as [[_ ->]|(_ & n & _ & ->)]; cbn; try discriminate; right; discriminate.
  - pose proof TU as TV; cbn [option_map] in TV; pose proof (kind_none _ _ _ Kd eq_refl TV Ty) as Kb.
    refine (ready_root Ad CF Ft Ft' Pt Pt' Ht Ht' PF eq_refl eq_refl TU W ltac:(congruence) r _ (root_storage Ad PF eq_refl eq_refl W _ eq_refl) (or_intror (conj eq_refl eq_refl)) _).
    destruct Kb as [<-|[<-|[<-|[<-|[<-|[]]]]]]; discriminate.
  - destruct (written_get _ _ _ t t' W) as [G G']. destruct (written_get _ _ _ _ _ WS) as [V V']. destruct (GA _ t a Sh G) as [S1 S2]. destruct (GA _ t' _ Sh' G') as [S3 S4].
    refine (ready_slot Ad CF Ft Ft' Pt Pt' Ht Ht' PF eq_refl eq_refl _ W ltac:(discriminate) Sl (proj1 (GA _ t a Ft G)) (proj1 (GA _ t' _ Ft' G')) eq_refl (WS : written _ ov nv (storage a) (storage (set_storage s' a))) Zo Zn S1 S3 S2 S4 eq_refl eq_refl _ _ (or_introl (conj eq_refl eq_refl)) r);
      unfold storage_trace_of; cbn [t_account_update t_state_path t_state_update]; rewrite G, G'; cbn [storage_of]; [reflexivity|reflexivity|].
    unfold slot_value_of. cbn [storage set_storage]. rewrite V, V'. reflexivity.
  - assert (W : written (addr_key H address) (Some a) (Some a) t t') by (split; [exact G|rewrite Eq; symmetry; apply modify_same; exact G]). destruct (written_get _ _ _ t t' W) as [_ G'].
    assert (WS : written (slot_key H slot) None None (storage a) (storage a)) by (split; [exact Gs|reflexivity]). destruct (GA _ t a Sh G) as [S1 S2].
    refine (ready_slot Ad CF Ft Ft' Pt Pt' Ht Ht' PF eq_refl eq_refl _ W ltac:(discriminate) Sl (proj1 (GA _ t a Ft G)) (proj1 (GA _ t a Ft G)) _ WS ltac:(discriminate) ltac:(discriminate) S1 S1 S2 S2 eq_refl eq_refl _ _ (or_introl (conj eq_refl eq_refl)) r);
      unfold storage_trace_of; cbn [t_account_update t_state_path t_state_update]; rewrite ?G, ?G'; cbn [storage_of]; try reflexivity.
    + destruct a; reflexivity.
    + unfold slot_value_of. rewrite Gs. reflexivity.
  - destruct (written_get _ _ _ t t' W) as [G G']. set (a0 := mkAccount 0 0 0 0 f0 Empty).
    assert (OK0 : account_ok a0) by (unfold account_ok, word_ok, a0; cbn [nonce code_size balance keccak_code_hash storage tree_all]; pose proof modulus_pos; lia).
    assert (WS : written (slot_key H slot) None None (storage a0) (storage a0)) by (split; reflexivity).
    refine (ready_slot (a := a0) (a' := a0) Ad CF Ft Ft' Pt Pt' Ht Ht' PF eq_refl eq_refl _ W ltac:(congruence) Sl OK0 OK0 eq_refl WS ltac:(discriminate) ltac:(discriminate) _ _ _ _ eq_refl eq_refl _ _ (or_intror (conj eq_refl eq_refl)) r).
    + unfold storage_trace_of; cbn [t_account_update]; rewrite G, G'; reflexivity.
    + exact Logic.I.
    + exact Logic.I.
    + cbn. lia.
    + cbn. lia.
    + unfold storage_trace_of; cbn [t_state_path]; rewrite G, G'; reflexivity.
    + unfold storage_trace_of; cbn [t_state_update]; rewrite G, G'; reflexivity.
Qed.
