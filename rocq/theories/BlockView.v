(* The rows of one update, as lists of assignments. *)
From Coq Require Import ZArith List Bool Lia.
From Verif Require Import Pocklington Fr Query Builder BuilderProofs Gadgets MptUpdate Bytes GadgetProofs UpdateRows Util Serde Trie Storage Types Lookups LookupMain Assign AssignProofs UpdateAssign MptAssign MptRows RowView.
Import ListNotations.
Open Scope Z_scope.

Lemma trie_cells_nth rows : forall i cells, trie_rows_cells i rows = Some cells -> forall j row, nth_error rows j = Some row ->
  exists c, trie_row_cells (i + j) row (nth_error rows (S j)) = Some c /\ nth j cells [] = c.
Proof.
  induction rows as [|x rows IH]; intros i cells E j row Hj; [destruct j; discriminate Hj|]. cbn [trie_rows_cells] in E. ob E. ob E. apply some_eq in E. subst cells.
  destruct j as [|j]; cbn [nth_error nth] in *.
  - apply some_eq in Hj. subst x. rewrite Nat.add_0_r. exists a. split; [|reflexivity]. rewrite <- E0. destruct rows; reflexivity.
  - replace (i + S j)%nat with (S i + j)%nat by lia. exact (IH _ _ E1 j row Hj).
Qed.
Lemma omap_from_nth {X Y} (f : nat -> X -> option Y) : forall l i out, omap_from f i l = Some out -> forall k x d, nth_error l k = Some x -> exists y, f (i + k)%nat x = Some y /\ nth k out d = y.
Proof.
  induction l as [|x0 l IH]; intros i out E k x d Hk; [destruct k; discriminate Hk|]. cbn [omap_from] in E. ob E. ob E. apply some_eq in E. subst out.
  destruct k as [|k]; cbn [nth_error nth] in *.
  - apply some_eq in Hk. subst x0. rewrite Nat.add_0_r. eauto.
  - replace (i + S k)%nat with (S i + k)%nat by lia. exact (IH _ _ E1 k x d Hk).
Qed.
(* the rows of a trie segment *)
Lemma trie_seg_at seg o rows ws : assign_trie_rows seg o rows = Some ws ->
  (forall i, i < o \/ o + Z.of_nat (length rows) <= i -> row_at ws i = []) /\
  forall j row, nth_error rows j = Some row -> exists c, trie_row_cells j row (nth_error rows (S j)) = Some c /\ row_at ws (o + Z.of_nat j) = c ++ oh_assign oh_segment seg.
Proof.
  unfold assign_trie_rows. intros E. ob E. apply some_eq in E. subst ws. split.
  - intros i Hi. rewrite row_at_app, row_at_loop_out by exact Hi. rewrite app_nil_r. destruct Hi as [Hi|Hi]; [apply row_at_emit_before, Hi|].
    apply row_at_emit_after. rewrite (trie_cells_length _ _ _ E0). exact Hi.
  - intros j row Hj. destruct (trie_cells_nth _ _ _ E0 j row Hj) as (c & C1 & C2). exists c. split; [exact C1|].
    assert (j < length rows)%nat by (apply nth_error_Some; congruence). rewrite row_at_app, row_at_loop by lia. rewrite row_at_emit by lia.
    replace (Z.to_nat (o + Z.of_nat j - o)) with j by lia. rewrite C2. reflexivity.
Qed.

Section Block.
  Variable H : Fr -> Fr -> Fr -> Fr.
  (* the row of a storage leaf *)
  Definition sleaf_cells (path : PathType) (old new : StorageLeaf) (oh nh : Fr) (last : row) (r : Fr) : row :=
    oh_assign oh_path path ++ oh_assign oh_segment StorageLeaf0
    ++ [(A MU_direction, f1); (A MU_domain, fdom DLeaf); (A MU_sibling, match path with ExtensionNew => sl_key H new | _ => sl_key H old end); (A MU_old_hash, oh); (A MU_new_hash, nh)]
    ++ word_of old (iv 0) (iv 1) (sp 0) (sp 1) r ++ word_of new (iv 2) (iv 3) (sp 2) (sp 3) r
    ++ iz_assign_value_and_inverse (izg 0) (oh - ZERO_PAIR_HASH H)%fr ++ iz_assign_value_and_inverse (izg 1) (nh - ZERO_PAIR_HASH H)%fr ++ last.
  Definition skeys (key other : Fr) : row := [(A MU_key, key); (A MU_other_key, other)].
  (* the writes of assign_empty_storage_proof, which go into the row before the leaf's *)
  Definition empty_storage_cells (key other : Fr) (old new : StorageLeaf) : row :=
    match old, new with
    | SLeaf _ v, SLeaf _ _ => iz_assign_value_and_inverse (izg 2) (key - other)%fr ++ iz_assign_value_and_inverse (izg 3) (or_else (sl_hash H old) f0) ++ [(A (iv 3), v)]
    | SEmpty _, SEmpty _ => iz_assign_value_and_inverse (izg 2) (key - other)%fr
    | _, _ => []
    end.
  Definition last_cells (key other : Fr) (old new : StorageLeaf) : row :=
    match storage_leaf_path old new with None => empty_storage_cells key other old new | Some _ => [] end.
  Lemma empty_storage_at o key other old new ws : storage_leaf_path old new = None -> assign_empty_storage_proof H o key other old new = Some ws ->
    ws = at_ o (empty_storage_cells key other old new).
  Proof.
    intros P E. unfold assign_empty_storage_proof in E. destruct old as [?|? ?|? ?], new as [?|? ?|? ?]; try discriminate P; try discriminate E; unfold empty_storage_cells.
    - ob E. ob E. ob E. ob E. ob E. apply some_eq in E. subst ws. reflexivity.
    - ob E. ob E. ob E. ob E. apply some_eq in E. subst ws. rewrite E3. reflexivity.
  Qed.
  Record storage_at (o : Z) (key : Fr) (rows : TrieRows) (old new : StorageLeaf) (r other : Fr) (ws : list write) : Prop := {
    sa_before : row_at ws (o - 1) = match rows with [] => last_cells key other old new | _ => [] end;
    sa_out : forall i, i < o - 1 \/ o + Z.of_nat (length rows + Nat.max (sl_n_rows old) (sl_n_rows new)) <= i -> row_at ws i = [];
    sa_rows : forall j row, nth_error rows j = Some row -> exists c, trie_row_cells j row (nth_error rows (S j)) = Some c /\
      row_at ws (o + Z.of_nat j) = c ++ oh_assign oh_segment StorageTrie ++ (if (S j =? length rows)%nat then last_cells key other old new else []) ++ skeys key other;
    sa_leaf : forall path, storage_leaf_path old new = Some path -> exists oh nh last,
      storage_leaf_hashes H path old new = Some (oh, nh) /\ storage_leaf_nonexistence H path key old new oh nh = Some last /\
      row_at ws (o + Z.of_nat (length rows)) = sleaf_cells path old new oh nh last r ++ skeys key other }.
  Lemma storage_view o sk key rows old new r ws : assign_storage H o (SUpdate sk key rows old new) r = Some ws ->
    exists other, sp_other_key H (SUpdate sk key rows old new) = Some other /\ storage_at o key rows old new r other ws.
  Proof.
    cbn [assign_storage]. intros E. ob E. rename a into other. ob E. ob E. destruct a0 as [lw k]. apply some_eq in E. subst ws.
    exists other. split; [exact E0|].
    destruct (trie_seg_at _ _ _ _ E1) as [T1 T2].
    assert (L : exists q row, lw = at_ q row /\ match storage_leaf_path old new with
      | None => q = o + Z.of_nat (length rows) - 1 /\ row = empty_storage_cells key other old new /\ k = 0%nat
      | Some path => q = o + Z.of_nat (length rows) /\ k = 1%nat /\ exists oh nh last, storage_leaf_hashes H path old new = Some (oh, nh) /\
          storage_leaf_nonexistence H path key old new oh nh = Some last /\ row = sleaf_cells path old new oh nh last r end).
    { unfold assign_storage_leaf_row in E2. destruct (storage_leaf_path old new) as [path|] eqn:P.
      - ob E2. destruct a0 as [oh nh]. ob E2. apply some_eq in E2. assert (lw = at_ (o + Z.of_nat (length rows)) (sleaf_cells path old new oh nh a0 r)) as -> by (symmetry; exact (f_equal fst E2)). assert (k = 1%nat) as -> by (symmetry; exact (f_equal snd E2)).
        do 2 eexists. split; [reflexivity|]. split; [reflexivity|]. split; [reflexivity|]. eauto 10.
      - ob E2. apply some_eq in E2. assert (lw = a0) as -> by (symmetry; exact (f_equal fst E2)). assert (k = 0%nat) as -> by (symmetry; exact (f_equal snd E2)). apply (empty_storage_at _ _ _ _ _ _ P) in E. subst a0. do 2 eexists. split; [reflexivity|]. auto. }
    assert (K : k = Nat.max (sl_n_rows old) (sl_n_rows new)).
    { destruct L as (q & row & _ & L). destruct old, new; cbn [storage_leaf_path] in L; cbn [sl_n_rows Nat.max]; tauto. }
    assert (La : last_cells key other old new = match storage_leaf_path old new with None => empty_storage_cells key other old new | Some _ => [] end) by reflexivity.
    destruct L as (q & row & -> & L).
    constructor.
    - rewrite !row_at_app, T1 by lia. rewrite (row_at_loop_out o (length rows + k) _ (o - 1)) by lia. rewrite app_nil_r. cbn [app]. rewrite La.
      destruct (storage_leaf_path old new) as [path|].
      + rewrite row_at_there by lia. destruct rows; reflexivity.
      + destruct L as (-> & -> & _). destruct rows as [|x rows]; [rewrite Z.add_0_r; apply row_at_here|apply row_at_there; cbn [length]; lia].
    - intros i Hi. rewrite <- K in Hi. rewrite !row_at_app, T1 by lia. rewrite row_at_loop_out by lia. rewrite app_nil_r. cbn [app]. apply row_at_there. destruct (storage_leaf_path old new); lia.
    - intros j rw Hj. destruct (T2 j rw Hj) as (c & C1 & C2). exists c. split; [exact C1|]. assert (j < length rows)%nat by (apply nth_error_Some; congruence).
      rewrite !row_at_app, C2. rewrite (row_at_loop o (length rows + k)) by lia. rewrite <- app_assoc. f_equal. f_equal. f_equal. rewrite La.
      destruct (storage_leaf_path old new) as [path|].
      + rewrite row_at_there by lia. destruct (S j =? length rows)%nat; reflexivity.
      + destruct L as (-> & -> & _). destruct (Nat.eqb_spec (S j) (length rows)) as [Q|Q].
        * replace (o + Z.of_nat j) with (o + Z.of_nat (length rows) - 1) by lia. apply row_at_here.
        * apply row_at_there. lia.
    - intros path P. rewrite P in L. destruct L as (-> & -> & oh & nh & last & L1 & L2 & ->). exists oh, nh, last. split; [exact L1|]. split; [exact L2|].
      rewrite !row_at_app, T1 by lia. rewrite row_at_here. rewrite row_at_loop by lia. reflexivity.
  Qed.

  (** * The whole update *)
  Variable p : Proof.
  Variable r : Fr.
  Definition akey : Fr := account_key H (c_address (pf_claim p)).
  Definition no_account : bool := is_none (pf_old_account p) && is_none (pf_new_account p).
  (* cells written into the last row of an update that ends in the account trie *)
  Definition tail_cells (other data fo : Fr) : row :=
    if no_account then iz_assign_value_and_inverse (izg 2) (akey - other)%fr ++ iz_assign_value_and_inverse (izg 3) fo ++ [(A (iv 3), data)] else [].

  Record block_at (o : Z) (ws : list write) (other data : Fr) (final : PathType) : Prop := {
    ba_other : other_key_and_data akey (pf_old p) (pf_new p) = Some (other, data);
    ba_final : final_path_type p = Some final;
    ba_start : row_at ws o = claim_cells p r ++ start_cells (pf_claim p) akey other r
      ++ match pf_account_trie_rows p with [] => tail_cells other data (fst (final_hashes H p)) | _ => [] end;
    ba_trie : forall j row, nth_error (pf_account_trie_rows p) j = Some row -> exists c, trie_row_cells j row (nth_error (pf_account_trie_rows p) (S j)) = Some c /\
      row_at ws (o + 1 + Z.of_nat j) = claim_cells p r ++ c ++ oh_assign oh_segment AccountTrie ++ skeys akey other
        ++ (if (S j =? length (pf_account_trie_rows p))%nat then tail_cells other data (fst (final_hashes H p)) else []);
    ba_leaf : no_account = false -> exists path dirs siblings st, 
      leaf_path_type final (fst (final_hashes H p)) (snd (final_hashes H p)) = Some path /\
      leaf_directions (proof_type_of (c_kind (pf_claim p))) = Some dirs /\ account_leaf_siblings H p = Some siblings /\
      assign_storage H (o + 1 + Z.of_nat (length (pf_account_trie_rows p)) + Z.of_nat (length dirs)) (pf_storage p) r = Some st /\
      (forall i, o + 1 + Z.of_nat (length (pf_account_trie_rows p)) + Z.of_nat (length dirs) <= i ->
         i < o + Z.of_nat (proof_n_rows p) -> (length dirs = 4)%nat -> row_at ws i = claim_cells p r ++ row_at st i) /\
      let olds := or_else (old_account_leaf_hashes p) (repeat (fst (final_hashes H p)) 4) in
      let news := or_else (new_account_leaf_hashes p) (repeat (snd (final_hashes H p)) 4) in
      forall k s sib ho hn d, nth_error (izip5 SEGMENT_TYPES siblings olds news dirs) k = Some (s, sib, ho, hn, d) ->
      exists c, leaf_row_cells H p path akey other data r s sib ho hn d k = Some c /\
        row_at ws (o + 1 + Z.of_nat (length (pf_account_trie_rows p)) + Z.of_nat k) = claim_cells p r ++ c ++
          (match k with O => skeys akey other ++ iz_assign_value_and_inverse (izg 2) (akey - other)%fr | _ => [] end) ++
          (if (k =? 3)%nat then code_hash_cells (c_kind (pf_claim p)) r else []) ++
          row_at st (o + 1 + Z.of_nat (length (pf_account_trie_rows p)) + Z.of_nat k) }.
  Lemma nn_rows m : no_account = false -> leaf_directions (proof_type_of (c_kind (pf_claim p))) = Some m ->
    proof_n_rows p = (1 + length (pf_address_hash_traces p) + length m + sp_n_rows (pf_storage p))%nat.
  Proof.
    unfold proof_n_rows, no_account. intros -> M. destruct (c_kind (pf_claim p)) as [? ?|? ?|? ?|? ?|? ?|? ? ?|[?|]]; cbn in M; try discriminate M; apply some_eq in M; subst m; reflexivity.
  Qed.
  Lemma block_view o ws : length (pf_account_trie_rows p) = length (pf_address_hash_traces p) -> assign_single_proof H p r o = Some ws ->
    exists other data final, block_at o ws other data final.
  Proof.
    intros L E. unfold assign_single_proof in E. fold akey in E. ob E. destruct a as [other data]. ob E. ob E. rename a0 into final.
    destruct (final_hashes H p) as [fo fn] eqn:FH. ob E. rename a0 into rest. apply some_eq in E. subst ws. fold no_account in E3.
    destruct (trie_seg_at _ _ _ _ E1) as [T1 T2]. set (n := length (pf_account_trie_rows p)) in *.
    assert (NR : (1 + n <= proof_n_rows p)%nat) by (unfold proof_n_rows; destruct (_ && _); lia).
    assert (R0 : forall i, i < o + Z.of_nat n -> row_at rest i = []).
    { intros i Hi. destruct no_account; [apply some_eq in E3; subst rest; apply row_at_there; lia|].
      unfold assign_account_leaf in E3. ob E3. ob E3. ob E3. ob E3. ob E3. apply some_eq in E3. subst rest. rewrite !row_at_app.
      rewrite row_at_emit_before by lia. rewrite !row_at_there by lia. cbn [app].
      assert (Hm : (0 < length a1)%nat) by (clear - E4; destruct (proof_type_of (c_kind (pf_claim p))); cbn in E4; try discriminate E4; apply some_eq in E4; subst a1; cbn; lia).
      destruct (pf_storage p) as [x|sk k rows ol nl] eqn:St.
      - cbn [assign_storage] in E7. apply some_eq in E7. subst a4. reflexivity.
      - destruct (storage_view _ _ _ _ _ _ _ _ E7) as (ot & _ & V). apply (sa_out _ _ _ _ _ _ _ _ V). left. lia. }
    assert (R1 : no_account = true -> row_at rest (o + Z.of_nat n) = tail_cells other data fo).
    { intros Q. rewrite Q in E3. apply some_eq in E3. subst rest. unfold tail_cells. rewrite Q. replace (o + 1 + Z.of_nat n - 1) with (o + Z.of_nat n) by lia. apply row_at_here. }
    assert (R2 : no_account = false -> row_at rest (o + Z.of_nat n) = []).
    { intros Q. rewrite Q in E3.
      unfold assign_account_leaf in E3. ob E3. ob E3. ob E3. ob E3. ob E3. apply some_eq in E3. subst rest. rewrite !row_at_app.
      rewrite row_at_emit_before by lia. rewrite !row_at_there by lia. cbn [app].
      assert (Hm : (2 <= length a1)%nat) by (clear - E4; destruct (proof_type_of (c_kind (pf_claim p))); cbn in E4; try discriminate E4; apply some_eq in E4; subst a1; cbn; lia).
      destruct (pf_storage p) as [x|sk k rows ol nl] eqn:St.
      - cbn [assign_storage] in E7. apply some_eq in E7. subst a4. reflexivity.
      - destruct (storage_view _ _ _ _ _ _ _ _ E7) as (ot & _ & V). apply (sa_out _ _ _ _ _ _ _ _ V). left. lia. }
    assert (R3 : row_at rest (o + Z.of_nat n) = tail_cells other data fo).
    { destruct no_account eqn:Q; [apply R1; reflexivity|]. rewrite R2 by reflexivity. unfold tail_cells. rewrite Q. reflexivity. }
    exists other, data, final. constructor; rewrite ?FH; cbn [fst snd].
    - exact E0.
    - exact E2.
    - rewrite !row_at_app, row_at_loop by lia. rewrite row_at_here, T1 by lia. rewrite row_at_loop_out by lia. cbn [app].
      destruct (pf_account_trie_rows p) as [|x rows]; cbn [length] in n; [replace o with (o + Z.of_nat n) at 1 by lia; rewrite R3; reflexivity|].
      rewrite R0 by lia. reflexivity.
    - intros j row Hj. destruct (T2 j row Hj) as (c & C1 & C2). exists c. split; [exact C1|].
      assert (j < n)%nat by (apply nth_error_Some; congruence). rewrite !row_at_app, row_at_loop by lia. rewrite row_at_there by lia. rewrite C2.
      rewrite row_at_loop by lia. rewrite <- !app_assoc. cbn [app]. do 3 f_equal. unfold skeys. cbn [app]. do 2 f_equal.
      fold n. destruct (Nat.eqb_spec (S j) n) as [Q|Q]; [|apply R0; lia].
      replace (o + 1 + Z.of_nat j) with (o + Z.of_nat n) by lia. exact R3.
    - intros Q. rewrite Q in E3. unfold assign_account_leaf in E3. ob E3. ob E3. ob E3. ob E3. ob E3. apply some_eq in E3. subst rest.
      rename a0 into path. rename a1 into dirs. rename a2 into siblings. rename a3 into cells. rename a4 into st. fold n.
      exists path, dirs, siblings, st. split; [exact E|]. split; [exact E4|]. split; [exact E5|]. split; [exact E7|].
      pose proof (nn_rows dirs Q E4) as NR2. fold n in L. rewrite <- L in NR2.
      assert (Lc : (length cells <= length dirs)%nat).
      { rewrite (omap_from_length _ _ _ _ E6). unfold izip5. rewrite combine_length. lia. }
      split.
      + intros i Hi1 Hi2 H4. rewrite !row_at_app, row_at_loop by lia. rewrite row_at_there by lia. rewrite T1 by lia. rewrite row_at_loop_out by lia.
        rewrite row_at_emit_after by lia. rewrite !row_at_there by lia. reflexivity.
      + cbv zeta. intros k s sib ho hn d Hk. destruct (omap_from_nth _ _ _ _ E6 k _ [] Hk) as (c & C1 & C2). cbv beta iota in C1. exists c. split; [exact C1|].
        assert (Hk2 : (k < length cells)%nat) by (rewrite (omap_from_length _ _ _ _ E6); apply nth_error_Some; congruence).
        rewrite !row_at_app, row_at_loop by lia. rewrite row_at_there by lia. rewrite T1 by lia. rewrite row_at_loop_out by lia.
        rewrite row_at_emit by lia. replace (Z.to_nat (o + 1 + Z.of_nat n + Z.of_nat k - (o + 1 + Z.of_nat n))) with k by lia. rewrite C2. cbn [app]. f_equal. f_equal. f_equal.
        * destruct k; [rewrite Z.add_0_r; apply row_at_here|apply row_at_there; lia].
        * f_equal. destruct (Nat.eqb_spec k 3) as [->|Q3]; [apply row_at_here|apply row_at_there; lia].
  Qed.
End Block.
