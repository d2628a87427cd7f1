(* A table filled in parallel mode without a padding row, whose last update has more than one row, cannot be proved.  Lemmas for PropsFull.v. *)
From Coq Require Import ZArith List Bool Lia.
From Verif Require Import Pocklington Fr Query Builder BuilderProofs Gadgets GadgetMain GadgetMain2 MptUpdate Bytes Fixed GadgetProofs UpdateRows Util Serde Trie Storage Types Lookups LookupMain
  Assign AssignProofs UpdateAssign MptAssign MptModes MptRows MptCases BlocksOk UpdateSound.
Import ListNotations.
Open Scope Z_scope.

(** * The segment type columns are only ever assigned 1 *)
Definition seg1 (c : col) (v : Fr) : Prop := match c with A (MU_seg _) => v = f1 | _ => True end.
Definition s_row (r : row) : Prop := Forall (fun p => seg1 (fst p) (snd p)) r.
Definition s_ok (ws : list write) : Prop := Forall (fun w => seg1 (fst (fst w)) (snd w)) ws.
Lemma s_app a b : s_ok a -> s_ok b -> s_ok (a ++ b). Proof. intros; apply Forall_app; auto. Qed.
Lemma sr_app a b : s_row a -> s_row b -> s_row (a ++ b). Proof. intros; apply Forall_app; auto. Qed.
Lemma s_at o r : s_row r -> s_ok (at_ o r). Proof. intros E. apply Forall_map. exact E. Qed.
Lemma s_emit rows : forall o, Forall s_row rows -> s_ok (emit o rows).
Proof. induction rows as [|r rows IH]; intros o E; [constructor|]. inversion E; subst. apply s_app; [apply s_at; assumption|apply IH; assumption]. Qed.
Lemma s_loop o n r : s_row r -> s_ok (loop o n r).
Proof. intros E. apply s_emit. apply Forall_forall. intros x Hx. apply repeat_spec in Hx. subst. exact E. Qed.
Lemma s_oh_seg s : s_row (oh_assign oh_segment s). Proof. destruct s; repeat constructor. Qed.
Lemma s_oh_path s : s_row (oh_assign oh_path s). Proof. destruct s; repeat constructor. Qed.
Lemma s_oh_proof s : s_row (oh_assign oh_proof s). Proof. destruct s; repeat constructor. Qed.
Lemma s_iz k v : s_row (iz_assign_value_and_inverse (izg k) v). Proof. repeat constructor. Qed.
Lemma s_word w h l rh rl r : s_row (word_rlc_assign w (iv h) (iv l) (sp rh) (sp rl) r).
Proof. unfold word_rlc_assign. destruct (u256_hi_lo w). repeat constructor. Qed.
Ltac sr := repeat first [apply sr_app | apply s_oh_seg | apply s_oh_path | apply s_oh_proof | apply s_iz | apply s_word | apply Forall_nil | apply Forall_cons; [exact Logic.I|]].
Lemma s_trie_row i row nx cs : trie_row_cells i row nx = Some cs -> s_row cs.
Proof.
  unfold trie_row_cells. intros E. ob E. apply some_eq in E. subst cs. sr.
  destruct nx as [nr|]; [|apply some_eq in E0; subst; constructor].
  destruct (tr_path nr), (tr_path row); try (apply some_eq in E0; subst; constructor); ob E0; apply some_eq in E0; subst; repeat constructor.
Qed.
Lemma s_trie_cells rows : forall i cs, trie_rows_cells i rows = Some cs -> Forall s_row cs.
Proof.
  induction rows as [|row rows IH]; intros i cs E; cbn [trie_rows_cells] in E; [apply some_eq in E; subst; constructor|].
  ob E. ob E. apply some_eq in E. subst cs. constructor; [eapply s_trie_row; eassumption|eapply IH; eassumption].
Qed.
Lemma s_trie seg o rows ws : assign_trie_rows seg o rows = Some ws -> s_ok ws.
Proof.
  unfold assign_trie_rows. intros E. ob E. apply some_eq in E. subst ws.
  apply s_app; [apply s_emit; eapply s_trie_cells; eassumption|apply s_loop, s_oh_seg].
Qed.
Section One.
  Variable H : Fr -> Fr -> Fr -> Fr.
  Lemma s_empty_storage o k ok ol nl ws : assign_empty_storage_proof H o k ok ol nl = Some ws -> s_ok ws.
  Proof.
    unfold assign_empty_storage_proof. intros E. destruct ol, nl; try discriminate E; try (apply some_eq in E; subst; constructor);
    repeat (ob E); apply some_eq in E; subst ws; apply s_at; sr.
  Qed.
  Lemma s_nonexistence pt k ol nl oh nh l : storage_leaf_nonexistence H pt k ol nl oh nh = Some l -> s_row l.
  Proof.
    unfold storage_leaf_nonexistence. intros E. destruct pt; try discriminate E; try (apply some_eq in E; subst; constructor);
    ob E; apply some_eq in E; subst l; sr;
    match goal with Q : (if ?b then _ else _) = Some _ |- _ => destruct b; [ob Q; apply some_eq in Q; subst; sr|apply some_eq in Q; subst; constructor] end.
  Qed.
  Lemma s_storage_leaf o k ok ol nl r p : assign_storage_leaf_row H o k ok ol nl r = Some p -> s_ok (fst p).
  Proof.
    unfold assign_storage_leaf_row. intros E. destruct (storage_leaf_path ol nl) as [pt|].
    - ob E. destruct a as [oh nh]. ob E. apply some_eq in E. subst p. cbn [fst]. apply s_at. sr.
      + unfold word_of. destruct ol; sr.
      + unfold word_of. destruct nl; sr.
      + eapply s_nonexistence; eassumption.
    - ob E. apply some_eq in E. subst p. eapply s_empty_storage; eassumption.
  Qed.
  Lemma s_storage o s r ws : assign_storage H o s r = Some ws -> s_ok ws.
  Proof.
    intros E. destruct s as [x|sk key rows ol nl]; cbn [assign_storage] in E; [apply some_eq in E; subst; constructor|].
    ob E. ob E. ob E. destruct a1 as [lw n]. apply some_eq in E. subst ws.
    apply s_app; [eapply s_trie; eassumption|]. apply s_app; [eapply (s_storage_leaf _ _ _ _ _ _ (lw, n)); eassumption|].
    apply s_loop. sr.
  Qed.
  Lemma s_leaf_row p pt k ok da r s sib oh nh d i cs : leaf_row_cells H p pt k ok da r s sib oh nh d i = Some cs -> s_row cs.
  Proof.
    unfold leaf_row_cells. intros E. ob E. apply some_eq in E. subst cs. sr.
    - destruct i; sr.
    - destruct s; try (apply some_eq in E0; subst; exact (Forall_nil _)); [apply some_eq in E0; subst; sr|].
      destruct (c_kind (pf_claim p)) as [| | | | | |[k0|]]; try (apply some_eq in E0; subst; constructor); ob E0; ob E0; apply some_eq in E0; subst; sr.
  Qed.
  Lemma s_leaf o p f fo fn k ok da r ws : assign_account_leaf H o p f fo fn k ok da r = Some ws -> s_ok ws.
  Proof.
    unfold assign_account_leaf. intros E. ob E. ob E. ob E. ob E. ob E. apply some_eq in E. subst ws.
    apply s_app; [apply s_emit; revert E3; apply omap_from_forall; intros i [[[[s x] y] z] d] cs Q; eapply s_leaf_row; exact Q|].
    apply s_app; [apply s_at; sr|]. apply s_app; [apply s_at|eapply s_storage; eassumption].
    unfold code_hash_cells. destruct (c_kind (pf_claim p)); sr; destruct old, new; sr.
  Qed.
  Lemma s_single p r o ws : assign_single_proof H p r o = Some ws -> s_ok ws.
  Proof.
    unfold assign_single_proof. intros E. ob E. destruct a as [ok da]. ob E. ob E. destruct (final_hashes H p) as [fo fn]. ob E. apply some_eq in E. subst ws.
    apply s_app; [apply s_loop; unfold claim_cells; sr|]. apply s_app; [apply s_at; unfold start_cells; sr|].
    apply s_app; [eapply s_trie; eassumption|]. apply s_app; [apply s_loop; sr|].
    destruct (_ && _); [apply some_eq in E3; subst; apply s_at; sr|eapply s_leaf; eassumption].
  Qed.
  Lemma s_proofs ps r : forall o ws, assign_proofs H ps r o = Some ws -> s_ok ws.
  Proof.
    induction ps as [|p ps IH]; intros o ws E; cbn [assign_proofs] in E; [apply some_eq in E; subst; constructor|].
    ob E. ob E. apply some_eq in E. subst ws. apply s_app; [eapply s_single; eassumption|eapply IH; eassumption].
  Qed.
  (* what the parallel mode writes, with or without padding *)
  Lemma par_updates ps r n ws : updates H true ps r n = Some ws -> exists w pad, assign_proofs H ps r 1 = Some w /\ ws = w ++ pad /\ s_ok pad.
  Proof.
    assert (P : s_row (padding_row H)) by (unfold padding_row; sr). unfold updates. intros E.
    ob E. unfold assign_par in E0. ob E0. apply some_eq in E0. subst a. destruct (update_regions_seq H _ _ _ _ 1 E1) as (w & E2).
    destruct (update_regions_place H _ _ true 1 _ E2) as (rs & E3 & P1). rewrite E1 in E3. apply some_eq in E3. subst rs. change (1 - 1) with 0 in P1. rewrite P1 in E.
    exists w. destruct (_ =? 0); [|ob E]; apply some_eq in E; subst ws; (eexists; split; [exact E2|]; split; [reflexivity|apply s_loop, P]).
  Qed.

  (** * The rows of an update after its first have a segment type *)
  Definition inner (ws : list write) (i : Z) : Prop := exists v, v <> SegStart /\ In (A (MU_seg v), i, f1) ws.
  Lemma inner_l a b i : inner a i -> inner (a ++ b) i. Proof. intros (v & V & I). exists v. split; [exact V|apply in_or_app; auto]. Qed.
  Lemma inner_r a b i : inner b i -> inner (a ++ b) i. Proof. intros (v & V & I). exists v. split; [exact V|apply in_or_app; auto]. Qed.
  Lemma in_at o row c v : In (c, v) row -> In (c, o, v) (at_ o row).
  Proof. intros I. unfold at_. apply in_map_iff. exists (c, v). auto. Qed.
  Lemma in_emit rows : forall o k row c v, nth_error rows k = Some row -> In (c, v) row -> In (c, o + Z.of_nat k, v) (emit o rows).
  Proof.
    induction rows as [|r rows IH]; intros o k row c v N I; [destruct k; discriminate N|]. cbn [emit]. apply in_or_app. destruct k as [|k]; cbn [nth_error] in N.
    - apply some_eq in N. subst r. left. rewrite Z.add_0_r. exact (in_at o row c v I).
    - right. replace (o + Z.of_nat (S k)) with (o + 1 + Z.of_nat k) by lia. exact (IH _ _ _ _ _ N I).
  Qed.
  Lemma in_loop o n row c v i : In (c, v) row -> o <= i < o + Z.of_nat n -> In (c, i, v) (loop o n row).
  Proof.
    intros I Hi. unfold loop. replace i with (o + Z.of_nat (Z.to_nat (i - o))) by lia. apply (in_emit _ o _ row); [|exact I].
    apply nth_error_repeat. lia.
  Qed.
  Lemma in_seg s : s <> SegStart -> In (A (MU_seg s), f1) (oh_assign oh_segment s).
  Proof. destruct s; intros N; try (left; reflexivity). congruence. Qed.
  Lemma inner_trie seg o rows ws i : seg <> SegStart -> assign_trie_rows seg o rows = Some ws -> o <= i < o + Z.of_nat (length rows) -> inner ws i.
  Proof.
    intros N E Hi. unfold assign_trie_rows in E. ob E. apply some_eq in E. subst ws. apply inner_r. exists seg. split; [exact N|]. apply in_loop; [apply in_seg, N|exact Hi].
  Qed.
  Lemma inner_storage o s r ws i : assign_storage H o s r = Some ws -> o <= i < o + Z.of_nat (sp_n_rows s) -> inner ws i.
  Proof.
    intros E Hi. destruct s as [x|sk key rows ol nl]; cbn [sp_n_rows] in Hi; [lia|]. cbn [assign_storage] in E.
    ob E. ob E. ob E. destruct a1 as [lw k]. apply some_eq in E. subst ws.
    destruct (Z_lt_dec i (o + Z.of_nat (length rows))) as [L|L]; [apply inner_l; apply (inner_trie StorageTrie o rows); [discriminate|assumption|lia]|].
    apply inner_r, inner_l. unfold assign_storage_leaf_row in E2. destruct (storage_leaf_path ol nl) as [pt|] eqn:Q.
    - ob E2. destruct a1 as [oh nh]. ob E2. apply some_eq in E2. apply (f_equal fst) in E2. cbn [fst] in E2. subst lw.
      assert (i = o + Z.of_nat (length rows)) as -> by (destruct ol, nl; cbn [sl_n_rows Nat.max] in Hi; lia).
      exists StorageLeaf0. split; [discriminate|]. apply in_at. apply in_or_app; right. apply in_or_app; left. apply in_seg. discriminate.
    - exfalso. destruct ol, nl; try discriminate Q; cbn [sl_n_rows Nat.max] in Hi; lia.
  Qed.
  Lemma leaf_cells_nth p pt key ok da r l out : omap_from (fun i x => let '(s, sib, o, n, d) := x in leaf_row_cells H p pt key ok da r s sib o n d i) 0 l = Some out ->
    forall k s sib ho hn d, nth_error l k = Some (s, sib, ho, hn, d) -> s <> SegStart -> exists c, nth_error out k = Some c /\ In (A (MU_seg s), f1) c.
  Proof.
    generalize 0%nat. revert out. induction l as [|x l IH]; intros out j E k s sib ho hn d N S; [destruct k; discriminate N|]. cbn [omap_from] in E. ob E. ob E. apply some_eq in E. subst out.
    destruct k as [|k]; cbn [nth_error] in *.
    - apply some_eq in N. subst x. exists a. split; [reflexivity|]. unfold leaf_row_cells in E0. ob E0. apply some_eq in E0. subst a.
      apply in_or_app; right. apply in_or_app; left. apply in_seg, S.
    - exact (IH _ _ E1 k s sib ho hn d N S).
  Qed.
  Lemma inner_leaf o p f fo fn k ok da r ws m i : assign_account_leaf H o p f fo fn k ok da r = Some ws ->
    leaf_directions (proof_type_of (c_kind (pf_claim p))) = Some m -> o <= i < o + Z.of_nat (length m + sp_n_rows (pf_storage p)) -> inner ws i.
  Proof.
    unfold assign_account_leaf. intros E M Hi. ob E. ob E. rewrite M in E1. apply some_eq in E1. subst a0. ob E. ob E. ob E. apply some_eq in E. subst ws.
    destruct (Z_lt_dec i (o + Z.of_nat (length m))) as [L|L]; [|do 3 apply inner_r; apply (inner_storage _ _ _ _ _ E3); lia].
    apply inner_l. set (j := Z.to_nat (i - o)). assert (J : (j < length m)%nat) by lia.
    assert (X : exists s sib ho hn d, nth_error (izip5 SEGMENT_TYPES a0 (or_else (old_account_leaf_hashes p) (repeat fo 4)) (or_else (new_account_leaf_hashes p) (repeat fn 4)) m) j = Some (s, sib, ho, hn, d) /\ s <> SegStart).
    { assert (La : (length m <= length a0)%nat).
      { clear - E1 M. unfold account_leaf_siblings in E1. destruct (c_kind (pf_claim p)) as [| | | | | |[kk|]]; cbn in M; try discriminate M; apply some_eq in M; subst m; repeat (ob E1); apply some_eq in E1; subst a0; cbn; lia. }
      assert (Lo : (length m <= length (or_else (old_account_leaf_hashes p) (repeat fo 4)))%nat).
      { clear - M. unfold old_account_leaf_hashes. destruct (c_kind (pf_claim p)) as [[?|]|[?|]|[?|]|[?|]|[?|]| |[kk|]]; cbn in M; try discriminate M; apply some_eq in M; subst m; cbn [option_map or_else]; try destruct (pf_old_account p); cbn; lia. }
      assert (Ln : (length m <= length (or_else (new_account_leaf_hashes p) (repeat fn 4)))%nat).
      { clear - M. unfold new_account_leaf_hashes. destruct (c_kind (pf_claim p)) as [? [?|]|? [?|]|? [?|]|? [?|]|? [?|]| |[kk|]]; cbn in M; try discriminate M; apply some_eq in M; subst m; cbn; lia. }
      assert (Lm : (length m <= 4)%nat) by (clear - M; destruct (proof_type_of (c_kind (pf_claim p))); cbn in M; try discriminate M; apply some_eq in M; subst m; cbn; lia).
      set (lo := or_else (old_account_leaf_hashes p) (repeat fo 4)) in *. set (ln := or_else (new_account_leaf_hashes p) (repeat fn 4)) in *. unfold izip5.
      destruct (nth_error (combine (combine (combine (combine SEGMENT_TYPES a0) lo) ln) m) j) as [[[[[s sib] ho] hn] d]|] eqn:Q.
      - exists s, sib, ho, hn, d. split; [reflexivity|]. apply nth_error_In in Q. repeat apply in_combine_l in Q. destruct Q as [<-|[<-|[<-|[<-|[]]]]]; discriminate.
      - exfalso. apply nth_error_None in Q. rewrite !combine_length in Q. cbn [SEGMENT_TYPES length] in Q. lia. }
    destruct X as (s & sib & ho & hn & d & X & S). destruct (leaf_cells_nth _ _ _ _ _ _ _ _ E2 j s sib ho hn d X S) as (c & C1 & C2).
    exists s. split; [exact S|]. replace i with (o + Z.of_nat j) by lia. exact (in_emit _ o j c _ _ C1 C2).
  Qed.
  Lemma inner_single p r o ws i : even_proof p -> assign_single_proof H p r o = Some ws -> o < i < o + Z.of_nat (proof_n_rows p) -> inner ws i.
  Proof.
    intros L E Hi. unfold even_proof in L. unfold assign_single_proof in E. ob E. destruct a as [ok da]. ob E. ob E. destruct (final_hashes H p) as [fo fn]. ob E. apply some_eq in E. subst ws.
    set (n := length (pf_account_trie_rows p)) in *.
    destruct (Z_lt_dec i (o + 1 + Z.of_nat n)) as [Q|Q]; [apply inner_r, inner_r, inner_l; apply (inner_trie AccountTrie (o + 1) (pf_account_trie_rows p)); [discriminate|assumption|fold n; lia]|].
    do 4 apply inner_r. assert (NA : is_none (pf_old_account p) && is_none (pf_new_account p) = false).
    { destruct (is_none (pf_old_account p) && is_none (pf_new_account p)) eqn:Z; [|reflexivity]. exfalso. unfold proof_n_rows in Hi. rewrite Z, <- L in Hi. lia. }
    pose proof NA as NA'. rewrite NA in E3. assert (M : exists m, leaf_directions (proof_type_of (c_kind (pf_claim p))) = Some m).
    { unfold assign_account_leaf in E3. ob E3. ob E3. eauto. }
    destruct M as (m & M). apply (inner_leaf _ _ _ _ _ _ _ _ _ _ m i E3 M).
    assert (NR : proof_n_rows p = (1 + n + length m + sp_n_rows (pf_storage p))%nat).
    { unfold proof_n_rows. rewrite NA', <- L. clear - M. destruct (c_kind (pf_claim p)) as [| | | | | |[kk|]]; cbn in M; try discriminate M; apply some_eq in M; subst m; reflexivity. }
    rewrite NR in Hi. lia.
  Qed.
  Lemma inner_last ps p r : forall o ws, even_proof p -> (2 <= proof_n_rows p)%nat -> assign_proofs H (ps ++ [p]) r o = Some ws -> inner ws (o + Z.of_nat (total_rows (ps ++ [p])) - 1).
  Proof.
    induction ps as [|q ps IH]; intros o ws L R E; cbn [app assign_proofs] in E; ob E; ob E; apply some_eq in E; subst ws; unfold total_rows; cbn [app fold_right].
    - apply inner_l. apply (inner_single p r o); [exact L|assumption|]. lia.
    - apply inner_r. specialize (IH _ _ L R E1). fold (total_rows (ps ++ [p])). replace (o + Z.of_nat (proof_n_rows q + total_rows (ps ++ [p])) - 1) with (o + Z.of_nat (proof_n_rows q) + Z.of_nat (total_rows (ps ++ [p])) - 1) by lia. exact IH.
  Qed.
  Lemma inner_cell ws v i : s_ok ws -> In (A (MU_seg v), i, f1) ws -> cell ws (A (MU_seg v)) i = f1.
  Proof.
    intros S I. unfold cell. enough (E : wfind ws (A (MU_seg v)) i = Some f1) by (rewrite E; reflexivity).
    induction S as [|[[c j] x] ws Hx S IH]; [destruct I|]. cbn [wfind]. destruct I as [I|I].
    - injection I as -> -> ->. destruct (wfind ws (A (MU_seg v)) i) as [y|] eqn:Q.
      + clear - S Q. induction S as [|[[c j] x] ws Hx S IH]; [discriminate Q|]. cbn [wfind] in Q. destruct (wfind ws _ i); [exact (IH Q)|].
        destruct (col_eq_dec (A (MU_seg v)) c) as [<-|]; [|discriminate Q]. destruct (i =? j); [|discriminate Q]. cbn [seg1 fst snd] in Hx. congruence.
      + destruct (col_eq_dec _ _); [|congruence]. rewrite Z.eqb_refl. reflexivity.
    - rewrite (IH I). reflexivity.
  Qed.
  Theorem no_padding threads ps p n r ws e : (0 < threads)%nat -> (exists t tr, proof_from H t tr = Some p) -> (2 <= proof_n_rows p)%nat ->
    1 + Z.of_nat (total_rows (ps ++ [p])) = n -> mpt_assign H true threads (ps ++ [p]) n r = Some ws -> filled e r ws -> room e n -> 2049 <= n ->
    ~ sat e (circuit_of (circuit H)).
  Proof.
    intros T (t & tr & PF) R N E FL (R1 & R2 & R3 & R4) Hn SAT. destruct (assign_inv H true threads _ n r ws (fun _ => T) E) as (reprs & lookups & upd & cr & kb & br & P).
    assert (F : fixed_ok e n) by (apply (filled_fixed P e FL); lia).
    destruct (last_start0 H e n F SAT) as [Sg _]. destruct (par_updates _ _ _ _ (as_upd _ _ _ _ _ _ _ _ _ _ _ _ P)) as (w & pad & Ew & -> & Sp).
    destruct (inner_last _ _ _ _ _ (from_lengths _ _ _ _ PF) R Ew) as (v & V & I). replace (1 + Z.of_nat (total_rows (ps ++ [p])) - 1) with (n - 1) in I by lia.
    assert (C : eadv e (MU_seg v) (n - 1) = f1).
    { rewrite (filled_mu P e FL) by (try reflexivity; lia). apply inner_cell; [apply s_app; [eapply s_proofs; exact Ew|exact Sp]|apply in_or_app; left; exact I]. }
    unfold sg, oh_dec in Sg. destruct (find _ _) as [x|] eqn:Q.
    - apply find_some in Q. destruct Q as [Q _]. subst x. cbn in Q. intuition discriminate.
    - assert (I2 : In v (oh_nonfirst oh_segment)) by (destruct v; cbn; tauto).
      pose proof (find_none _ _ Q v I2) as X. unfold oh_set in X. change (oh_col oh_segment v) with (MU_seg v) in X. rewrite C in X. vm_compute in X. discriminate X.
  Qed.
End One.

(** * A last update of one row *)
From Verif Require Import ClaimSpec HonestMain RowView BlockView RowsOk RowCells BlockRows TableSpec HonestSpec UtilProofs ClaimTable LookupMain.
Section OneRow.
  Variable H : Fr -> Fr -> Fr -> Fr.
  Lemma last_block ps p r : forall o w, Forall even_proof ps -> assign_proofs H (ps ++ [p]) r o = Some w ->
    exists w', assign_single_proof H p r (o + Z.of_nat (total_rows ps)) = Some w' /\ forall j, o + Z.of_nat (total_rows ps) <= j -> row_at w j = row_at w' j.
  Proof.
    induction ps as [|q ps IH]; intros o w Ev E; cbn [app assign_proofs] in E; ob E; ob E; apply some_eq in E; subst w; unfold total_rows; cbn [fold_right].
    - rewrite Z.add_0_r. apply some_eq in E1. subst a0. exists a. split; [exact E0|]. intros j _. rewrite app_nil_r. reflexivity.
    - fold (total_rows ps). inversion Ev as [|? ? L1 L2]; subst. destruct (IH _ _ L2 E1) as (w' & W1 & W2). exists w'. replace (o + Z.of_nat (proof_n_rows q + total_rows ps)) with (o + Z.of_nat (proof_n_rows q) + Z.of_nat (total_rows ps)) by lia.
      split; [exact W1|]. intros j Hj. destruct (single_rows H q r o a L1 E0) as [W _]. rewrite row_at_app, (within_row _ _ _ _ W) by lia. apply W2, Hj.
  Qed.
  Lemma par_rows ps r n upd : total_rows ps <> 0%nat -> updates H true ps r n = Some upd ->
    exists w, assign_proofs H ps r 1 = Some w /\ forall i, i < 1 + Z.of_nat (total_rows ps) -> row_at upd i = row_at w i.
  Proof.
    unfold updates. intros N E. ob E. unfold assign_par in E0. ob E0. apply some_eq in E0. subst a. destruct (update_regions_seq H _ _ _ _ 1 E1) as (w & E2).
    destruct (update_regions_place H _ _ true 1 _ E2) as (rs & E3 & P1). rewrite E1 in E3. apply some_eq in E3. subst rs. change (1 - 1) with 0 in P1. rewrite P1 in E.
    exists w. split; [exact E2|]. intros i Hi. destruct (Z.eqb_spec (Z.of_nat (total_rows ps)) 0) as [Q|_]; [lia|]. ob E. apply some_eq in E. subst upd.
    rewrite row_at_app, row_at_loop_out by lia. apply app_nil_r.
  Qed.
  Theorem one_row threads ps p n r ws e : (0 < threads)%nat -> Forall (fun p => exists t tr, proof_from H t tr = Some p) (ps ++ [p]) -> address_ok (c_address (pf_claim p)) -> proof_n_rows p = 1%nat ->
    1 + Z.of_nat (total_rows (ps ++ [p])) = n -> mpt_assign H true threads (ps ++ [p]) n r = Some ws -> filled e r ws -> room e n -> 2049 <= n ->
    encode (echal e) (claim_row (echal e) (pf_claim p)) <> final_row -> ~ sat e (circuit_of (circuit H)).
  Proof.
    intros T Fp Ad R N E FL (R1 & R2 & R3 & R4) Hn NE SAT. apply NE. clear NE. destruct (assign_inv H true threads _ n r ws (fun _ => T) E) as (reprs & lookups & upd & cr & kb & br & P).
    assert (F : fixed_ok e n) by (apply (filled_fixed P e FL); lia).
    assert (Ev : Forall even_proof (ps ++ [p])) by (eapply Forall_impl; [|exact Fp]; intros q (t & tr & X); exact (from_lengths H _ _ q X)).
    apply Forall_app in Ev. destruct Ev as [Ev Ep]. apply Forall_inv in Ep.
    assert (Tr : total_rows (ps ++ [p]) = (total_rows ps + 1)%nat).
    { clear - R. induction ps as [|q l IH]; unfold total_rows in *; cbn [app fold_right]; [rewrite R; reflexivity|rewrite IH; apply Nat.add_assoc]. }
    destruct (par_rows _ _ _ _ ltac:(rewrite Tr, Nat.add_1_r; discriminate) (as_upd _ _ _ _ _ _ _ _ _ _ _ _ P)) as (w & Ew & RW).
    destruct (last_block _ _ _ _ _ Ev Ew) as (w' & E' & RW'). replace (1 + Z.of_nat (total_rows ps)) with (n - 1) in * by lia.
    destruct (block_view H p r (n - 1) w' Ep E') as (other & data & final & B).
    assert (HR : holds_rows e w' (n - 1) (n - 1 + Z.of_nat (proof_n_rows p))).
    { intros c j Hc Hj. rewrite R in Hj. rewrite (filled_mu P e FL c j Hc) by lia. rewrite cell_row, RW, RW' by lia. reflexivity. }
    destruct (last_start0 H e n F SAT) as [_ Ex]. destruct (start_reads B HR) as [(m & V) Rd]. rewrite claim_row_as.
    rewrite (start_exposed e (n - 1) (proof_type_of (c_kind (pf_claim p)))) in Ex; [|lia|apply V|apply V|rewrite (rd_sg _ _ _ Rd); reflexivity|rewrite (rd_pt _ _ _ Rd); reflexivity].
    rewrite (rd_i0 _ _ _ Rd), (rd_i1 _ _ _ Rd), (rd_skr _ _ _ Rd), (rd_s0 _ _ _ Rd), (rd_s1 _ _ _ Rd), (rd_nv _ _ _ Rd), (rd_ov _ _ _ Rd) in Ex. unfold start_f in Ex. cbn [f_i0 f_i1 f_skr f_s0 f_s1 f_nv f_ov] in Ex.
    unfold final_row. change (fz (kind_number AccountDoesNotExist)) with (fz 5). rewrite <- Ex.
    rewrite (fl_chal _ _ _ FL). unfold encode, claim_statement. cbn [st_address st_slot_rlc st_kind st_new_root st_old_root st_new_value st_old_value].
    destruct (address_val _ Ad) as (-> & Hh & _). rewrite fz_add, fz_mul. reflexivity.
  Qed.
End OneRow.
