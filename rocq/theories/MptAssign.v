(* Facts about the whole assignment (mpt.rs:114-285): where rows are placed, both modes, fixed columns. *)
From Coq Require Import ZArith List Bool Lia.
From Verif Require Import Pocklington Fr Query Builder BuilderProofs Gadgets MptUpdate Bytes Fixed Util UtilProofs Serde Trie Storage Types Lookups LookupProofs
  Assign AssignProofs AssignOk AssignRegion GadgetMain GadgetMain2 LookupMain UpdateAssign.
Import ListNotations.
Open Scope Z_scope.

(** * Rows may be placed anywhere *)
Definition shift (d : Z) (ws : list write) : list write := map (fun w => (fst (fst w), snd (fst w) + d, snd w)) ws.
Lemma shift_app d a b : shift d (a ++ b) = shift d a ++ shift d b. Proof. apply map_app. Qed.
Lemma shift_at d o r : at_ (o + d) r = shift d (at_ o r).
Proof. unfold at_, shift. rewrite map_map. reflexivity. Qed.
Lemma shift_emit d rows : forall o, emit (o + d) rows = shift d (emit o rows).
Proof.
  induction rows as [|r rows IH]; intros o; [reflexivity|]. cbn [emit]. rewrite shift_app. f_equal; [apply shift_at|].
  replace (o + d + 1) with (o + 1 + d) by lia. apply IH.
Qed.
Lemma shift_loop d o n r : loop (o + d) n r = shift d (loop o n r). Proof. apply shift_emit. Qed.
Lemma shift_trie d seg o rows : assign_trie_rows seg (o + d) rows = option_map (shift d) (assign_trie_rows seg o rows).
Proof.
  unfold assign_trie_rows. destruct (trie_rows_cells 0 rows); [|reflexivity]. cbn [obind option_map].
  rewrite shift_app, shift_emit, shift_loop. reflexivity.
Qed.
Section Shift.
  Variable H : Fr -> Fr -> Fr -> Fr.
  Lemma shift_empty_storage d o k ok ol nl : assign_empty_storage_proof H (o + d) k ok ol nl = option_map (shift d) (assign_empty_storage_proof H o k ok ol nl).
  Proof.
    unfold assign_empty_storage_proof. destruct ol, nl; try reflexivity;
    repeat (match goal with |- context [obind ?x _] => destruct x; [|reflexivity] end; cbn [obind]); cbn [option_map]; rewrite shift_at; reflexivity.
  Qed.
  Lemma shift_storage_leaf d o k ok ol nl r : assign_storage_leaf_row H (o + d) k ok ol nl r = option_map (fun p => (shift d (fst p), snd p)) (assign_storage_leaf_row H o k ok ol nl r).
  Proof.
    unfold assign_storage_leaf_row. destruct (storage_leaf_path ol nl) as [pt|].
    - destruct (storage_leaf_hashes H pt ol nl) as [[oh nh]|]; [|reflexivity]. cbn [obind].
      destruct (storage_leaf_nonexistence H pt k ol nl oh nh); [|reflexivity]. cbn [obind option_map fst snd]. rewrite shift_at. reflexivity.
    - replace (o + d - 1) with (o - 1 + d) by lia. rewrite shift_empty_storage.
      destruct (assign_empty_storage_proof H (o - 1) k ok ol nl); reflexivity.
  Qed.
  Lemma shift_storage d o s r : assign_storage H (o + d) s r = option_map (shift d) (assign_storage H o s r).
  Proof.
    destruct s as [x|sk key rows ol nl]; [reflexivity|]. cbn [assign_storage].
    destruct (sp_other_key H (SUpdate sk key rows ol nl)) as [ok|]; [|reflexivity]. cbn [obind]. rewrite shift_trie.
    destruct (assign_trie_rows StorageTrie o rows) as [t|]; [|reflexivity]. cbn [obind option_map].
    replace (o + d + Z.of_nat (length rows)) with (o + Z.of_nat (length rows) + d) by lia. rewrite shift_storage_leaf.
    destruct (assign_storage_leaf_row H _ key ok ol nl r) as [[w n]|]; [|reflexivity]. cbn [obind option_map fst snd].
    rewrite !shift_app, shift_loop. reflexivity.
  Qed.
  Lemma shift_leaf d o p f fo fn k ok da r : assign_account_leaf H (o + d) p f fo fn k ok da r = option_map (shift d) (assign_account_leaf H o p f fo fn k ok da r).
  Proof.
    unfold assign_account_leaf. destruct (leaf_path_type f fo fn) as [pt|]; [|reflexivity]. cbn [obind].
    destruct (leaf_directions _) as [ds|]; [|reflexivity]. cbn [obind]. destruct (account_leaf_siblings H p) as [sb|]; [|reflexivity]. cbn [obind].
    destruct (omap_from _ 0 _) as [cs|]; [|reflexivity]. cbn [obind].
    replace (o + d + Z.of_nat (length ds)) with (o + Z.of_nat (length ds) + d) by lia. rewrite shift_storage.
    destruct (assign_storage H _ (pf_storage p) r) as [st|]; [|reflexivity]. cbn [obind option_map].
    replace (o + d + 3) with (o + 3 + d) by lia. rewrite !shift_app, shift_emit, !shift_at. reflexivity.
  Qed.
  Theorem shift_single d o p r : assign_single_proof H p r (o + d) = option_map (shift d) (assign_single_proof H p r o).
  Proof.
    unfold assign_single_proof. destruct (other_key_and_data _ _ _) as [[ok da]|]; [|reflexivity]. cbn [obind].
    replace (o + d + 1) with (o + 1 + d) by lia. rewrite shift_trie.
    destruct (assign_trie_rows AccountTrie (o + 1) (pf_account_trie_rows p)) as [t|]; [|reflexivity]. cbn [obind option_map].
    destruct (final_path_type p) as [f|]; [|reflexivity]. cbn [obind]. destruct (final_hashes H p) as [fo fn].
    set (n := length (pf_account_trie_rows p)). replace (o + 1 + d + Z.of_nat n) with (o + 1 + Z.of_nat n + d) by lia.
    destruct (is_none (pf_old_account p) && is_none (pf_new_account p)).
    - cbn [obind option_map]. replace (o + 1 + Z.of_nat n + d - 1) with (o + 1 + Z.of_nat n - 1 + d) by lia.
      rewrite !shift_app, !shift_loop, !shift_at. reflexivity.
    - rewrite shift_leaf. destruct (assign_account_leaf _ _ _ _ _ _ _ _ _ _) as [w|]; [|reflexivity]. cbn [obind option_map].
      rewrite !shift_app, !shift_loop, !shift_at. reflexivity.
  Qed.
  Lemma single_some_at p r o o' : assign_single_proof H p r o <> None -> assign_single_proof H p r o' <> None.
  Proof.
    intros N. replace o' with (o + (o' - o)) by lia. rewrite shift_single. destruct (assign_single_proof H p r o); [discriminate|congruence].
  Qed.
  Lemma update_regions_place proofs r : forall first off ws, assign_proofs H proofs r off = Some ws ->
    exists rs, update_regions H first proofs r = Some rs /\ place (off - (if first then 1 else 0)) rs = ws.
  Proof.
    induction proofs as [|p proofs IH]; intros first off ws E; cbn [assign_proofs] in E.
    { apply some_eq in E. subst ws. exists []. split; reflexivity. }
    ob E. ob E. apply some_eq in E. subst ws. cbn [update_regions].
    destruct (IH false _ _ E1) as (rs & E2 & P). rewrite E2. cbn [obind].
    assert (N : assign_single_proof H p r (if first then 1 else 0) <> None) by (apply (single_some_at p r off); congruence).
    destruct (assign_single_proof H p r (if first then 1 else 0)) as [w|]; [|congruence]. cbn [obind].
    eexists. split; [reflexivity|]. cbn [place]. f_equal.
    - replace (off - (if first then 1 else 0) + (if first then 1 else 0)) with off by lia. rewrite E0. reflexivity.
    - rewrite <- P. f_equal. destruct first; lia.
  Qed.
  Lemma update_regions_seq proofs r : forall first rs off, update_regions H first proofs r = Some rs -> exists ws, assign_proofs H proofs r off = Some ws.
  Proof.
    induction proofs as [|p proofs IH]; intros first rs off E; [exists []; reflexivity|]. cbn [update_regions] in E. ob E. ob E.
    cbn [assign_proofs]. assert (N : assign_single_proof H p r off <> None) by (apply (single_some_at p r (if first then 1 else 0)); congruence).
    destruct (assign_single_proof H p r off) as [w|]; [|congruence]. destruct (IH _ _ (off + Z.of_nat (proof_n_rows p)) E0) as (ws & E2). rewrite E2.
    cbn [obind]. eexists. reflexivity.
  Qed.
  Lemma proof_rows_pos p : (1 <= proof_n_rows p)%nat. Proof. unfold proof_n_rows. destruct (_ && _); lia. Qed.
  Lemma total_zero proofs : total_rows proofs = 0%nat -> proofs = [].
  Proof. destruct proofs as [|p ps]; [reflexivity|]. cbn. pose proof (proof_rows_pos p). lia. Qed.
  (* the rows of the updates are the same in both modes; the sequential mode insists on one padding row *)
  Theorem updates_modes proofs r n ws :
    updates H false proofs r n = Some ws <-> updates H true proofs r n = Some ws /\ 2 + Z.of_nat (total_rows proofs) <= n.
  Proof.
    unfold updates. set (na := Z.of_nat (total_rows proofs)). split.
    - intros E. ob E. ob E. apply oassert_some in E1. apply some_eq in E. subst ws. apply Z.leb_le in E1.
      destruct (update_regions_place _ _ true 1 _ E0) as (rs & E2 & P). change (1 - 1) with 0 in P. unfold assign_par. rewrite E2. cbn [obind].
      split; [|exact E1]. destruct (Z.eqb_spec na 0) as [Z0|Z0].
      + rewrite Z0, P. reflexivity.
      + unfold oassert. replace (1 + na <=? n) with true by (symmetry; apply Z.leb_le; lia). cbn [obind]. rewrite P. reflexivity.
    - intros [E L]. ob E. unfold assign_par in E0. ob E0. apply some_eq in E0. subst a.
      destruct (update_regions_seq _ _ _ _ 1 E1) as (w & E2). rewrite E2. cbn [obind].
      destruct (update_regions_place _ _ true 1 _ E2) as (rs & E3 & P). rewrite E1 in E3. apply some_eq in E3. subst rs. change (1 - 1) with 0 in P. rewrite P in E.
      unfold oassert. replace (2 + na <=? n) with true by (symmetry; apply Z.leb_le; lia). cbn [obind].
      destruct (Z.eqb_spec na 0) as [Z0|Z0].
      + rewrite Z0. exact E.
      + unfold oassert in E. replace (1 + na <=? n) with true in E by (symmetry; apply Z.leb_le; lia). exact E.
  Qed.
End Shift.

(** * The update columns *)
Definition mu_col (c : col) : bool :=
  match c with
  | A (MU_domain | MU_old_hash | MU_new_hash | MU_old_value | MU_new_value | MU_storage_key_rlc | MU_depth | MU_key | MU_other_key
      | MU_direction | MU_sibling | MU_iv _ | MU_sp _ | MU_zero_value _ | MU_zero_inv _ | MU_proof _ | MU_seg _ | MU_path _) => true
  | _ => false
  end.
Definition mu_row (r : row) : Prop := Forall (fun p => mu_col (fst p) = true) r.
Definition mu_only (ws : list write) : Prop := Forall (fun w => mu_col (fst (fst w)) = true) ws.
Lemma mu_app a b : mu_only a -> mu_only b -> mu_only (a ++ b). Proof. intros; apply Forall_app; auto. Qed.
Lemma mur_app a b : mu_row a -> mu_row b -> mu_row (a ++ b). Proof. intros; apply Forall_app; auto. Qed.
Lemma mu_at o r : mu_row r -> mu_only (at_ o r). Proof. intros E. apply Forall_map. exact E. Qed.
Lemma mu_emit rows : forall o, Forall mu_row rows -> mu_only (emit o rows).
Proof. induction rows as [|r rows IH]; intros o E; [constructor|]. inversion E; subst. apply mu_app; [apply mu_at; assumption|apply IH; assumption]. Qed.
Lemma mu_loop o n r : mu_row r -> mu_only (loop o n r).
Proof. intros E. apply mu_emit. apply Forall_forall. intros x Hx. apply repeat_spec in Hx. subst. exact E. Qed.
Lemma mu_oh_seg s : mu_row (oh_assign oh_segment s). Proof. destruct s; repeat constructor. Qed.
Lemma mu_oh_path s : mu_row (oh_assign oh_path s). Proof. destruct s; repeat constructor. Qed.
Lemma mu_oh_proof s : mu_row (oh_assign oh_proof s). Proof. destruct s; repeat constructor. Qed.
Lemma mu_iz k v : mu_row (iz_assign_value_and_inverse (izg k) v). Proof. repeat constructor. Qed.
Lemma mu_word w h l rh rl r : mu_row (word_rlc_assign w (iv h) (iv l) (sp rh) (sp rl) r).
Proof. unfold word_rlc_assign. destruct (u256_hi_lo w). repeat constructor. Qed.
Ltac mur := repeat first [apply mur_app | apply mu_oh_seg | apply mu_oh_path | apply mu_oh_proof | apply mu_iz | apply mu_word | apply Forall_nil | apply Forall_cons; [reflexivity|]].
Lemma mu_trie_row i row nx cs : trie_row_cells i row nx = Some cs -> mu_row cs.
Proof.
  unfold trie_row_cells. intros E. ob E. apply some_eq in E. subst cs. mur.
  destruct nx as [nr|]; [|apply some_eq in E0; subst; constructor].
  destruct (tr_path nr), (tr_path row); try (apply some_eq in E0; subst; constructor); ob E0; apply some_eq in E0; subst; repeat constructor.
Qed.
Lemma mu_trie_cells rows : forall i cs, trie_rows_cells i rows = Some cs -> Forall mu_row cs.
Proof.
  induction rows as [|row rows IH]; intros i cs E; cbn [trie_rows_cells] in E; [apply some_eq in E; subst; constructor|].
  ob E. ob E. apply some_eq in E. subst cs. constructor; [eapply mu_trie_row; eassumption|eapply IH; eassumption].
Qed.
Lemma mu_trie seg o rows ws : assign_trie_rows seg o rows = Some ws -> mu_only ws.
Proof.
  unfold assign_trie_rows. intros E. ob E. apply some_eq in E. subst ws.
  apply mu_app; [apply mu_emit; eapply mu_trie_cells; eassumption|apply mu_loop, mu_oh_seg].
Qed.
Section Mu.
  Variable H : Fr -> Fr -> Fr -> Fr.
  Lemma mu_empty_storage o k ok ol nl ws : assign_empty_storage_proof H o k ok ol nl = Some ws -> mu_only ws.
  Proof.
    unfold assign_empty_storage_proof. intros E. destruct ol, nl; try discriminate E; try (apply some_eq in E; subst; constructor);
    repeat (ob E); apply some_eq in E; subst ws; apply mu_at; mur.
  Qed.
  Lemma mu_nonexistence pt k ol nl oh nh l : storage_leaf_nonexistence H pt k ol nl oh nh = Some l -> mu_row l.
  Proof.
    unfold storage_leaf_nonexistence. intros E. destruct pt; try discriminate E; try (apply some_eq in E; subst; constructor);
    ob E; apply some_eq in E; subst l; mur;
    match goal with Q : (if ?b then _ else _) = Some _ |- _ => destruct b; [ob Q; apply some_eq in Q; subst; mur|apply some_eq in Q; subst; constructor] end.
  Qed.
  Lemma mu_storage_leaf o k ok ol nl r p : assign_storage_leaf_row H o k ok ol nl r = Some p -> mu_only (fst p).
  Proof.
    unfold assign_storage_leaf_row. intros E. destruct (storage_leaf_path ol nl) as [pt|].
    - ob E. destruct a as [oh nh]. ob E. apply some_eq in E. subst p. cbn [fst]. apply mu_at. mur.
      + unfold word_of. destruct ol; mur.
      + unfold word_of. destruct nl; mur.
      + eapply mu_nonexistence; eassumption.
    - ob E. apply some_eq in E. subst p. eapply mu_empty_storage; eassumption.
  Qed.
  Lemma mu_storage o s r ws : assign_storage H o s r = Some ws -> mu_only ws.
  Proof.
    intros E. destruct s as [x|sk key rows ol nl]; cbn [assign_storage] in E; [apply some_eq in E; subst; constructor|].
    ob E. ob E. ob E. destruct a1 as [lw n]. apply some_eq in E. subst ws.
    apply mu_app; [eapply mu_trie; eassumption|]. apply mu_app; [eapply (mu_storage_leaf _ _ _ _ _ _ (lw, n)); eassumption|].
    apply mu_loop. mur.
  Qed.
  Lemma mu_leaf_row p pt k ok da r s sib oh nh d i cs : leaf_row_cells H p pt k ok da r s sib oh nh d i = Some cs -> mu_row cs.
  Proof.
    unfold leaf_row_cells. intros E. ob E. apply some_eq in E. subst cs. mur.
    - destruct i; mur.
    - destruct s; try (apply some_eq in E0; subst; exact (Forall_nil _)); [apply some_eq in E0; subst; mur|].
      destruct (c_kind (pf_claim p)) as [| | | | | |[k0|]]; try (apply some_eq in E0; subst; constructor); ob E0; ob E0; apply some_eq in E0; subst; mur.
  Qed.
  Lemma omap_from_forall {X Y} (f : nat -> X -> option Y) (P : Y -> Prop) : (forall i x y, f i x = Some y -> P y) ->
    forall l i out, omap_from f i l = Some out -> Forall P out.
  Proof.
    intros G. induction l as [|x l IH]; intros i out E; cbn [omap_from] in E; [apply some_eq in E; subst; constructor|].
    ob E. ob E. apply some_eq in E. subst out. constructor; [eapply G; eassumption|eapply IH; eassumption].
  Qed.
  Lemma mu_leaf o p f fo fn k ok da r ws : assign_account_leaf H o p f fo fn k ok da r = Some ws -> mu_only ws.
  Proof.
    unfold assign_account_leaf. intros E. ob E. ob E. ob E. ob E. ob E. apply some_eq in E. subst ws.
    apply mu_app; [apply mu_emit; revert E3; apply omap_from_forall; intros i [[[[s x] y] z] d] cs Q; eapply mu_leaf_row; exact Q|].
    apply mu_app; [apply mu_at; mur|]. apply mu_app; [apply mu_at|eapply mu_storage; eassumption].
    unfold code_hash_cells. destruct (c_kind (pf_claim p)); mur; destruct old, new; mur.
  Qed.
  Lemma mu_single p r o ws : assign_single_proof H p r o = Some ws -> mu_only ws.
  Proof.
    unfold assign_single_proof. intros E. ob E. destruct a as [ok da]. ob E. ob E. destruct (final_hashes H p) as [fo fn]. ob E. apply some_eq in E. subst ws.
    apply mu_app; [apply mu_loop; unfold claim_cells; mur|]. apply mu_app; [apply mu_at; unfold start_cells; mur|].
    apply mu_app; [eapply mu_trie; eassumption|]. apply mu_app; [apply mu_loop; mur|].
    destruct (_ && _); [apply some_eq in E3; subst; apply mu_at; mur|eapply mu_leaf; eassumption].
  Qed.
  Lemma mu_proofs ps r : forall o ws, assign_proofs H ps r o = Some ws -> mu_only ws.
  Proof.
    induction ps as [|p ps IH]; intros o ws E; cbn [assign_proofs] in E; [apply some_eq in E; subst; constructor|].
    ob E. ob E. apply some_eq in E. subst ws. apply mu_app; [eapply mu_single; eassumption|eapply IH; eassumption].
  Qed.
  Lemma mu_updates par ps r n ws : updates H par ps r n = Some ws -> mu_only ws.
  Proof.
    assert (P : mu_row (padding_row H)) by (unfold padding_row; mur).
    unfold updates. intros E. destruct par.
    - ob E. unfold assign_par in E0. ob E0. apply some_eq in E0. subst a. destruct (update_regions_seq H _ _ _ _ 1 E1) as (w & E2).
      destruct (update_regions_place H _ _ true 1 _ E2) as (rs & E3 & P1). rewrite E1 in E3. apply some_eq in E3. subst rs. change (1 - 1) with 0 in P1. rewrite P1 in E.
      destruct (_ =? 0); [|ob E]; apply some_eq in E; subst ws; (apply mu_app; [eapply mu_proofs; eassumption|apply mu_loop, P]).
    - ob E. ob E. apply some_eq in E. subst ws. apply mu_app; [eapply mu_proofs; eassumption|apply mu_loop, P].
  Qed.
End Mu.
Lemma mu_none ws c i : mu_only ws -> mu_col c = false -> wfind ws c i = None.
Proof.
  induction 1 as [|[[c' i'] v] ws H1 H2 IH]; intros N; [reflexivity|]. cbn. rewrite IH by exact N.
  destruct (col_eq_dec c c') as [->|]; [cbn in H1; congruence|reflexivity].
Qed.
Definition table_only (ws : list write) : Prop := Forall (fun w => mu_col (fst (fst w)) = false) ws.
Lemma table_none ws c i : table_only ws -> mu_col c = true -> wfind ws c i = None.
Proof.
  induction 1 as [|[[c' i'] v] ws H1 H2 IH]; intros N; [reflexivity|]. cbn. rewrite IH by exact N.
  destruct (col_eq_dec c c') as [->|]; [cbn in H1; congruence|reflexivity].
Qed.
Lemma only_table S ws : forallb (fun c => negb (mu_col c)) S = true -> only S ws -> table_only ws.
Proof.
  intros D O. rewrite forallb_forall in D. eapply Forall_impl; [|exact O]. intros w Hw. specialize (D _ Hw). destruct (mu_col _); [discriminate D|reflexivity].
Qed.

(** * What MptCircuitConfig::assign writes *)
Record assigned (H : Fr -> Fr -> Fr -> Fr) (par : bool) (proofs : list Proof) (n : Z) (r : Fr) (ws : list write)
    (reprs : Reprs) (lookups : list (Fr * Z * bool)) (upd cr kb br : list write) : Prop := {
  as_reprs : byte_representations proofs = Some reprs;
  as_lookups : key_bit_lookups H proofs = Some lookups;
  as_upd : updates H par proofs r n = Some upd;
  as_n : 32 <= n;
  as_fit : Z.of_nat (length (mpt_update_keys H proofs)) < n / 32;
  as_cr : only CR_S cr;
  as_cells : forall c i, cell cr c i = cr_cell r (mpt_update_keys H proofs) n c i;
  as_kb : only KB_S kb;
  as_kbc : kb_cells lookups kb;
  as_kb0 : forall c, In c KB_S -> cell kb c 0 = f0;
  as_kbn : forall c i, In c KB_S -> Z.of_nat (length lookups) < i -> cell kb c i = f0;
  as_br : byte_repr_assign r (re_u32s reprs) (re_u64s reprs) (re_u128s reprs) (re_frs reprs) = Some br;
  as_ws : ws = upd ++ selector_writes n ++ cr ++ kb ++ byte_bit_assign ++ br ++ final_row_write n \/
          ws = upd ++ kb ++ cr ++ selector_writes n ++ byte_bit_assign ++ br ++ final_row_write n }.

Lemma kb_seq_edge ls ws : key_bit_assign ls = Some ws -> forall c i, i <= 0 \/ Z.of_nat (length ls) < i -> cell ws c i = f0.
Proof.
  unfold key_bit_assign. destruct (all_some kb_row ls) as [rows|] eqn:Q; [|discriminate]. intros E. apply some_inj in E. subst ws.
  apply all_some_spec in Q. pose proof (Forall2_len _ _ _ Q) as L. intros c i Hi. rewrite cell_emit.
  replace (in_range 1 i _) with false by (symmetry; apply in_range_false; lia). reflexivity.
Qed.
Lemma kb_par_edge threads ls ws : (0 < threads)%nat -> hd_error ls = Some kb_zero -> key_bit_assign_par threads ls = Some ws ->
  forall c i, In c KB_S -> i = 0 \/ Z.of_nat (length ls) < i -> cell ws c i = f0.
Proof.
  intros Ht Hhd E. unfold key_bit_assign_par in E. destruct (Nat.eqb_spec (chunk_size (length ls) threads) 0) as [|Hk]; [discriminate|].
  destruct (all_some kb_row ls) as [rows|] eqn:Q; [|discriminate]. apply some_inj in E. subst ws.
  apply all_some_spec in Q. pose proof (Forall2_len _ _ _ Q) as L.
  assert (Hl : (0 < length ls)%nat) by (destruct ls; [discriminate Hhd|cbn; lia]).
  rewrite L. rewrite chunks_fit by lia. rewrite <- L.
  assert (P : concat (chunks (chunk_size (length ls) threads) rows) = rows) by (apply chunks_concat; lia).
  set (cs := chunks _ rows) in *. clearbody cs.
  destruct cs as [|c0 cs]; [cbn in P; rewrite <- P in L; cbn in L; lia|].
  cbn [kb_regions place]. rewrite place_kb. cbn [concat] in P.
  intros c i Hc Hi. unfold cell. rewrite wfind_app, !wfind_emit.
  assert (L2 : (length c0 + length (concat cs) = length ls)%nat) by (rewrite L, <- P, app_length; reflexivity).
  replace (in_range (0 + (Z.of_nat (length c0) + 1)) i _) with false by (symmetry; apply in_range_false; lia).
  destruct (in_range 0 i _) eqn:R; [|reflexivity]. apply in_range_true in R. destruct Hi as [->|Hi]; [|lia].
  destruct ls as [|x ls]; [discriminate Hhd|]. cbn [hd_error] in Hhd. apply some_inj in Hhd. subst x.
  destruct rows as [|rw rows']; [inversion Q|]. assert (Q1 : kb_row kb_zero = Some rw) by (inversion Q; assumption). destruct c0 as [|c1 c0]; [cbn in R; lia|]. cbn [app] in P.
  assert (c1 = rw) as -> by congruence.
  destruct kb_zero_row as (rw' & E' & Z0). rewrite E' in Q1. apply some_inj in Q1. subst rw'. specialize (Z0 c Hc). exact Z0.
Qed.
Lemma assign_inv H par threads proofs n r ws : (par = true -> (0 < threads)%nat) -> mpt_assign H par threads proofs n r = Some ws ->
  exists reprs lookups upd cr kb br, assigned H par proofs n r ws reprs lookups upd cr kb br.
Proof.
  intros Ht E. unfold mpt_assign in E. ob E. ob E. ob E. ob E. ob E. ob E. apply some_eq in E. subst ws.
  apply oassert_some in E3. apply oassert_some in E4. apply Z.leb_le in E3. apply Z.leb_le in E4.
  assert (Hn : 32 <= n). { pose proof (Z_div_mod_eq_full n 32). pose proof (Z.mod_pos_bound n 32 ltac:(lia)). lia. }
  assert (K : sort_dedup cmp_fr (mpt_update_keys H proofs) = mpt_update_keys H proofs) by (apply (sort_dedup_twice _ cmp_ok_fr)).
  rewrite K in E4, E5. destruct (key_bits_sorted H _ _ E2) as (_ & _ & Hd).
  destruct par.
  - specialize (Ht eq_refl). unfold keys_regions_par in E5.
    destruct (canonical_assign_par _ _ _ _) as [cr|] eqn:Qc; [|discriminate E5]. destruct (key_bit_assign_par _ _) as [kb|] eqn:Qk; [|discriminate E5].
    destruct (byte_repr_assign _ _ _ _ _) as [br|] eqn:Qb; [|discriminate E5]. apply some_eq in E5. subst a4.
    exists a, a1, a0, cr, kb, br. split; auto.
    + lia.
    + apply (cr_par_only threads r (mpt_update_keys H proofs) n). exact Qc.
    + intros c i. apply (canonical_par_cells threads); try assumption; lia.
    + apply (kb_par_only threads a1). exact Qk.
    + apply (kb_par_cells threads); assumption.
    + intros c Hc. apply (kb_par_edge threads a1); auto.
    + intros c i Hc Hi. apply (kb_par_edge threads a1); auto.
  - unfold keys_region in E5.
    destruct (canonical_assign _ _ _) as [cr|] eqn:Qc; [|discriminate E5]. destruct (key_bit_assign _) as [kb|] eqn:Qk; [|discriminate E5].
    destruct (byte_repr_assign _ _ _ _ _) as [br|] eqn:Qb; [|discriminate E5]. apply some_eq in E5. subst a4.
    exists a, a1, a0, cr, kb, br. split; auto.
    + lia.
    + apply (cr_only r (mpt_update_keys H proofs) n). exact Qc.
    + intros c i. apply canonical_cells; [lia|exact Qc].
    + apply (kb_only a1). exact Qk.
    + apply kb_seq_cells. exact Qk.
    + intros c Hc. apply (kb_seq_edge a1); auto. left. lia.
    + intros c i Hc Hi. apply (kb_seq_edge a1); auto.
Qed.
Section Assigned.
  Context {H par proofs n r ws reprs lookups upd cr kb br} (P : assigned H par proofs n r ws reprs lookups upd cr kb br).
  Lemma as_upd_cell c i : mu_col c = true -> cell ws c i = cell upd c i.
  Proof.
    intros Hc. unfold cell.
    assert (N1 : wfind cr c i = None) by (apply table_none; [apply (only_table CR_S); [reflexivity|apply (as_cr _ _ _ _ _ _ _ _ _ _ _ _ P)]|exact Hc]).
    assert (N2 : wfind kb c i = None) by (apply table_none; [apply (only_table KB_S); [reflexivity|apply (as_kb _ _ _ _ _ _ _ _ _ _ _ _ P)]|exact Hc]).
    assert (N3 : wfind br c i = None).
    { apply table_none; [apply (only_table BR_S); [reflexivity|eapply br_only; apply (as_br _ _ _ _ _ _ _ _ _ _ _ _ P)]|exact Hc]. }
    assert (N4 : wfind byte_bit_assign c i = None) by (apply table_none; [apply (only_table BB_S); [reflexivity|apply bb_only]|exact Hc]).
    assert (N5 : wfind (selector_writes n) c i = None) by (apply table_none; [apply (only_table [Fx SEL]); [reflexivity|apply sel_only]|exact Hc]).
    assert (N6 : wfind (final_row_write n) c i = None) by (apply table_none; [apply (only_table [Fx FINAL]); [reflexivity|fo]|exact Hc]).
    destruct (as_ws _ _ _ _ _ _ _ _ _ _ _ _ P) as [-> | ->]; rewrite !wfind_app, N1, N2, N3, N4, N5, N6; reflexivity.
  Qed.
  Lemma as_table_cell c i : mu_col c = false -> exists tables, (tables = selector_writes n ++ cr ++ kb ++ byte_bit_assign ++ br ++ final_row_write n \/
                   tables = kb ++ cr ++ selector_writes n ++ byte_bit_assign ++ br ++ final_row_write n) /\ cell ws c i = cell tables c i.
  Proof.
    intros Hc. assert (U : wfind upd c i = None) by (apply mu_none; [eapply mu_updates; apply (as_upd _ _ _ _ _ _ _ _ _ _ _ _ P)|exact Hc]).
    assert (G : forall tb, ws = upd ++ tb -> cell ws c i = cell tb c i).
    { intros tb ->. unfold cell. rewrite wfind_app, U. destruct (wfind tb c i); reflexivity. }
    destruct (as_ws _ _ _ _ _ _ _ _ _ _ _ _ P) as [E|E]; apply G in E; eexists; (split; [|exact E]); auto.
  Qed.
  Lemma as_find c i : mu_col c = false ->
    (In c CR_S -> cell ws c i = cr_cell r (mpt_update_keys H proofs) n c i) /\ (In c KB_S -> cell ws c i = cell kb c i) /\
    (In c BR_S -> cell ws c i = cell br c i).
  Proof.
    intros Hc. destruct (as_table_cell c i Hc) as (tb & T & ->).
    destruct (region_find r (re_u32s reprs) (re_u64s reprs) (re_u128s reprs) (re_frs reprs) n cr kb br tb
      (as_cr _ _ _ _ _ _ _ _ _ _ _ _ P) (as_kb _ _ _ _ _ _ _ _ _ _ _ _ P) (as_br _ _ _ _ _ _ _ _ _ _ _ _ P) T c i) as (R1 & R2 & R3 & _).
    split; [|split]; auto. intros Hi. rewrite R1 by exact Hi. apply (as_cells _ _ _ _ _ _ _ _ _ _ _ _ P).
  Qed.
  Lemma as_fixed c i : c <> P_q_enable -> cell ws (Fx c) i = fixed_cell n c i.
  Proof.
    intros Hc. destruct (as_table_cell (Fx c) i eq_refl) as (tb & T & ->).
    apply (region_fixed r (re_u32s reprs) (re_u64s reprs) (re_u128s reprs) (re_frs reprs) (mpt_update_keys H proofs) n
      (as_n _ _ _ _ _ _ _ _ _ _ _ _ P) cr kb br tb
      (as_cr _ _ _ _ _ _ _ _ _ _ _ _ P) (as_cells _ _ _ _ _ _ _ _ _ _ _ _ P) (as_kb _ _ _ _ _ _ _ _ _ _ _ _ P) (as_br _ _ _ _ _ _ _ _ _ _ _ _ P) T). exact Hc.
  Qed.
End Assigned.
