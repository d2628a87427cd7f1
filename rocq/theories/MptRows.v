(* C28: how many rows assignment uses, and when it succeeds. *)
From Coq Require Import ZArith List Bool Lia.
From Verif Require Import Pocklington Fr Query Builder BuilderProofs Gadgets MptUpdate Bytes Fixed Util UtilProofs Serde Trie Storage Types TrieProofs TypesProofs Lookups LookupProofs
  Assign AssignProofs AssignOk AssignRegion GadgetMain GadgetMain2 LookupMain UpdateAssign MptAssign MptModes HonestTrace.
Import ListNotations.
Open Scope Z_scope.

(* assignments in the rows lo .. hi - 1 only *)
Definition within (lo hi : Z) (ws : list write) : Prop := Forall (fun w => lo <= snd (fst w) < hi) ws.
(* .. and in each of them *)
Definition row_written (ws : list write) (i : Z) : Prop := exists w, In w ws /\ snd (fst w) = i.
Lemma within_app lo hi a b : within lo hi a -> within lo hi b -> within lo hi (a ++ b). Proof. intros; apply Forall_app; auto. Qed.
Lemma within_at lo hi o r : lo <= o < hi -> within lo hi (at_ o r).
Proof. intros Ho. apply Forall_map. apply Forall_forall. intros p _. exact Ho. Qed.
Lemma within_emit lo hi rows : forall o, lo <= o -> o + Z.of_nat (length rows) <= hi -> within lo hi (emit o rows).
Proof.
  induction rows as [|r rows IH]; intros o A B; [constructor|]. cbn [emit]. cbn [length] in B. apply within_app; [apply within_at; lia|apply IH; lia].
Qed.
Lemma within_loop lo hi o n r : lo <= o -> o + Z.of_nat n <= hi -> within lo hi (loop o n r).
Proof. intros A B. apply within_emit; [exact A|rewrite repeat_length; exact B]. Qed.
Lemma within_le lo hi lo' hi' ws : lo' <= lo -> hi <= hi' -> within lo hi ws -> within lo' hi' ws.
Proof. intros A B. apply Forall_impl. intros; lia. Qed.
Lemma trie_cells_length rows : forall i cs, trie_rows_cells i rows = Some cs -> length cs = length rows.
Proof.
  induction rows as [|row rows IH]; intros i cs E; cbn [trie_rows_cells] in E; [apply some_eq in E; subst; reflexivity|].
  ob E. ob E. apply some_eq in E. subst cs. cbn. rewrite (IH _ _ E1). reflexivity.
Qed.
Lemma within_trie seg o rows ws : assign_trie_rows seg o rows = Some ws -> within o (o + Z.of_nat (length rows)) ws.
Proof.
  unfold assign_trie_rows. intros E. ob E. apply some_eq in E. subst ws.
  apply within_app; [apply within_emit; [lia|rewrite (trie_cells_length _ _ _ E0); lia]|apply within_loop; lia].
Qed.
Lemma omap_from_length {X Y} (f : nat -> X -> option Y) : forall l i out, omap_from f i l = Some out -> length out = length l.
Proof.
  induction l as [|x l IH]; intros i out E; cbn [omap_from] in E; [apply some_eq in E; subst; reflexivity|].
  ob E. ob E. apply some_eq in E. subst out. cbn. rewrite (IH _ _ E1). reflexivity.
Qed.
Section Hash.
  Variable H : Fr -> Fr -> Fr -> Fr.
  Lemma within_storage o s r ws : assign_storage H o s r = Some ws -> within (o - 1) (o + Z.of_nat (sp_n_rows s)) ws.
  Proof.
    intros E. destruct s as [x|sk key rows ol nl]; cbn [assign_storage sp_n_rows] in *; [apply some_eq in E; subst; constructor|].
    ob E. ob E. ob E. destruct a1 as [lw k]. apply some_eq in E. subst ws.
    assert (K : within (o - 1) (o + Z.of_nat (length rows + k)) lw /\ k = Nat.max (sl_n_rows ol) (sl_n_rows nl)).
    { unfold assign_storage_leaf_row in E2. destruct (storage_leaf_path ol nl) as [pt|] eqn:Q.
      - ob E2. destruct a1 as [oh nh]. ob E2. apply some_eq in E2. assert (k = 1%nat) as -> by congruence. assert (lw = _) by (symmetry; exact (f_equal fst E2)). cbn [fst] in *. subst lw.
        split; [apply within_at; lia|]. clear - Q. destruct ol, nl; cbn in *; try discriminate Q; reflexivity.
      - ob E2. apply some_eq in E2. assert (k = 0%nat) as -> by congruence. assert (a1 = lw) as -> by congruence.
        split; [|clear - Q; destruct ol, nl; cbn in *; try discriminate Q; reflexivity].
        unfold assign_empty_storage_proof in E. destruct ol, nl; try discriminate E; try (apply some_eq in E; subst; constructor);
        repeat (ob E); apply some_eq in E; subst lw; apply within_at; lia. }
    destruct K as [K ->]. apply within_app; [|apply within_app].
    - eapply within_le; [| |apply (within_trie _ _ _ _ E1)]; lia.
    - exact K.
    - apply within_loop; lia.
  Qed.
  Lemma within_leaf o p f fo fn k ok da r ws m : assign_account_leaf H o p f fo fn k ok da r = Some ws ->
    leaf_directions (proof_type_of (c_kind (pf_claim p))) = Some m ->
    within o (o + Z.of_nat (length m + sp_n_rows (pf_storage p))) ws /\ (2 <= length m)%nat.
  Proof.
    unfold assign_account_leaf. intros E M. ob E. ob E. rewrite M in E1. apply some_eq in E1. subst a0. ob E. ob E. ob E. apply some_eq in E. subst ws.
    assert (L : (2 <= length m)%nat /\ (forall ko kn, c_kind (pf_claim p) = KCodeHash ko kn -> length m = 4%nat)).
    { destruct (c_kind (pf_claim p)) as [| | | | | |[kk|]]; cbn in M; try discriminate M; apply some_eq in M; subst m; cbn; split; try lia; intros; reflexivity || discriminate. }
    split; [|apply L]. apply within_app; [|apply within_app; [apply within_at; lia|apply within_app]].
    - apply within_emit; [lia|]. rewrite (omap_from_length _ _ _ _ E2). unfold izip5. rewrite combine_length. lia.
    - unfold code_hash_cells. destruct (c_kind (pf_claim p)) eqn:Q; try (constructor; fail). apply within_at.
      rewrite (proj2 L _ _ eq_refl). lia.
    - eapply within_le; [| |apply (within_storage _ _ _ _ E3)]; lia.
  Qed.
  (* the rows of one update: [proof_n_rows p] of them, all used *)
  Theorem single_rows p r o ws : length (pf_account_trie_rows p) = length (pf_address_hash_traces p) -> assign_single_proof H p r o = Some ws ->
    within o (o + Z.of_nat (proof_n_rows p)) ws /\ forall i, o <= i < o + Z.of_nat (proof_n_rows p) -> row_written ws i.
  Proof.
    intros L E. unfold assign_single_proof in E. ob E. destruct a as [ok da]. ob E. ob E. destruct (final_hashes H p) as [fo fn]. ob E. apply some_eq in E. subst ws.
    set (n := length (pf_account_trie_rows p)) in *.
    assert (B : (1 + n <= proof_n_rows p)%nat) by (unfold proof_n_rows; rewrite <- L; destruct (_ && _); lia).
    split.
    - apply within_app; [apply within_loop; lia|]. apply within_app; [apply within_at; lia|].
      apply within_app; [eapply within_le; [| |apply (within_trie _ _ _ _ E1)]; fold n; lia|]. apply within_app; [apply within_loop; lia|].
      unfold proof_n_rows in *. destruct (is_none (pf_old_account p) && is_none (pf_new_account p)).
      + apply some_eq in E3. subst a1. apply within_at. lia.
      + assert (Q : exists m, leaf_directions (proof_type_of (c_kind (pf_claim p))) = Some m).
        { unfold assign_account_leaf in E3. ob E3. ob E3. eauto. }
        destruct Q as (m & M). destruct (within_leaf _ _ _ _ _ _ _ _ _ _ m E3 M) as [W _]. eapply within_le; [| |exact W]; [lia|].
        rewrite <- L. fold n. destruct (c_kind (pf_claim p)) as [| | | | | |[kk|]]; cbn in M; try discriminate M; apply some_eq in M; subst m; cbn [length]; lia.
    - intros i Hi. exists (A MU_new_value, i, new_value_assignment (pf_claim p) r). split; [|reflexivity]. apply in_or_app. left.
      unfold loop. revert Hi. generalize (proof_n_rows p). clear. intros k. revert o. induction k as [|k IH]; intros o Hi; [lia|].
      cbn [repeat emit]. apply in_or_app. destruct (Z.eq_dec i o) as [->|N]; [left|right; apply IH; lia].
      apply in_map_iff. exists (A MU_new_value, new_value_assignment (pf_claim p) r). split; [reflexivity|]. unfold claim_cells. apply in_or_app. right. cbn. auto.
  Qed.
  Lemma from_lengths t tr p : proof_from H t tr = Some p -> length (pf_account_trie_rows p) = length (pf_address_hash_traces p).
  Proof.
    intros F. destruct (proof_from_inv _ _ _ _ F) as (p0 & p1 & lh0 & lh1 & T). set (key := account_key H (c_address (pf_claim p))) in *.
    pose proof (ft_rows _ _ _ _ _ _ _ _ T) as Er. assert (Er' := Er). unfold trie_rows_new in Er'. apply obind_some in Er'. destruct Er' as (xo & Eo & Er').
    apply obind_some in Er'. destruct Er' as (xn & En & _).
    pose proof (traces_shape H key (p_path p0) (p_path p1) (p_leaf p0) (p_leaf p1) lh0 lh1 _ _ Eo En) as S.
    pose proof (ft_traces _ _ _ _ _ _ _ _ T) as Et. fold key in Et, Er. rewrite Et, Er in S. apply (f_equal (@length _)) in S.
    rewrite !map_length, rev_length in S. symmetry. exact S.
  Qed.
  Theorem update_rows proofs r : forall o ws, Forall (fun p => exists t tr, proof_from H t tr = Some p) proofs -> assign_proofs H proofs r o = Some ws ->
    within o (o + Z.of_nat (total_rows proofs)) ws /\ forall i, o <= i < o + Z.of_nat (total_rows proofs) -> row_written ws i.
  Proof.
    induction proofs as [|p proofs IH]; intros o ws F E; cbn [assign_proofs total_rows fold_right] in *.
    { apply some_eq in E. subst ws. split; [constructor|]. intros; lia. }
    ob E. ob E. apply some_eq in E. subst ws. inversion F as [|? ? F1 F2]; subst. destruct F1 as (t & tr & F1). fold (total_rows proofs).
    destruct (single_rows p r o a (from_lengths _ _ _ F1) E0) as [A1 A2]. destruct (IH _ _ F2 E1) as [B1 B2]. split.
    - apply within_app; (eapply within_le; [| |eassumption]); lia.
    - intros i Hi. destruct (Z_lt_dec i (o + Z.of_nat (proof_n_rows p))) as [X|X].
      + destruct (A2 i ltac:(lia)) as (w & W1 & W2). exists w. split; [apply in_or_app; auto|exact W2].
      + destruct (B2 i ltac:(lia)) as (w & W1 & W2). exists w. split; [apply in_or_app; auto|exact W2].
  Qed.
End Hash.

(** * When assignment succeeds *)
Lemma all_some_iff {X Y} (f : X -> option Y) l : (exists ys, all_some f l = Some ys) <-> Forall (fun x => f x <> None) l.
Proof.
  induction l as [|x l IH]; cbn [all_some]; [split; eauto|]. split.
  - intros (ys & E). destruct (f x) eqn:Q; [|discriminate E]. destruct (all_some f l) eqn:Q2; [|discriminate E]. constructor; [congruence|]. apply (proj1 IH). eauto.
  - intros F. inversion F as [|? ? F1 F2]; subst. destruct (f x); [|congruence]. destruct (proj2 IH F2) as (ys & ->). eauto.
Qed.
Lemma reprs_frs_in proofs r x : byte_representations proofs = Some r -> In x (re_frs r) -> exists p o, In p proofs /\ proof_reprs p = Some o /\ In x (re_frs o).
Proof.
  intros E Hx. unfold byte_representations in E. ob E. apply some_eq in E. subst r. cbn [re_frs] in Hx.
  apply (proj1 (sort_dedup_in _ cmp_ok_fr _ _)) in Hx. apply in_flat_map in Hx. destruct Hx as (o & Ho & Hx).
  revert E0 Ho. generalize 0%nat. revert a. induction proofs as [|p proofs IH]; intros a j E Ho; cbn [omap_from] in E; [apply some_eq in E; subst a; contradiction|].
  ob E. ob E. apply some_eq in E. subst a. destruct Ho as [->|Ho].
  - exists p, o. split; [left; reflexivity|auto].
  - destruct (IH _ _ E1 Ho) as (p' & o' & A & B). exists p', o'. split; [right; exact A|exact B].
Qed.
Lemma key_bits_in H proofs l x : key_bit_lookups H proofs = Some l -> In x l -> In x [(f0, 0, false); (f1, 0, true)] \/
  exists p o, In p proofs /\ proof_key_bits H p = Some o /\ In x o.
Proof.
  intros E Hx. unfold key_bit_lookups in E. ob E. apply some_eq in E. subst l. apply (proj1 (sort_dedup_in _ cmp_ok_lookup _ _)) in Hx.
  destruct Hx as [Hx|[Hx|Hx]]; [left; cbn; auto|left; cbn; auto|right].
  apply (proj1 (oconcat_in _ _ _ _ E0)) in Hx. destruct Hx as (p & o & Hp & Eo & Hx). eauto.
Qed.
Definition assignable (H : Fr -> Fr -> Fr -> Fr) (r : Fr) (p : Proof) : Prop := exists par threads n ws, (par = true -> (0 < threads)%nat) /\ mpt_assign H par threads [p] n r = Some ws.
Lemma assignable_single H r p : assignable H r p -> assign_single_proof H p r 1 <> None.
Proof.
  intros (par & th & n & ws & Ht & E). unfold mpt_assign in E. ob E. ob E. unfold updates in E1. destruct par.
  - apply obind_some in E1. destruct E1 as (u & E1 & _). unfold assign_par in E1. ob E1. destruct (update_regions_seq H [p] r _ _ 1 E2) as (w & Ew).
    cbn [assign_proofs] in Ew. ob Ew. congruence.
  - apply obind_some in E1. destruct E1 as (u & E1 & _). cbn [assign_proofs] in E1. ob E1. congruence.
Qed.
Lemma assignable_tables H r p : assignable H r p ->
  (exists o, proof_reprs p = Some o /\ Forall (fun x => val x < 256 ^ 31) (re_frs o)) /\ (exists o, proof_key_bits H p = Some o /\ Forall (fun l => kb_row l <> None) o).
Proof.
  intros (par & th & n & ws & Ht & E). destruct (assign_inv _ _ _ _ _ _ _ Ht E) as (re & lk & upd & cr & kb & br & P). split.
  - destruct (reprs_in _ _ p (as_reprs _ _ _ _ _ _ _ _ _ _ _ _ P) (or_introl eq_refl)) as (o & Eo & _ & _ & _ & I). exists o. split; [exact Eo|].
    apply Forall_forall. intros x Hx. apply I in Hx. pose proof (as_br _ _ _ _ _ _ _ _ _ _ _ _ P) as B.
    destruct (Z_lt_dec (val x) (256 ^ 31)) as [|N]; [assumption|]. exfalso.
    assert (X : Exists (fun x => 256 ^ 31 <= val x) (re_frs re)) by (apply Exists_exists; exists x; split; [exact Hx|lia]).
    apply (proj2 (byte_repr_panics r (re_u32s re) (re_u64s re) (re_u128s re) (re_frs re))) in X. congruence.
  - destruct (key_bits_proof H _ _ p (as_lookups _ _ _ _ _ _ _ _ _ _ _ _ P) (or_introl eq_refl)) as (o & Eo & I). exists o. split; [exact Eo|].
    apply Forall_forall. intros l Hl. apply I in Hl. destruct (kbc_all _ _ (as_kbc _ _ _ _ _ _ _ _ _ _ _ _ P) l Hl) as (i & rw & _ & R & _). congruence.
Qed.
Lemma kb_row_const : kb_row (f0, 0, false) <> None /\ kb_row (f1, 0, true) <> None.
Proof.
  split; intros X.
  - destruct kb_zero_row as (rw & E & _). unfold kb_zero in E. congruence.
  - destruct (kb_row_some f1 0 true ltac:(lia) eq_refl) as (rw & E). congruence.
Qed.
(* what the assignment needs of one proof *)
Definition ready (H : Fr -> Fr -> Fr -> Fr) (r : Fr) (p : Proof) : Prop := assign_single_proof H p r 1 <> None /\
  (exists o, proof_reprs p = Some o /\ Forall (fun x => val x < 256 ^ 31) (re_frs o)) /\ (exists o, proof_key_bits H p = Some o /\ Forall (fun l => kb_row l <> None) o).
Lemma assignable_ready H r p : assignable H r p -> ready H r p.
Proof. intros A. split; [exact (assignable_single H r p A)|exact (assignable_tables H r p A)]. Qed.
Theorem ready_assigned H par threads proofs n r : (0 < threads)%nat -> Forall (ready H r) proofs ->
  enough_rows H proofs n -> 32 * (Z.of_nat (length (mpt_update_keys H proofs)) + 1) <= n ->
  exists ws, mpt_assign H par threads proofs n r = Some ws.
Proof.
  intros Ht F R K. cut (exists ws, mpt_assign H false threads proofs n r = Some ws).
  { intros (ws & E). destruct par; [exact (par_total H threads threads proofs n r ws Ht E)|eauto]. }
  destruct R as (m & Er & Hm). assert (R : enough_rows H proofs n) by (exists m; auto).
  unfold mpt_n_rows_required in Er. ob Er. ob Er. clear Er. destruct (enough_inv H proofs n _ _ R E E0) as (R1 & R2 & R3 & R4).
  unfold mpt_assign. rewrite E, E0. cbn [obind].
  assert (U : exists ws, assign_proofs H proofs r 1 = Some ws).
  { clear - F. generalize 1. induction F as [|p proofs F1 F2 IH]; intros o; [exists []; reflexivity|]. cbn [assign_proofs].
    assert (N := single_some_at H p r 1 o (proj1 F1)). destruct (assign_single_proof H p r o); [|congruence].
    destruct (IH (o + Z.of_nat (proof_n_rows p))) as (ws & ->). cbn [obind]. eauto. }
  destruct U as (us & U). unfold updates. rewrite U. cbn [obind]. unfold oassert at 1. replace (2 + Z.of_nat (total_rows proofs) <=? n) with true by (symmetry; apply Z.leb_le; lia).
  cbn [obind]. assert (Q : Z.of_nat (length (mpt_update_keys H proofs)) + 1 <= n / 32) by (apply Z.div_le_lower_bound; lia).
  replace (sort_dedup cmp_fr (mpt_update_keys H proofs)) with (mpt_update_keys H proofs) by (symmetry; apply (sort_dedup_twice _ cmp_ok_fr)).
  unfold oassert. replace (1 <=? n / 32) with true by (symmetry; apply Z.leb_le; lia). cbn [obind].
  replace (Z.of_nat (length (mpt_update_keys H proofs)) <=? n / 32 - 1) with true by (symmetry; apply Z.leb_le; lia). cbn [obind].
  unfold keys_region, canonical_assign. replace (Z.of_nat (length (mpt_update_keys H proofs)) <=? n / 32) with true by (symmetry; apply Z.leb_le; lia).
  assert (KB : exists kb, key_bit_assign a0 = Some kb).
  { unfold key_bit_assign. destruct (proj2 (all_some_iff kb_row a0)) as (ys & ->); [|eauto]. apply Forall_forall. intros l Hl.
    destruct (key_bits_in H proofs a0 l E0 Hl) as [Hc|(p & o & Hp & Eo & Ho)].
    - destruct Hc as [<-|[<-|[]]]; apply kb_row_const.
    - rewrite Forall_forall in F. destruct (proj2 (F p Hp)) as (_ & o' & Eo' & Fo). rewrite Eo in Eo'. apply some_eq in Eo'. subst o'.
      rewrite Forall_forall in Fo. exact (Fo l Ho). }
  destruct KB as (kb & ->).
  destruct (byte_repr_assign r (re_u32s a) (re_u64s a) (re_u128s a) (re_frs a)) as [br|] eqn:B; [cbn [obind]; eauto|]. exfalso.
  apply (proj1 (byte_repr_panics _ _ _ _ _)) in B. apply Exists_exists in B. destruct B as (x & Hx & Bx).
  destruct (reprs_frs_in proofs a x E Hx) as (p & o & Hp & Eo & Ho). rewrite Forall_forall in F. destruct (proj2 (F p Hp)) as ((o' & Eo' & Fo) & _).
  rewrite Eo in Eo'. apply some_eq in Eo'. subst o'. rewrite Forall_forall in Fo. specialize (Fo x Ho). cbv beta in Fo. lia.
Qed.
Theorem assign_succeeds H par threads proofs n r : (0 < threads)%nat -> Forall (assignable H r) proofs ->
  enough_rows H proofs n -> 32 * (Z.of_nat (length (mpt_update_keys H proofs)) + 1) <= n ->
  exists ws, mpt_assign H par threads proofs n r = Some ws.
Proof. intros Ht F. apply ready_assigned; [exact Ht|]. eapply Forall_impl; [|exact F]. apply assignable_ready. Qed.
(* the canonical-representation assertion (mpt.rs:184-189) in both modes *)
Theorem assign_needs H par threads proofs n r ws : mpt_assign H par threads proofs n r = Some ws -> 32 * (Z.of_nat (length (mpt_update_keys H proofs)) + 1) <= n.
Proof.
  intros E. unfold mpt_assign in E. do 5 ob E. apply oassert_some in E4. apply Z.leb_le in E4. clear - E4.
  replace (sort_dedup cmp_fr (mpt_update_keys H proofs)) with (mpt_update_keys H proofs) in E4 by (symmetry; apply (sort_dedup_twice _ cmp_ok_fr)).
  pose proof (Z.mul_div_le n 32 ltac:(lia)). lia.
Qed.
