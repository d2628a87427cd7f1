(* A filled table satisfies the circuit if the rows of each of its updates are accepted on their own. *)
From Coq Require Import ZArith String List Bool Lia.
From Verif Require Import Pocklington Fr Query Builder BuilderProofs Gadgets MptUpdate Bytes Fixed GadgetProofs Util UtilProofs Serde Trie Storage Types Lookups LookupProofs
  Assign AssignProofs AssignOk AssignRegion TableSpec GadgetMain GadgetMain2 LookupMain UpdateRows UpdateSound UpdateComplete CircuitOk UpdateAssign MptAssign MptModes MptRows MptCases RowView BlockView TablesOk.
Import ListNotations.
Open Scope Z_scope.

Definition even_proof (p : Proof) : Prop := length (pf_account_trie_rows p) = length (pf_address_hash_traces p).
(* the table e holds the writes w in the update columns of rows lo .. hi - 1 *)
Definition holds_rows (e : env) (w : list write) (lo hi : Z) : Prop := forall c j, mu_col (A c) = true -> lo <= j < hi -> eadv e c j = rval (row_at w j) c.
Definition rows_ok (H : Fr -> Fr -> Fr -> Fr) (e : env) (lo hi : Z) : Prop := forall i, lo <= i < hi -> (exists m, view e i m) /\ row_ok H e i.
Definition starts (e : env) (i : Z) : Prop := sg e i = SegStart /\ pa e i = PathStart.
Definition block_accepted (H : Fr -> Fr -> Fr -> Fr) (e : env) (r : Fr) (p : Proof) : Prop :=
  forall o w, assign_single_proof H p r o = Some w -> holds_rows e w o (o + Z.of_nat (proof_n_rows p)) -> starts e (o + Z.of_nat (proof_n_rows p)) ->
    rows_ok H e o (o + Z.of_nat (proof_n_rows p)).

Lemma within_row lo hi ws i : within lo hi ws -> ~ lo <= i < hi -> row_at ws i = [].
Proof.
  intros W Hi. induction W as [|[[c j] v] ws Hw W IH]; [reflexivity|]. cbn [row_at]. cbn [fst snd] in Hw. destruct (Z.eqb_spec i j) as [->|]; [contradiction|exact IH].
Qed.
Section Blocks.
  Variable H : Fr -> Fr -> Fr -> Fr.
  Variable r : Fr.
  Lemma proofs_within proofs : forall o ws, Forall even_proof proofs -> assign_proofs H proofs r o = Some ws -> within o (o + Z.of_nat (total_rows proofs)) ws.
  Proof.
    induction proofs as [|p proofs IH]; intros o ws F E; cbn [assign_proofs total_rows fold_right] in *.
    { apply some_eq in E. subst ws. constructor. }
    ob E. ob E. apply some_eq in E. subst ws. inversion F as [|? ? F1 F2]; subst. fold (total_rows proofs).
    destruct (single_rows H p r o a F1 E0) as [A1 _]. pose proof (IH _ _ F2 E1) as B1.
    apply within_app; (eapply within_le; [| |eassumption]); lia.
  Qed.
  Lemma blocks_of proofs : forall o ws, Forall even_proof proofs -> assign_proofs H proofs r o = Some ws -> forall i, o <= i < o + Z.of_nat (total_rows proofs) ->
    exists p o' w, In p proofs /\ assign_single_proof H p r o' = Some w /\ o <= o' <= i /\ i < o' + Z.of_nat (proof_n_rows p) <= o + Z.of_nat (total_rows proofs) /\
      (forall j, o' <= j < o' + Z.of_nat (proof_n_rows p) -> row_at ws j = row_at w j) /\
      (o' + Z.of_nat (proof_n_rows p) = o + Z.of_nat (total_rows proofs) \/
       exists q w', In q proofs /\ assign_single_proof H q r (o' + Z.of_nat (proof_n_rows p)) = Some w' /\
         row_at ws (o' + Z.of_nat (proof_n_rows p)) = row_at w' (o' + Z.of_nat (proof_n_rows p)) /\ o' + Z.of_nat (proof_n_rows p) < o + Z.of_nat (total_rows proofs)).
  Proof.
    induction proofs as [|p proofs IH]; intros o ws F E i Hi; [cbn in Hi; lia|]. cbn [assign_proofs] in E. ob E. ob E. apply some_eq in E. subst ws.
    inversion F as [|? ? F1 F2]; subst. cbn [total_rows fold_right] in *. fold (total_rows proofs) in *.
    destruct (single_rows H p r o a F1 E0) as [W _]. pose proof (proofs_within _ _ _ F2 E1) as W2.
    destruct (Z_lt_dec i (o + Z.of_nat (proof_n_rows p))) as [L|L].
    - exists p, o, a. split; [left; reflexivity|]. split; [exact E0|]. split; [lia|]. split; [lia|]. split.
      + intros j Hj. rewrite row_at_app, (within_row _ _ _ _ W2), app_nil_r by lia. reflexivity.
      + destruct proofs as [|q proofs]; [left; cbn; lia|]. right. cbn [assign_proofs] in E1. ob E1. ob E1. apply some_eq in E1. subst a0. exists q, a1.
        split; [right; left; reflexivity|]. split; [exact E|]. inversion F2 as [|? ? F3 F4]; subst. pose proof (proofs_within _ _ _ F4 E2) as W4.
        pose proof (proof_rows_pos q). cbn [total_rows fold_right]. split; [|lia].
        rewrite row_at_app, (within_row _ _ _ _ W) by lia. rewrite row_at_app, (within_row _ _ _ _ W4), app_nil_r by lia. reflexivity.
    - destruct (IH _ _ F2 E1 i ltac:(lia)) as (p' & o' & w & I1 & I2 & I3 & I4 & I5 & I6). exists p', o', w. split; [right; exact I1|]. split; [exact I2|]. split; [lia|]. split; [lia|]. split.
      + intros j Hj. rewrite row_at_app, (within_row _ _ _ _ W) by lia. cbn [app]. apply I5, Hj.
      + destruct I6 as [I6|(q & w' & Q1 & Q2 & Q3 & Q4)]; [left; lia|]. right. exists q, w'. split; [right; exact Q1|]. split; [exact Q2|]. split; [|lia].
        rewrite row_at_app, (within_row _ _ _ _ W) by lia. exact Q3.
  Qed.
  (* the first row of an update *)
  Lemma start_types p o w : even_proof p -> assign_single_proof H p r o = Some w -> row_types (proof_type_of (c_kind (pf_claim p))) SegStart PathStart (row_at w o).
  Proof.
    intros L E. destruct (block_view H p r o w L E) as (other & data & final & B). rewrite (ba_start _ _ _ _ _ _ _ _ B). clear. unfold claim_cells. generalize (proof_type_of (c_kind (pf_claim p))). intros t.
    match goal with |- row_types _ _ _ (_ ++ _ ++ ?x) => set (tl := x) end.
    assert (T : tl = [] \/ exists a b c, tl = iz_assign_value_and_inverse (izg 2) a ++ iz_assign_value_and_inverse (izg 3) b ++ [(A (iv 3), c)]).
    { unfold tl, tail_cells. destruct (pf_account_trie_rows p); [|auto]. destruct (no_account p); eauto. }
    clearbody tl. destruct T as [->|(a & b & c & ->)].
    - constructor; [intros v Hv; destruct v, t; try contradiction; reflexivity|intros v Hv; destruct v; try contradiction; destruct t; reflexivity|intros v Hv; destruct v; try contradiction; destruct t; reflexivity|].
      intros k. destruct k as [|[|[|[|k]]]]; destruct t; reflexivity.
    - constructor; [intros v Hv; destruct v, t; try contradiction; reflexivity|intros v Hv; destruct v; try contradiction; destruct t; reflexivity|intros v Hv; destruct v; try contradiction; destruct t; reflexivity|].
      intros k. destruct k as [|[|[|[|k]]]]; destruct t; reflexivity.
  Qed.
  Lemma pad_types : row_types AccountDoesNotExist SegStart PathStart (padding_row H).
  Proof.
    constructor; [intros v Hv; destruct v; try contradiction; reflexivity|intros v Hv; destruct v; try contradiction; reflexivity|intros v Hv; destruct v; try contradiction; reflexivity|].
    intros k. destruct k as [|[|[|[|k]]]]; reflexivity.
  Qed.
  Lemma blank_types : row_types NonceChanged SegStart PathStart [].
  Proof.
    constructor; [intros v Hv; destruct v; try contradiction; reflexivity|intros v Hv; destruct v; try contradiction; reflexivity|intros v Hv; destruct v; try contradiction; reflexivity|].
    intros k. destruct k as [|[|[|[|k]]]]; reflexivity.
  Qed.
End Blocks.

Lemma start_exposed e i t : 0 <= i < eN e -> oh_row oh_segment e i -> oh_row oh_proof e i -> sg e i = SegStart -> pt e i = t -> map (eval e i) mpt_update_lookup =
  [(eadv e (iv 0) i * fz (2 ^ 32) + eadv e (iv 1) i)%fr; eadv e MU_storage_key_rlc i; fz (kind_number t); eadv e (sp 1) i; eadv e (sp 0) i; eadv e MU_new_value i; eadv e MU_old_value i].
Proof.
  intros Hi Rs Rt Es <-. assert (M0 : (i + 0) mod eN e = i) by (rewrite Z.add_0_r; apply Z.mod_small; exact Hi).
  assert (E : eval e i (cur_seg [SegStart]) = f1).
  { unfold cur_seg, current_matches. rewrite (eval_matches oh_segment seg_wf SegStart e i 0 i); [|exact M0|exact Rs|repeat constructor; intros []]. fold (sg e i). rewrite Es. reflexivity. }
  assert (K : eval e i (oh_current oh_proof) = fz (kind_number (pt e i))).
  { unfold oh_current. destruct (eval_oh_index oh_proof ptype_wf NonceChanged e i 0 i M0 Rt) as (k & K1 & K2). rewrite K2. fold (pt e i) in K1. f_equal.
    destruct k as [|[|[|[|[|[|[|[|[|k]]]]]]]]]; cbn in K1; try (injection K1 as <-; reflexivity). destruct k; discriminate K1. }
  set (s := cur_seg [SegStart]) in *. unfold mpt_update_lookup. fold s. cbn [map].
  change (eval e i ((cur (iv 0) * QConst (fz (2 ^ 32)) + cur (iv 1)) * s)%q)
    with ((eval e i (cur (iv 0)) * fz (2 ^ 32) + eval e i (cur (iv 1))) * eval e i s)%fr.
  change (eval e i (oh_current oh_proof * s)%q) with (eval e i (oh_current oh_proof) * eval e i s)%fr.
  assert (G : forall c, eval e i (cur c * s)%q = (eadv e c i * eval e i s)%fr).
  { intros c. change (eval e i (cur c * s)%q) with (eval e i (cur c) * eval e i s)%fr. rewrite eval_cur by exact Hi. reflexivity. }
  rewrite !G, !eval_cur, E, K by exact Hi. repeat (apply f_equal2; [ring|]); reflexivity.
Qed.
Lemma rlc_fr_zero r : rlc_fr f0 r = f0.
Proof.
  unfold rlc_fr. change (val f0) with 0. unfold rlc. assert (G : forall k acc, acc = f0 -> fold_left (fun a b => (r * a + fz b)%fr) (be_bytes k 0) acc = f0).
  { induction k as [|k IH]; intros acc Ea; [exact Ea|]. cbn [be_bytes]. rewrite fold_left_app. change (0 / 256) with 0. rewrite IH by exact Ea. cbn [fold_left]. change (fz (0 mod 256)) with f0. ring. }
  apply G. reflexivity.
Qed.
(* a padding row *)
Lemma pad_ok H e i : view e i (mrow_of AccountDoesNotExist SegStart PathStart (padding_row H)) -> starts e (i + 1) ->
  poseidon_hit e f0 f0 (fdom DPair) (ZERO_PAIR_HASH H) -> accepts e bytes_lookup [f0; fz 15] -> accepts e bytes_lookup [f0; fz 3] -> accepts e fr_rlc_lookup [f0; f0] ->
  row_ok H e i.
Proof.
  intros V [N1 N2] PZ B15 B3 R0.
  assert (P1 := vw_pt _ _ _ V). assert (S1 := vw_sg _ _ _ V). assert (Q1 := vw_pa _ _ _ V). cbn [mrow_of m_pt m_sg m_pa] in P1, S1, Q1.
  assert (K : eadv e MU_key i = ZERO_PAIR_HASH H) by (rewrite (vw_key _ _ _ V); reflexivity).
  assert (K' : eadv e MU_other_key i = ZERO_PAIR_HASH H) by (rewrite (vw_other _ _ _ V); reflexivity).
  assert (Oh : eadv e MU_old_hash i = f0) by (rewrite (vw_old _ _ _ V); reflexivity).
  assert (Nh : eadv e MU_new_hash i = f0) by (rewrite (vw_new _ _ _ V); reflexivity).
  assert (Ov : eadv e MU_old_value i = f0) by (rewrite (vw_ov _ _ _ V); reflexivity).
  assert (Nv : eadv e MU_new_value i = f0) by (rewrite (vw_nv _ _ _ V); reflexivity).
  assert (I0 : eadv e (iv 0) i = f0) by (rewrite (vw_iv _ _ _ V); reflexivity).
  assert (I1 : eadv e (iv 1) i = f0) by (rewrite (vw_iv _ _ _ V); reflexivity).
  assert (P0 : eadv e (sp 0) i = f0) by (rewrite (vw_sp _ _ _ V); reflexivity).
  assert (P1' : eadv e (sp 1) i = f0) by (rewrite (vw_sp _ _ _ V); reflexivity).
  assert (Z2 : eadv e (MU_zero_value 2) i = f0) by (rewrite (vw_z _ _ _ V); reflexivity).
  assert (Z3 : eadv e (MU_zero_value 3) i = f0) by (rewrite (vw_z _ _ _ V); reflexivity).
  constructor; unfold UpdateRows.adv; rewrite ?S1, ?Q1, ?P1.
  - tauto.
  - intros _. unfold start_ok, UpdateRows.PH, UpdateRows.adv. rewrite I0, I1, K, Oh, Nh, P0, P1'. replace (f0 * fz (2 ^ 96))%fr with f0 by ring. auto.
  - congruence.
  - congruence.
  - cbn. rewrite (vw_depth _ _ _ V). reflexivity.
  - exists DPair. rewrite S1. unfold UpdateRows.adv. rewrite (vw_dom _ _ _ V). split; [cbn; tauto|reflexivity].
  - unfold path_ok. rewrite Q1, N2. split; [cbn; tauto|exact Logic.I].
  - unfold proof_ok. rewrite P1. split.
    + unfold trans_ok. rewrite P1, S1, N1. eexists. split; [reflexivity|]. cbn. tauto.
    + unfold empty_account_ok, UpdateRows.adv. rewrite Ov, Nv, Oh, Nh, S1. split; [reflexivity|]. split; [reflexivity|]. split; [reflexivity|].
      intros _. unfold nonex_ok, nonex, UpdateRows.adv. rewrite Oh, Nh, Ov, Nv, K, K', Z2, Z3. split; [reflexivity|]. split; [reflexivity|]. split.
      * split; [reflexivity|]. left. auto.
      * split; [ring|reflexivity].
Qed.

Lemma pad_true a i n : a <= i < n -> (a <=? i) && (i <? n) = true. Proof. intros. apply andb_true_iff. rewrite Z.leb_le, Z.ltb_lt. lia. Qed.
Lemma pad_false a i n : ~ a <= i < n -> (a <=? i) && (i <? n) = false. Proof. intros. apply andb_false_iff. rewrite Z.leb_gt, Z.ltb_ge. lia. Qed.
Section Glue.
  Context {H par proofs n r ws reprs lookups upd cr kb br} (P : assigned H par proofs n r ws reprs lookups upd cr kb br).
  Variable e : env.
  Hypothesis FL : filled e r ws.
  Hypothesis Rm : room e n.
  Hypothesis En : enough_rows H proofs n.
  Variable traces : list Trace.
  Hypothesis ET : hash_traces H proofs = Some traces.
  Hypothesis PL : poseidon_listed e traces.
  Hypothesis Ev : Forall even_proof proofs.
  Lemma glue_sizes : 2050 <= n /\ 2 + Z.of_nat (total_rows proofs) <= n /\ 2 + Z.of_nat (length lookups) <= n /\
    byte_repr_n_rows (re_u32s reprs) (re_u64s reprs) (re_u128s reprs) (re_frs reprs) < n.
  Proof. exact (enough_inv _ _ _ _ _ En (as_reprs _ _ _ _ _ _ _ _ _ _ _ _ P) (as_lookups _ _ _ _ _ _ _ _ _ _ _ _ P)). Qed.
  Lemma glue_tables : tables e traces lookups (re_u32s reprs) (re_u64s reprs) (re_u128s reprs) (re_frs reprs) (mpt_update_keys H proofs).
  Proof.
    destruct glue_sizes as (S1 & S2 & S3 & S4). destruct Rm as (R1 & R2 & R3 & R4).
    apply (filled_tables P e FL); try lia. exact PL.
  Qed.
  Lemma zero_128 : In 0 (re_u128s reprs).
  Proof.
    pose proof (as_reprs _ _ _ _ _ _ _ _ _ _ _ _ P) as E. unfold byte_representations in E. ob E. apply some_eq in E. rewrite <- E. cbn [re_u128s].
    apply (proj2 (sort_dedup_in _ cmp_ok_z _ _)). left. reflexivity.
  Qed.
  Lemma glue_rows : exists w, assign_proofs H proofs r 1 = Some w /\
    forall i, row_at upd i = if (1 + Z.of_nat (total_rows proofs) <=? i) && (i <? n) then padding_row H else row_at w i.
  Proof.
    destruct glue_sizes as (S1 & S2 & S3 & S4).
    assert (U : updates H false proofs r n = Some upd).
    { pose proof (as_upd _ _ _ _ _ _ _ _ _ _ _ _ P) as U. destruct par; [|exact U]. apply updates_modes. split; [exact U|exact S2]. }
    unfold updates in U. ob U. ob U. apply some_eq in U. subst upd. exists a. split; [exact E|]. intros i. rewrite row_at_app.
    pose proof (proofs_within H r proofs 1 a Ev E) as W. set (tot := Z.of_nat (total_rows proofs)) in *.
    destruct (Z_lt_dec i (1 + tot)) as [L|L]; [|destruct (Z_lt_dec i n) as [L2|L2]].
    - rewrite row_at_loop_out by lia. rewrite pad_false by lia. apply app_nil_r.
    - rewrite row_at_loop by lia. rewrite pad_true by lia. rewrite (within_row _ _ _ _ W) by lia. reflexivity.
    - rewrite row_at_loop_out by lia. rewrite pad_false by lia. apply app_nil_r.
  Qed.
  Theorem glue : Forall (block_accepted H e r) proofs -> sat e (circuit_of (circuit H)).
  Proof.
    intros BA. destruct glue_sizes as (S1 & S2 & S3 & S4). pose proof glue_tables as T. destruct glue_rows as (w & Ew & RW). destruct Rm as (R1 & R2 & R3 & R4).
    pose proof (filled_fixed P e FL ltac:(lia) R2 R4) as F. set (tot := Z.of_nat (total_rows proofs)) in *.
    assert (Cw : forall c i, mu_col (A c) = true -> 0 <= i < eN e -> eadv e c i = rval (row_at upd i) c).
    { intros c i Hc Hi. rewrite (filled_mu P e FL c i Hc Hi). apply cell_row. }
    pose proof (proofs_within H r proofs 1 w Ev Ew) as W. fold tot in W.
    assert (Pad : forall i, 1 + tot <= i < n -> view e i (mrow_of AccountDoesNotExist SegStart PathStart (padding_row H))).
    { intros i Hi. apply row_view; [|apply pad_types]. intros c Hc. rewrite Cw by (try exact Hc; lia). rewrite RW. rewrite pad_true by lia. reflexivity. }
    assert (Bl : forall i, 0 <= i < eN e -> ~ 1 <= i < n -> view e i (mrow_of NonceChanged SegStart PathStart [])).
    { intros i Hi No. apply row_view; [|apply blank_types]. intros c Hc. rewrite Cw by (try exact Hc; lia). rewrite RW. rewrite pad_false by lia.
      rewrite (within_row _ _ _ _ W) by lia. reflexivity. }
    assert (St1 : forall i m, view e i m -> m_sg m = SegStart -> m_pa m = PathStart -> starts e i).
    { intros i m V A1 A2. split; [rewrite (vw_sg _ _ _ V); exact A1|rewrite (vw_pa _ _ _ V); exact A2]. }
    assert (End : starts e (1 + tot)).
    { eapply St1; [apply Pad; lia|reflexivity|reflexivity]. }
    assert (Pok : forall i, 1 + tot <= i < n -> row_ok H e i).
    { intros i Hi. apply pad_ok; [apply Pad, Hi| | | | |].
      - destruct (Z_lt_dec (i + 1) n); [eapply St1; [apply Pad; lia|reflexivity|reflexivity]|eapply St1; [apply Bl; lia|reflexivity|reflexivity]].
      - apply (tb_hash _ _ _ _ _ _ _ _ T). assert (ET2 := ET). unfold hash_traces in ET2. ob ET2. apply some_eq in ET2. rewrite <- ET2. apply (proj2 (sort_dedup_in _ cmp_ok_trace _ _)). left. reflexivity.
      - apply (tb_128 _ _ _ _ _ _ _ _ T 0 zero_128). lia.
      - apply (tb_zero _ _ _ _ _ _ _ _ T zero_128).
      - rewrite <- (rlc_fr_zero (echal e)) at 2. apply (tb_root _ _ _ _ _ _ _ _ T). apply (proj2 (sort_dedup_in _ cmp_ok_fr _ _)). left. reflexivity. }
    assert (Blk : rows_ok H e 1 (1 + tot)).
    { intros i Hi. destruct (blocks_of H r proofs 1 w Ev Ew i Hi) as (p & o & w' & I1 & I2 & I3 & I4 & I5 & I6). fold tot in I4, I6.
      rewrite Forall_forall in BA, Ev. apply (BA p I1 o w' I2); [| |lia].
      - intros c j Hc Hj. rewrite Cw by (try exact Hc; lia). rewrite RW. rewrite pad_false by lia. rewrite I5 by exact Hj. reflexivity.
      - destruct I6 as [I6|(q & w2 & Q1 & Q2 & Q3 & Q4)]; [rewrite I6; exact End|].
        eapply St1; [eapply row_view; [|apply (start_types H r q _ w2 (Ev q Q1) Q2)]|reflexivity|reflexivity].
        intros c Hc. rewrite Cw by (try exact Hc; lia). rewrite RW. rewrite pad_false by lia. rewrite Q3. reflexivity. }
    assert (Vw : forall i, 0 <= i < eN e -> exists m, view e i m).
    { intros i Hi. destruct (Z_lt_dec i 1); [eexists; apply Bl; lia|]. destruct (Z_lt_dec i (1 + tot)); [apply Blk; lia|]. destruct (Z_lt_dec i n); [eexists; apply Pad; lia|eexists; apply Bl; lia]. }
    apply (whole_sat H e n F R3).
    - intros j Hj. destruct (Vw j Hj) as (m & V). apply V.
    - intros j Hj. destruct (Vw j Hj) as (m & V). apply V.
    - intros j Hj. destruct (Vw j Hj) as (m & V). apply V.
    - intros k j _ Hj. destruct (Vw j Hj) as (m & V). apply V.
    - intros i Hi. destruct (Z_lt_dec i (1 + tot)); [apply Blk; lia|apply Pok; lia].
    - intros i Hi No. pose proof (Bl i ltac:(lia) No) as V. constructor; [rewrite (vw_sg _ _ _ V)|rewrite (vw_pa _ _ _ V)|rewrite (vw_pt _ _ _ V)|rewrite (vw_z _ _ _ V)]; reflexivity.
    - exists 0. split; [lia|]. split; [apply (zero_sel_off e n F); lia|]. intros c Hc. cbn [In] in Hc.
      assert (K : In c BR_cols \/ In c CR_cols \/ In c KB_cols) by (cbn; intuition). destruct K as [K|[K|K]].
      + rewrite (filled_br P e FL) by (try exact K; lia). pose proof (as_br _ _ _ _ _ _ _ _ _ _ _ _ P) as B. unfold byte_repr_assign in B. destruct (br_strings _ _ _ _) as [ss|]; [|discriminate B]. apply some_eq in B. rewrite <- B.
        unfold cell. cbn [wfind]. rewrite row_at_find. rewrite row_at_emit_before by lia. cbn [rfind]. destruct (col_eq_dec (A c) (Fx BR_is_first)) as [X|]; [discriminate X|reflexivity].
      + rewrite (filled_cr P e FL) by (try exact K; lia). unfold cr_cell. replace (in_range 1 0 _) with false by (symmetry; apply in_range_false; lia). reflexivity.
      + rewrite (filled_kb P e FL) by (try exact K; lia). apply (as_kb0 _ _ _ _ _ _ _ _ _ _ _ _ P). apply in_map. exact K.
    - apply PL.
    - pose proof (Pad (n - 1) ltac:(lia)) as V. rewrite (start_exposed e (n - 1) AccountDoesNotExist); [|lia|apply V|apply V|apply (vw_sg _ _ _ V)|apply (vw_pt _ _ _ V)].
      rewrite !(vw_iv _ _ _ V), !(vw_sp _ _ _ V), (vw_skr _ _ _ V), (vw_nv _ _ _ V), (vw_ov _ _ _ V).
      unfold final_row. apply f_equal2; [|reflexivity]. cbn [m_iv mrow_of]. change (rval (padding_row H) (iv 0)) with f0. change (rval (padding_row H) (iv 1)) with f0. ring.
    - apply (filled_br_sat P e FL); lia.
    - apply (filled_cr_sat P e FL); lia.
    - apply (filled_kb_sat P e FL); lia.
  Qed.
End Glue.
