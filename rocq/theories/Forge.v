(* Tables with chosen update rows: the lookup tables are filled as the assignment fills them, the update rows are arbitrary. *)
From Coq Require Import ZArith String List Bool Lia.
From Verif Require Import Pocklington Fr Query Builder BuilderProofs Gadgets MptUpdate Bytes Fixed GadgetProofs UpdateRows UpdateSound TableSpec UpdateComplete Util UtilProofs Serde Trie Storage Types Lookups LookupProofs LookupMain
  Assign AssignProofs AssignOk AssignRegion UpdateAssign MptAssign MptModes MptRows MptCases GadgetMain GadgetMain2 CircuitOk RowView BlockView TablesOk BlocksOk PaddingOk RowsOk UpdateProps.
Import ListNotations.
Open Scope Z_scope.

(* the cells of a row *)
Definition cells (f : rowf) : row :=
  map (fun v => (A (MU_proof v), fb (ptype_eqb v (f_pt f)))) ptype_variants ++ map (fun v => (A (MU_seg v), fb (seg_eqb v (f_sg f)))) seg_variants ++
  map (fun v => (A (MU_path v), fb (path_eqb v (f_pa f)))) path_variants ++
  [(A MU_storage_key_rlc, f_skr f); (A MU_old_value, f_ov f); (A MU_new_value, f_nv f); (A MU_key, f_key f); (A MU_other_key, f_other f); (A MU_direction, f_dir f);
   (A MU_sibling, f_sib f); (A MU_old_hash, f_old f); (A MU_new_hash, f_new f); (A MU_domain, f_dom f); (A MU_depth, f_depth f);
   (A (iv 0), f_i0 f); (A (iv 1), f_i1 f); (A (iv 2), f_i2 f); (A (iv 3), f_i3 f); (A (iv 9), f_i9 f); (A (sp 0), f_s0 f); (A (sp 1), f_s1 f); (A (sp 2), f_s2 f); (A (sp 3), f_s3 f);
   (A (MU_zero_value 0), f_z0 f); (A (MU_zero_value 1), f_z1 f); (A (MU_zero_value 2), f_z2 f); (A (MU_zero_value 3), f_z3 f);
   (A (MU_zero_inv 0), finv (f_z0 f)); (A (MU_zero_inv 1), finv (f_z1 f)); (A (MU_zero_inv 2), finv (f_z2 f)); (A (MU_zero_inv 3), finv (f_z3 f))].
Lemma cells_row f : rowf_of (f_pt f) (f_sg f) (f_pa f) (cells f) = f.
Proof. destruct f as [p s q]. destruct p, s, q; reflexivity. Qed.
Lemma cells_types f : row_types (f_pt f) (f_sg f) (f_pa f) (cells f).
Proof.
  destruct f as [p s q]. constructor.
  - intros v _. destruct v, p; reflexivity.
  - intros v _. destruct v; destruct p, s; reflexivity.
  - intros v _. destruct v; destruct p, s, q; reflexivity.
  - intros k. destruct k as [|[|[|[|k]]]]; destruct p, s, q; reflexivity.
Qed.

(** * Tables with given update rows *)
Definition fg_row (H : Fr -> Fr -> Fr -> Fr) (n : Z) (rows : list rowf) (i : Z) : row :=
  if (1 <=? i) && (i <? n) then nth (Z.to_nat (i - 1)) (map cells rows) (padding_row H) else [].
(* the row before and after *)
Definition off_f : rowf := rowf_of NonceChanged SegStart PathStart [].
Definition next_sg (l : list rowf) : SegmentType := match l with [] => SegStart | f :: _ => f_sg f end.
Definition next_pa (l : list rowf) : PathType := match l with [] => PathStart | f :: _ => f_pa f end.
Fixpoint chain_ok (H : Fr -> Fr -> Fr -> Fr) (e : env) (f' : rowf) (l : list rowf) : Prop :=
  match l with
  | [] => True
  | f :: rest => (forall i, reads e (i - 1) f' -> reads e i f -> sg e (i + 1) = next_sg rest -> pa e (i + 1) = next_pa rest -> row_ok H e i) /\ chain_ok H e f rest
  end.
Section Rows.
  Variables (H : Fr -> Fr -> Fr -> Fr) (e : env) (n : Z) (rows : list rowf).
  Hypothesis F : fixed_ok e n.
  Hypothesis HnN : n < eN e.
  Hypothesis MU : forall c i, mu_col (A c) = true -> eadv e c i = rval (fg_row H n rows i) c.
  Hypothesis Hm : Z.of_nat (List.length rows) + 2 <= n.
  Notation m := (Z.of_nat (List.length rows)).
  Lemma fg_view i f : 1 <= i -> nth_error rows (Z.to_nat (i - 1)) = Some f -> view e i (mrow_of (f_pt f) (f_sg f) (f_pa f) (cells f)).
  Proof.
    intros Hi N. apply row_view; [|apply cells_types]. intros c Hc. rewrite MU by exact Hc. unfold fg_row.
    assert (L : (Z.to_nat (i - 1) < List.length rows)%nat) by (apply nth_error_Some; congruence).
    rewrite pad_true by lia. f_equal. apply nth_error_nth. rewrite nth_error_map, N. reflexivity.
  Qed.
  Lemma fg_reads i f : 1 <= i -> nth_error rows (Z.to_nat (i - 1)) = Some f -> reads e i f.
  Proof. intros Hi N. rewrite <- (cells_row f). apply reads_of, fg_view; assumption. Qed.
  Lemma fg_pad i : 1 + m <= i < n -> view e i (mrow_of AccountDoesNotExist SegStart PathStart (padding_row H)).
  Proof.
    intros Hi. apply row_view; [|apply pad_types]. intros c Hc. rewrite MU by exact Hc. unfold fg_row. rewrite pad_true by lia.
    rewrite (nth_overflow (map cells rows)) by (rewrite map_length; lia). reflexivity.
  Qed.
  Lemma fg_blank i : ~ 1 <= i < n -> view e i (mrow_of NonceChanged SegStart PathStart []).
  Proof. intros Hi. apply row_view; [|apply blank_types]. intros c Hc. rewrite MU by exact Hc. unfold fg_row. rewrite pad_false by lia. reflexivity. Qed.
  Lemma fg_start i : ~ 1 <= i <= m -> starts e i.
  Proof.
    intros Hi. destruct (Z_lt_dec i 1); [|destruct (Z_lt_dec i n)].
    - pose proof (fg_blank i ltac:(lia)) as V. split; [rewrite (vw_sg _ _ _ V)|rewrite (vw_pa _ _ _ V)]; reflexivity.
    - pose proof (fg_pad i ltac:(lia)) as V. split; [rewrite (vw_sg _ _ _ V)|rewrite (vw_pa _ _ _ V)]; reflexivity.
    - pose proof (fg_blank i ltac:(lia)) as V. split; [rewrite (vw_sg _ _ _ V)|rewrite (vw_pa _ _ _ V)]; reflexivity.
  Qed.
  Lemma fg_chain : chain_ok H e off_f rows -> forall i, 1 <= i <= m -> row_ok H e i.
  Proof.
    assert (G : forall l k f', (forall j, nth_error l j = nth_error rows (k + j)) -> reads e (Z.of_nat k) f' -> chain_ok H e f' l -> forall i, Z.of_nat k + 1 <= i <= m -> row_ok H e i).
    { induction l as [|f l IH]; intros k f' N R' C i Hi.
      - exfalso. assert (X : nth_error rows (Z.to_nat (i - 1)) <> None) by (apply nth_error_Some; lia). apply X. replace (Z.to_nat (i - 1)) with (k + (Z.to_nat (i - 1) - k))%nat by lia. rewrite <- N. destruct (Z.to_nat (i - 1) - k)%nat; reflexivity.
      - destruct C as [C1 C2]. assert (R : reads e (Z.of_nat k + 1) f).
        { apply fg_reads; [lia|]. replace (Z.to_nat (Z.of_nat k + 1 - 1)) with (k + 0)%nat by lia. rewrite <- N. reflexivity. }
        assert (Nx : forall j, nth_error l j = nth_error rows (S k + j)) by (intros j; replace (S k + j)%nat with (k + S j)%nat by lia; rewrite <- N; reflexivity).
        destruct (Z.eq_dec i (Z.of_nat k + 1)) as [->|Ne].
        + assert (X : sg e (Z.of_nat k + 1 + 1) = next_sg l /\ pa e (Z.of_nat k + 1 + 1) = next_pa l).
          { destruct l as [|g l].
            - apply fg_start. specialize (Nx 0%nat). cbn [nth_error] in Nx. symmetry in Nx. apply nth_error_None in Nx. lia.
            - assert (Rg : reads e (Z.of_nat k + 1 + 1) g); [|split; apply Rg]. apply fg_reads; [lia|]. replace (Z.to_nat (Z.of_nat k + 1 + 1 - 1)) with (S k + 0)%nat by lia. rewrite <- Nx. reflexivity. }
          apply C1; [replace (Z.of_nat k + 1 - 1) with (Z.of_nat k) by lia; exact R'|exact R|apply X|apply X].
        + apply (IH (S k) f Nx); [replace (Z.of_nat (S k)) with (Z.of_nat k + 1) by lia; exact R|exact C2|lia]. }
    intros C i Hi. apply (G rows 0%nat off_f (fun j => eq_refl)); [|exact C|exact Hi]. apply reads_of, fg_blank. lia.
  Qed.
  Lemma fg_expose k f : nth_error rows k = Some f -> f_sg f = SegStart -> table_row e (Z.of_nat k + 1) =
    [(f_i0 f * fz (2 ^ 32) + f_i1 f)%fr; f_skr f; fz (kind_number (f_pt f)); f_s1 f; f_s0 f; f_nv f; f_ov f] /\ exposes e (table_row e (Z.of_nat k + 1)).
  Proof.
    intros N S. assert (L : (k < List.length rows)%nat) by (apply nth_error_Some; congruence). pose proof (fo_usable e n F) as Hu.
    assert (N' : nth_error rows (Z.to_nat (Z.of_nat k + 1 - 1)) = Some f) by (replace (Z.to_nat (Z.of_nat k + 1 - 1)) with k by lia; exact N).
    pose proof (fg_view (Z.of_nat k + 1) f ltac:(lia) N') as V. pose proof (fg_reads (Z.of_nat k + 1) f ltac:(lia) N') as R. split.
    - unfold table_row. rewrite (start_exposed e _ (f_pt f)); [|lia|apply V|apply V|rewrite (rd_sg _ _ _ R); exact S|apply R].
      rewrite (rd_i0 _ _ _ R), (rd_i1 _ _ _ R), (rd_skr _ _ _ R), (rd_s0 _ _ _ R), (rd_s1 _ _ _ R), (rd_nv _ _ _ R), (rd_ov _ _ _ R). reflexivity.
    - exists (Z.of_nat k + 1). split; [|reflexivity]. apply (fix_enabled e n _ F). lia.
  Qed.
  Hypothesis PZ : poseidon_hit e f0 f0 (fdom DPair) (ZERO_PAIR_HASH H).
  Hypothesis B15 : accepts e bytes_lookup [f0; fz 15].
  Hypothesis B3 : accepts e bytes_lookup [f0; fz 3].
  Hypothesis R0 : accepts e fr_rlc_lookup [f0; f0].
  Hypothesis Tab : exists t, 0 <= t < eusable e /\ efix e SEL t = f0 /\
    forall c, In c [BR_value; BR_index; BR_rlc; CR_value; CR_rlc; KB_value; KB_index; KB_bit] -> eadv e c t = f0.
  Hypothesis Dum : exists t, 0 <= t < eusable e /\ Forall (fun q => eval e t q = f0) poseidon_table.
  Hypothesis BR : sat e (circuit_of byte_representation_configure).
  Hypothesis CR : sat e (circuit_of canonical_representation_configure).
  Hypothesis KB : sat e (circuit_of key_bit_configure).
  Theorem rows_sat : (forall i, 1 <= i <= m -> row_ok H e i) -> sat e (circuit_of (circuit H)).
  Proof.
    intros Rows. pose proof (fo_rows e n F) as Hn. pose proof (fo_usable e n F) as Hu.
    assert (Vw : forall i, exists w, view e i w).
    { intros i. destruct (Z_lt_dec i 1); [eexists; apply fg_blank; lia|]. destruct (Z_lt_dec i (1 + m)).
      - destruct (nth_error rows (Z.to_nat (i - 1))) as [f|] eqn:Q; [|apply nth_error_None in Q; lia]. eexists. apply (fg_view i f); [lia|exact Q].
      - destruct (Z_lt_dec i n); [eexists; apply fg_pad; lia|eexists; apply fg_blank; lia]. }
    apply (whole_sat H e n F HnN); try assumption.
    - intros j _. destruct (Vw j) as (w & V). apply V.
    - intros j _. destruct (Vw j) as (w & V). apply V.
    - intros j _. destruct (Vw j) as (w & V). apply V.
    - intros k j _ _. destruct (Vw j) as (w & V). apply V.
    - intros i Hi. destruct (Z_lt_dec i (1 + m)); [apply Rows; lia|]. apply pad_ok; try assumption.
      + apply fg_pad. lia.
      + apply fg_start. lia.
    - intros i _ No. pose proof (fg_blank i No) as V. constructor; [rewrite (vw_sg _ _ _ V)|rewrite (vw_pa _ _ _ V)|rewrite (vw_pt _ _ _ V)|rewrite (vw_z _ _ _ V)]; reflexivity.
    - pose proof (fg_pad (n - 1) ltac:(lia)) as V. rewrite (start_exposed e (n - 1) AccountDoesNotExist); [|lia|apply V|apply V|apply (vw_sg _ _ _ V)|apply (vw_pt _ _ _ V)].
      rewrite !(vw_iv _ _ _ V), !(vw_sp _ _ _ V), (vw_skr _ _ _ V), (vw_nv _ _ _ V), (vw_ov _ _ _ V).
      unfold final_row. apply f_equal2; [|reflexivity]. cbn [m_iv mrow_of]. change (rval (padding_row H) (iv 0)) with f0. change (rval (padding_row H) (iv 1)) with f0. ring.
  Qed.
End Rows.

(** * The lookup tables *)
Record plan := Plan { pl_32 : list Z; pl_64 : list Z; pl_128 : list Z; pl_frs : list Fr; pl_keys : list Fr; pl_bits : list (Fr * Z * bool); pl_traces : list Trace; pl_rows : list rowf }.
Section Forge.
  Variables (H : Fr -> Fr -> Fr -> Fr) (n : Z) (r : Fr) (p : plan).
  Record plan_ok : Prop := {
    po_n : 2050 <= n < 2 ^ 62;
    po_rows : Z.of_nat (List.length (pl_rows p)) + 2 <= n;
    po_bytes : byte_repr_n_rows (pl_32 p) (pl_64 p) (pl_128 p) (pl_frs p) <= n;
    po_frs : Forall (fun x => val x < 256 ^ 31) (pl_frs p);
    po_keys : Z.of_nat (List.length (pl_keys p)) < n / 32;
    po_bits : Z.of_nat (List.length (pl_bits p)) < n;
    po_traces : Z.of_nat (List.length (pl_traces p)) < n;
    po_zero : In 0 (pl_128 p); po_zero_key : In f0 (pl_keys p);
    po_zero_hash : In ((f0, f0), fdom DPair, H f0 f0 (fdom DPair)) (pl_traces p);
    po_true : Forall (fun t : Trace => snd t = H (fst (fst (fst t))) (snd (fst (fst t))) (snd (fst t))) (pl_traces p);
    po_bit : Forall (fun l => 0 <= snd (fst l) < 256 /\ snd l = Z.testbit (val (fst (fst l))) (snd (fst l)) /\ In (fst (fst l)) (pl_keys p)) (pl_bits p) }.
  Definition fg_br : list write := match byte_repr_assign r (pl_32 p) (pl_64 p) (pl_128 p) (pl_frs p) with Some ws => ws | None => [] end.
  Definition fg_kb : list write := match key_bit_assign (pl_bits p) with Some ws => ws | None => [] end.
  Definition fg_tr (i : Z) : Trace := nth (Z.to_nat i) (pl_traces p) no_trace.
  Definition fg_on (i : Z) : bool := i <? Z.of_nat (List.length (pl_traces p)).
  Definition fg_adv (c : acol) (i : Z) : Fr :=
    if poseidon_col c then if fg_on i then match c with P_hash => snd (fg_tr i) | P_left => fst (fst (fst (fg_tr i))) | P_right => snd (fst (fst (fg_tr i))) | P_domain => snd (fst (fg_tr i)) | P_head => f1 | _ => f0 end else f0
    else if mu_col (A c) then rval (fg_row H n (pl_rows p) i) c
    else if in_dec acol_eq_dec c BR_cols then cell fg_br (A c) i
    else if in_dec acol_eq_dec c CR_cols then cr_cell r (pl_keys p) n (A c) i
    else if in_dec acol_eq_dec c KB_cols then cell fg_kb (A c) i else f0.
  Definition forged : env := mkEnv (n + 10) (n + 5) fg_adv (fun c i => match c with P_q_enable => if fg_on i then f1 else f0 | _ => fixed_cell n c i end) r.
  Notation e := forged.
  Hypothesis OK : plan_ok.
  Lemma pow62 : n + 10 < 2 ^ 64.
  Proof. pose proof (po_n OK). assert (2 ^ 62 < 2 ^ 63 /\ 2 ^ 63 < 2 ^ 64) by (split; reflexivity). lia. Qed.
  Lemma fg_fixed : fixed_ok e n.
  Proof. pose proof (po_n OK). pose proof pow62. split; cbn [forged eN eusable efix]; try lia. intros c i Hc _. destruct c; try reflexivity. contradiction. Qed.
  Lemma fg_br_some : byte_repr_assign r (pl_32 p) (pl_64 p) (pl_128 p) (pl_frs p) = Some fg_br.
  Proof.
    unfold fg_br. destruct (byte_repr_assign _ _ _ _ _) eqn:Q; [reflexivity|]. exfalso. apply byte_repr_panics in Q. pose proof (po_frs OK) as B.
    apply Exists_exists in Q. destruct Q as (x & I1 & I2). rewrite Forall_forall in B. specialize (B x I1). lia.
  Qed.
  Lemma fg_kb_some : key_bit_assign (pl_bits p) = Some fg_kb.
  Proof.
    unfold fg_kb, key_bit_assign. assert (X : exists rows, all_some kb_row (pl_bits p) = Some rows); [|destruct X as (rows & ->); reflexivity].
    pose proof (po_bit OK) as B. induction B as [|[[v x] b] l (B1 & B2 & _) B IH]; [eexists; reflexivity|]. cbn [fst snd] in *. destruct IH as (rows & E).
    destruct (kb_row_some v x b B1 B2) as (rw & R). cbn [all_some]. rewrite R, E. eexists. reflexivity.
  Qed.
  Lemma fg_BR : holds e BR_cols fg_br.
  Proof. intros c i Hc _. cbn [forged eadv]. unfold fg_adv. destruct (in_dec acol_eq_dec c BR_cols); [|contradiction]. cbn in Hc. repeat (destruct Hc as [<-|Hc]; [reflexivity|]). destruct Hc. Qed.
  Lemma fg_CR c i : In c CR_cols -> 0 <= i < eN e -> eadv e c i = cr_cell (echal e) (pl_keys p) n (A c) i.
  Proof. intros Hc _. cbn [forged eadv echal]. unfold fg_adv. cbn in Hc. repeat (destruct Hc as [<-|Hc]; [reflexivity|]). destruct Hc. Qed.
  Lemma fg_KB : holds e KB_cols fg_kb.
  Proof. intros c i Hc _. cbn [forged eadv]. unfold fg_adv. cbn in Hc. repeat (destruct Hc as [<-|Hc]; [reflexivity|]). destruct Hc. Qed.
  Lemma fg_MU c i : mu_col (A c) = true -> eadv e c i = rval (fg_row H n (pl_rows p) i) c.
  Proof. intros Hc. cbn [forged eadv]. unfold fg_adv. rewrite Hc. destruct c; try discriminate Hc; reflexivity. Qed.
  Lemma fg_hits l rr d h : poseidon_hit e l rr d h <-> In ((l, rr), d, h) (pl_traces p).
  Proof.
    split.
    - intros (t & Ht & Q & A1 & A2 & A3 & A4 & A5 & A6). cbn [forged efix eadv] in *. unfold fg_adv, fg_on, fg_tr in *. cbn [poseidon_col] in *.
      destruct (t <? Z.of_nat (List.length (pl_traces p))) eqn:E; [|discriminate Q]. apply Z.ltb_lt in E. cbn [eusable] in Ht. subst.
      assert (In (nth (Z.to_nat t) (pl_traces p) no_trace) (pl_traces p)) by (apply nth_In; lia). destruct (nth (Z.to_nat t) (pl_traces p) no_trace) as [[[? ?] ?] ?]. exact H0.
    - intros Hin. destruct (In_nth _ _ no_trace Hin) as (k & Hk & Ek). exists (Z.of_nat k). cbn [forged efix eadv eusable]. unfold fg_adv, fg_on, fg_tr. cbn [poseidon_col].
      rewrite (proj2 (Z.ltb_lt (Z.of_nat k) _) (inj_lt _ _ Hk)). rewrite Nat2Z.id, Ek. cbn [fst snd]. pose proof (po_traces OK). pose proof (inj_lt _ _ Hk : Z.of_nat k < Z.of_nat (List.length (pl_traces p))).
      repeat split; try reflexivity; lia.
  Qed.
  Lemma fg_dummy : exists t, 0 <= t < eusable e /\ Forall (fun q => eval e t q = f0) poseidon_table.
  Proof.
    pose proof (po_n OK) as Hn. pose proof (po_traces OK) as Ht. exists n. split; [cbn [forged eusable]; lia|].
    assert (Off : fg_on n = false) by (apply Z.ltb_ge; lia).
    assert (C : forall c, poseidon_col c = true -> eval e n (cur c) = f0).
    { intros c Hc. rewrite eval_cur by (cbn [forged eN]; lia). cbn [forged eadv]. unfold fg_adv. rewrite Hc, Off. reflexivity. }
    assert (Cf : eval e n (fcur P_q_enable) = f0).
    { rewrite eval_fcur by (cbn [forged eN]; lia). cbn [forged efix]. rewrite Off. reflexivity. }
    unfold poseidon_table. repeat constructor; first [exact Cf|apply C; reflexivity].
  Qed.
  Theorem fg_tables : tables e (pl_traces p) (pl_bits p) (pl_32 p) (pl_64 p) (pl_128 p) (pl_frs p) (pl_keys p).
  Proof.
    pose proof fg_fixed as F. pose proof (byte_repr_one e n F _ _ _ _ _ fg_br_some fg_BR (po_bytes OK)) as B. pose proof (po_n OK) as Hn.
    constructor.
    - intros. apply fg_hits. assumption.
    - intros v x b. apply (key_bit_listed e n F (pl_bits p) fg_kb (kb_seq_cells _ _ fg_kb_some) fg_KB); [|apply (po_bits OK)].
      eapply Forall_impl; [|apply (po_bit OK)]. cbv beta. intros l (X & _). lia.
    - intros v Hv. apply (root_listed e n F (pl_keys p)); [apply (po_keys OK)|cbn [forged eN]; lia|apply fg_CR|exact Hv].
    - intros x Hx Rx. apply (B 4%nat x); [unfold listed; tauto|exact Rx].
    - intros x Hx Rx. apply (B 8%nat x); [unfold listed; tauto|exact Rx].
    - intros x Hx Rx. apply (B 16%nat x); [unfold listed; tauto|exact Rx].
    - intros v Hv. destruct (B 31%nat (val v)) as [_ B2].
      + unfold listed. do 3 right. split; [reflexivity|]. eauto.
      + pose proof (val_range v). split; [lia|]. pose proof (po_frs OK) as X. rewrite Forall_forall in X. apply X, Hv.
      + rewrite fz_val in B2. exact B2.
    - apply (zero_prefix e n F _ _ _ _ _ fg_br_some fg_BR (po_bytes OK)).
  Qed.
  Notation m := (Z.of_nat (List.length (pl_rows p))).
  Lemma fg_zero_row t : t = 0 \/ n < t -> forall c, In c [BR_value; BR_index; BR_rlc; CR_value; CR_rlc; KB_value; KB_index; KB_bit] -> eadv e c t = f0.
  Proof.
    intros Ht c Hc. pose proof (po_n OK) as Hn. pose proof (po_bytes OK) as Hb. pose proof (po_bits OK) as Hk. pose proof fg_br_some as Bs. pose proof fg_kb_some as Ks.
    assert (K : In c [BR_value; BR_index; BR_rlc] \/ In c [CR_value; CR_rlc] \/ In c [KB_value; KB_index; KB_bit]) by (cbn [In] in Hc |- *; intuition).
    assert (X : forall (rows : list row) (c : acol), Z.of_nat (List.length rows) <= n -> cell (emit 1 rows) (A c) t = f0).
    { intros rows c' L. rewrite cell_emit. replace (in_range 1 t (1 + Z.of_nat (List.length rows))) with false by (symmetry; apply in_range_false; lia). reflexivity. }
    cbn [forged eadv]. destruct K as [K|[K|K]].
    - transitivity (cell fg_br (A c) t); [cbn [In] in K; unfold fg_adv; destruct K as [<-|[<-|[<-|[]]]]; reflexivity|].
      unfold byte_repr_assign in Bs. destruct (br_strings _ _ _ _) as [ss|] eqn:Q; [|discriminate Bs]. apply some_eq in Bs. rewrite <- Bs.
      pose proof (rows_count e _ _ _ _ ss Q) as Cn. change (echal e) with r in Cn. set (rows := flat_map (fun bs => br_bytes_rows r bs 0 f0 f0) ss) in *.
      specialize (X rows c ltac:(lia)). unfold cell in *. cbn [wfind]. destruct (wfind (emit 1 rows) (A c) t); [exact X|]. destruct (col_eq_dec (A c) (Fx BR_is_first)) as [Y|]; [discriminate Y|reflexivity].
    - transitivity (cr_cell r (pl_keys p) n (A c) t); [cbn [In] in K; unfold fg_adv; destruct K as [<-|[<-|[]]]; reflexivity|].
      unfold cr_cell. replace (in_range 1 t _) with false; [reflexivity|]. symmetry. apply in_range_false. pose proof (Z_div_mod_eq_full n 32). pose proof (Z.mod_pos_bound n 32 ltac:(lia)). lia.
    - transitivity (cell fg_kb (A c) t); [cbn [In] in K; unfold fg_adv; destruct K as [<-|[<-|[<-|[]]]]; reflexivity|].
      unfold key_bit_assign in Ks. destruct (all_some kb_row (pl_bits p)) as [rows|] eqn:Q; [|discriminate Ks]. apply some_eq in Ks. rewrite <- Ks. apply X. apply all_some_len in Q. lia.
  Qed.
  Lemma fg_br_sat : sat e (circuit_of byte_representation_configure).
  Proof. apply (byte_repr_satisfied e n fg_fixed (pl_32 p) (pl_64 p) (pl_128 p) (pl_frs p) fg_br fg_br_some fg_BR). Qed.
  Lemma fg_cr_sat : sat e (circuit_of canonical_representation_configure).
  Proof. pose proof (po_n OK). apply (canonical_satisfied e n fg_fixed (pl_keys p)); [apply (po_keys OK)|cbn [forged eN]; lia|exact fg_CR]. Qed.
  Lemma fg_kb_sat : sat e (circuit_of key_bit_configure).
  Proof.
    pose proof (po_n OK). pose proof fg_fixed as F. apply (key_bit_satisfied e n F (pl_bits p) fg_kb (kb_seq_cells _ _ fg_kb_some) fg_KB).
    + eapply Forall_impl; [|apply (po_bit OK)]. cbv beta. intros l (X & _). lia.
    + intros v k Hv Hk. apply (canonical_listed e n F (pl_keys p)); try assumption; [apply (po_keys OK)|cbn [forged eN]; lia|exact fg_CR|].
      destruct Hv as [->|Hv]; [apply (po_zero_key OK)|]. apply in_map_iff in Hv. destruct Hv as (l & <- & Hl). pose proof (po_bit OK) as X. rewrite Forall_forall in X. apply (X l Hl).
    + rewrite !fg_CR by (cbn [forged eN]; cbn; tauto || lia). split; reflexivity.
  Qed.
  Theorem fg_sat : (forall i, 1 <= i <= m -> row_ok H e i) -> sat e (circuit_of (circuit H)).
  Proof.
    pose proof fg_fixed as F. pose proof fg_tables as T. pose proof (po_n OK) as Hn. apply (rows_sat H e n (pl_rows p) F).
    - cbn [forged eN]. lia.
    - exact fg_MU.
    - apply (po_rows OK).
    - apply fg_hits. apply (po_zero_hash OK).
    - apply (tb_128 _ _ _ _ _ _ _ _ T 0 (po_zero OK)). lia.
    - apply (tb_zero _ _ _ _ _ _ _ _ T (po_zero OK)).
    - rewrite <- (rlc_fr_zero (echal e)) at 2. apply (tb_root _ _ _ _ _ _ _ _ T). apply (po_zero_key OK).
    - exists 0. split; [cbn [forged eusable]; lia|]. split; [apply (zero_sel_off e n F); cbn [forged eN]; lia|]. apply fg_zero_row. auto.
    - exact fg_dummy.
    - exact fg_br_sat.
    - exact fg_cr_sat.
    - exact fg_kb_sat.
  Qed.
  Theorem fg_ok : chain_ok H e off_f (pl_rows p) -> circuit_ok H e n.
  Proof.
    intros C. assert (Rows : forall i, 1 <= i <= m -> row_ok H e i) by (pose proof (po_n OK); apply (fg_chain H e n (pl_rows p) fg_MU (po_rows OK) C)). split; [exact fg_fixed|exact (fg_sat Rows)| |].
    - intros l rr d h Hh. apply fg_hits in Hh. pose proof (po_true OK) as X. rewrite Forall_forall in X. specialize (X _ Hh). cbn [fst snd] in X. symmetry. exact X.
    - exact (byte_repr_anchor e n fg_fixed _ _ _ _ _ fg_br_some fg_BR).
  Qed.
End Forge.
