(* C47: two updates of the table of HonestCase.v, swapped. *)
From Coq Require Import ZArith List Bool Lia Permutation.
From Verif Require Import Pocklington Fr Query Builder BuilderProofs Gadgets MptUpdate Fixed Bytes GadgetProofs UpdateRows UpdateSound TrieSpec Util Types TypesProofs Assign AssignProofs UpdateAssign MptAssign MptModes GadgetMain GadgetMain2 UpdateProps MptCases MptRows BlocksOk BlockRows RowCells HonestPath HonestAssign TableSpec HonestSpec HonestMain HonestCase ClaimTable Splice.
Import ListNotations.
Open Scope Z_scope.

Section Two.
  Variables (H : Fr -> Fr -> Fr -> Fr) (e : env) (n : Z).
  Hypothesis F : fixed_ok e n.
  Hypothesis SAT : sat e (circuit_of (circuit H)).
  Lemma not_blank_start i : 1 <= i < n -> table_row e i <> blank_row -> sg e i = SegStart.
  Proof.
    intros Hi N. destruct (sg e i) eqn:S; try reflexivity; exfalso; apply N; apply (inner_rows H e n F SAT); try (apply (proj2 (fix_enabled e n i F)); exact Hi); rewrite S; discriminate.
  Qed.
  Lemma exposed_start row : exposes e row -> row <> blank_row -> exists i, 1 <= i < n /\ sg e i = SegStart /\ table_row e i = row.
  Proof.
    intros (i & En & E) N. apply (proj1 (fix_enabled e n i F)) in En. exists i. split; [exact En|]. split; [|exact E]. apply not_blank_start; [exact En|congruence].
  Qed.
  (* two claims of different accounts, neither of them padding, are in two consecutive blocks *)
  Lemma two_blocks r1 r2 : exposes e r1 -> exposes e r2 -> hd f0 r1 <> hd f0 r2 -> hd f0 r1 <> f0 -> hd f0 r2 <> f0 ->
    exists j b1 b2, consecutive e n j [b1; b2] /\ table_row e (b_row b1) <> table_row e (b_row b2) /\ table_row e (b_row b1) <> blank_row /\ table_row e (b_row b2) <> blank_row /\ In r1 [table_row e (b_row b1); table_row e (b_row b2)] /\ In r2 [table_row e (b_row b1); table_row e (b_row b2)].
  Proof.
    intros X1 X2 N12 N1 N2. assert (B1 : r1 <> blank_row) by (intros ->; apply N1; reflexivity). assert (B2 : r2 <> blank_row) by (intros ->; apply N2; reflexivity).
    destruct (exposed_start r1 X1 B1) as (i1 & I1 & S1 & E1). destruct (exposed_start r2 X2 B2) as (i2 & I2 & S2 & E2). destruct (last_start0 H e n F SAT) as [S3 E3].
    assert (N : r1 <> r2) by congruence.
    assert (L1 : i1 < n - 1) by (destruct (Z.eq_dec i1 (n - 1)) as [->|]; [exfalso; unfold table_row in E1; rewrite E3 in E1; apply N1; rewrite <- E1; reflexivity|lia]).
    assert (L2 : i2 < n - 1) by (destruct (Z.eq_dec i2 (n - 1)) as [->|]; [exfalso; unfold table_row in E2; rewrite E3 in E2; apply N2; rewrite <- E2; reflexivity|lia]).
    destruct (Z_lt_le_dec i1 i2) as [L|L].
    - exists i1, (Block e i1 (i2 - i1)), (Block e i2 (n - 1 - i2)). cbn [consecutive b_table b_row b_rows In]. replace (i1 + (i2 - i1)) with i2 by lia.
      split; [|rewrite E1, E2; auto 10]. repeat split; cbn [b_table b_row b_rows]; try lia; replace (i1 + (i2 - i1)) with i2 by lia; replace (i2 + (n - 1 - i2)) with (n - 1) by lia; assumption.
    - assert (i2 < i1) by (destruct (Z.eq_dec i1 i2); [congruence|lia]).
      exists i2, (Block e i2 (i1 - i2)), (Block e i1 (n - 1 - i1)). cbn [consecutive b_table b_row b_rows In]. replace (i2 + (i1 - i2)) with i1 by lia.
      split; [|rewrite E1, E2; auto 10]. repeat split; cbn [b_table b_row b_rows]; try lia; replace (i2 + (i1 - i2)) with i1 by lia; replace (i1 + (n - 1 - i1)) with (n - 1) by lia; assumption.
  Qed.
End Two.

Theorem splice_case : exists e e2 j b1 b2, fixed_ok e 2080 /\ sat e (circuit_of (circuit mix)) /\ consecutive e 2080 j [b1; b2] /\ same_except e e2 j (total [b1; b2]) /\ holds_blocks e2 j [b2; b1] /\
  table_row e (b_row b1) <> table_row e (b_row b2) /\ table_row e (b_row b1) <> blank_row /\ table_row e (b_row b2) <> blank_row.
Proof.
  destruct (honest_case f0) as (proofs & ws & e & traces & Hon & _ & C & En & E & FL & Rm & Ht & PL & S).
  assert (T : (0 < 4)%nat) by lia.
  assert (Fx : fixed_ok e 2080).
  { destruct (assign_inv mix true 4 proofs 2080 f0 ws (fun _ => T) E) as (reprs & lookups & upd & cr & kb & br & P). destruct Rm as (R1 & R2 & R3 & R4). destruct (glue_sizes P En) as (S1 & S2 & _ & _). exact (filled_fixed P e FL ltac:(lia) R2 R4). }
  pose proof (honest_stated mix Hon C T E FL Rm En) as St.
  destruct (St _ (or_introl eq_refl)) as (s1 & Y1 & X1).
  destruct (St _ (or_intror (or_intror (or_intror (or_introl eq_refl))))) as (s2 & Y2 & X2).
  apply proj1 in Y1. apply proj1 in Y2. change (st_address s1 = ad 11) in Y1. change (st_address s2 = ad 14) in Y2.
  assert (Nz : forall a b, fz (ad a) = fz (ad b) -> 0 <= a < 100 -> 0 <= b < 100 -> a = b).
  { intros a b Q Ha Hb. apply fz_inj in Q; [unfold ad in Q; lia| |]; apply small_lt_modulus; unfold ad; lia. }
  destruct (two_blocks mix e 2080 Fx S _ _ X1 X2) as (j & b1 & b2 & Cs & D1 & D2 & D3 & _); try (cbn [encode hd]; rewrite ?Y1, ?Y2; intros Q).
  - apply Nz in Q; lia.
  - apply (Nz 11 0) in Q; lia.
  - apply (Nz 14 0) in Q; lia.
  - assert (Ps : forall l, Forall (fun b => b_table b = e /\ starts_and_ends 2080 b) l -> Forall (fun b => 0 < b_rows b) l) by (intros l; apply Forall_impl; intros b [_ B]; exact (se_rows _ _ B)).
    pose proof (consecutive_own _ _ _ _ Cs) as Own. assert (Pm : Permutation [b1; b2] [b2; b1]) by constructor. pose proof (Permutation_Forall Pm Own) as Own'.
    exists e, (splice e j [b2; b1]), j, b1, b2. split; [exact Fx|]. split; [exact S|]. split; [exact Cs|]. split; [rewrite <- (total_perm _ _ Pm); apply splice_same, Ps, Own'|]. split; [apply splice_holds, Ps, Own'|]. auto.
Qed.
