(* Assigned tables leave rows of the lookup tables unused, so the freedoms of ByteFree.v and CanonFree.v apply to them. *)
From Coq Require Import ZArith String List Bool Lia.
From Verif Require Import Pocklington Fr Query Builder BuilderProofs Gadgets MptUpdate Bytes GadgetProofs Fixed CanonProofs UpdateRows UpdateSound Util Serde Types Lookups LookupMain Assign AssignProofs AssignOk AssignRegion UpdateAssign MptAssign MptModes MptRows MptCases TablesOk BlocksOk PaddingOk GadgetMain GadgetMain2 CircuitOk UpdateProps Splice Retable ByteFree CanonFree SoundCase.
Import ListNotations.
Open Scope Z_scope.

Section Spare.
  Context {H par proofs n r ws reprs lookups upd cr kb br} (P : assigned H par proofs n r ws reprs lookups upd cr kb br).
  Variable e : env.
  Hypothesis FL : filled e r ws.
  Hypothesis Hn : 2049 <= n < eusable e.
  Hypothesis Hu : eusable e <= eN e.
  Hypothesis Hs : eN e < 2 ^ 64.
  Hypothesis En : enough_rows H proofs (n - 2).
  Lemma spare_br : spare_row e n BR_cols.
  Proof.
    destruct (enough_inv H proofs (n - 2) reprs lookups En (as_reprs _ _ _ _ _ _ _ _ _ _ _ _ P) (as_lookups _ _ _ _ _ _ _ _ _ _ _ _ P)) as (_ & _ & _ & L).
    pose proof (as_br _ _ _ _ _ _ _ _ _ _ _ _ P) as B.
    assert (Z0 : forall c i, In c BR_cols -> i < 1 \/ n - 2 <= i -> cell br (A c) i = f0).
    { intros c i Hc Hi. unfold byte_repr_assign in B. destruct (br_strings _ _ _ _) as [ss|] eqn:Q; [|discriminate B]. apply some_eq in B. rewrite <- B.
      assert (K : 1 + Z.of_nat (List.length (flat_map (fun bs => br_bytes_rows r bs 0 f0 f0) ss)) = byte_repr_n_rows (re_u32s reprs) (re_u64s reprs) (re_u128s reprs) (re_frs reprs)).
      { rewrite <- (fl_chal _ _ _ FL). apply (rows_count e). exact Q. }
      change ((Fx BR_is_first, 0, f1) :: emit 1 (flat_map (fun bs => br_bytes_rows r bs 0 f0 f0) ss)) with ([(Fx BR_is_first, 0, f1)] ++ emit 1 (flat_map (fun bs => br_bytes_rows r bs 0 f0 f0) ss)).
      unfold cell. cbn [app wfind]. pose proof (cell_emit 1 (flat_map (fun bs => br_bytes_rows r bs 0 f0 f0) ss) (A c) i) as C. unfold cell in C.
      replace (in_range 1 i (1 + Z.of_nat (List.length (flat_map (fun bs => br_bytes_rows r bs 0 f0 f0) ss)))) with false in C by (symmetry; apply in_range_false; lia).
      destruct (wfind (emit 1 _) (A c) i); [exact C|]. destruct (col_eq_dec (A c) (Fx BR_is_first)) as [X|]; [discriminate X|reflexivity]. }
    split; [lia|]. intros c Hc. rewrite !(filled_br P e FL) by (first [exact Hc|lia]). rewrite !Z0 by (first [exact Hc|lia]). auto.
  Qed.
  Lemma spare_kb : spare_row e n KB_cols.
  Proof.
    destruct (enough_inv H proofs (n - 2) reprs lookups En (as_reprs _ _ _ _ _ _ _ _ _ _ _ _ P) (as_lookups _ _ _ _ _ _ _ _ _ _ _ _ P)) as (_ & _ & L & _).
    split; [lia|]. intros c Hc. rewrite !(filled_kb P e FL) by (first [exact Hc|lia]). assert (I : In (A c) KB_S) by (apply in_map; exact Hc).
    rewrite !(as_kbn _ _ _ _ _ _ _ _ _ _ _ _ P (A c)) by (first [exact I|lia]). rewrite (as_kb0 _ _ _ _ _ _ _ _ _ _ _ _ P (A c) I). auto.
  Qed.
  Lemma blank_cr : Z.of_nat (List.length (mpt_update_keys H proofs)) < n / 32 - 1 -> two_blank e n (mpt_update_keys H proofs).
  Proof. intros L. split; [|exact L|lia]. intros c i Hc Hi. apply (filled_cr P e FL); first [exact Hc|exact Hi|lia]. Qed.
End Spare.

(* a table without updates, of any size *)
Lemma empty_table H n r : 2052 <= n < 2 ^ 62 -> exists e, circuit_ok H e n /\ echal e = r /\ spare_row e n BR_cols /\ spare_row e n KB_cols /\ exists vs, two_blank e n vs.
Proof.
  intros Hn. assert (En2 : enough_rows H [] (n - 2)) by (exists 2050; split; [apply required_empty|lia]). assert (En : enough_rows H [] n) by (exists 2050; split; [apply required_empty|lia]).
  destruct (padding_assigned H true 4 n r ltac:(lia) En) as (ws & E). set (tr := [((f0, f0), fdom DPair, H f0 f0 (fdom DPair))]).
  assert (P6 : 2 ^ 62 < 2 ^ 63 /\ 2 ^ 63 < 2 ^ 64) by (split; reflexivity).
  destruct (fill_env_ok (n + 10) (n + 5) r ws tr n) as (FL & R & PL); [lia|lia|lia|unfold tr; cbn [List.length]; lia|].
  pose proof (fill_hits (n + 10) (n + 5) r ws tr) as Hits.
  assert (EU : eusable (fill_env (n + 10) (n + 5) r ws tr) = n + 5 /\ eN (fill_env (n + 10) (n + 5) r ws tr) = n + 10) by (split; reflexivity).
  remember (fill_env (n + 10) (n + 5) r ws tr) as e eqn:Ee. destruct EU as [EU EN].
  pose proof (padding_sat H true 4 n r ws e ltac:(lia) E FL R En PL) as S.
  destruct (assign_inv H true 4 [] n r ws (fun _ => ltac:(lia)) E) as (reprs & lookups & upd & cr & kb & br & P).
  assert (Fx : fixed_ok e n) by (apply (filled_fixed P e FL); lia).
  assert (Ch : echal e = r) by (rewrite Ee; reflexivity).
  exists e. split; [|split; [exact Ch|split; [|split]]].
  - split; [exact Fx|exact S| |].
    + intros l rr d h Hh. apply Hits in Hh. destruct Hh as [Hh|[]]. injection Hh as <- <- <- <-. reflexivity.
    + assert (HB : holds e BR_cols br) by (intros c i Hc Hi; apply (filled_br P e FL); first [exact Hc|exact Hi|lia]).
      pose proof (as_br _ _ _ _ _ _ _ _ _ _ _ _ P) as Qb. rewrite <- Ch in Qb. exact (byte_repr_anchor e n Fx _ _ _ _ _ Qb HB).
  - apply (spare_br P e FL); first [lia|exact En2].
  - apply (spare_kb P e FL); first [lia|exact En2].
  - exists (mpt_update_keys H []). apply (blank_cr P e FL); try lia.
    assert (64 <= n / 32) by (apply Z.div_le_lower_bound; lia). vm_compute (mpt_update_keys H []). cbn [List.length]. lia.
Qed.

(** * What is accepted *)
Theorem any_entry H n r X m y : 2052 <= n < 2 ^ 62 -> r <> f0 -> fz m <> f0 -> exists e, fixed_ok e n /\ echal e = r /\ sat e (circuit_of (circuit H)) /\
  (forall a b d h, poseidon_hit e a b d h -> H a b d = h) /\ accepts e rlc_lookup [X; fz m; y] /\ accepts e bytes_lookup [X; fz m].
Proof.
  intros Hn Hr Hm. destruct (empty_table H n r Hn) as (e & OK & Ch & SP & _ & _). rewrite <- Ch in Hr. destruct (put_ok H e n X m y OK SP Hr Hm) as (A & B & C & D & _ & E).
  exists (br_put e n X m y). split; [exact A|]. split; [rewrite C; exact Ch|]. split; [exact B|]. split; [|exact E]. intros a b d h Hh. apply (co_poseidon H e n OK). apply D. exact Hh.
Qed.
Theorem any_top_byte H n r v b j : 2052 <= n < 2 ^ 62 -> 2 <= n mod 32 -> val v < 256 ^ 31 -> 0 <= b < 256 -> 248 <= j < 256 -> exists e, fixed_ok e n /\ echal e = r /\ sat e (circuit_of (circuit H)) /\
  (forall a b d h, poseidon_hit e a b d h -> H a b d = h) /\ accepts e canonical_lookup [v; fz 0; fz b] /\ accepts e key_bit_lookup [v; fz j; fb (Z.testbit b (j - 248))].
Proof.
  intros Hn N Hv Hb Hj. destruct (empty_table H n r Hn) as (e & OK & Ch & _ & SP & vs & TB). destruct (top_ok H e n vs v b j (co_fixed H e n OK) (co_sat H e n OK) TB SP N Hv Hb Hj) as (A & B & C & D & _ & E).
  exists (top_put e n vs v b j). split; [exact A|]. split; [rewrite C; exact Ch|]. split; [exact B|]. split; [|exact E]. intros a b0 d h Hh. apply (co_poseidon H e n OK). apply D. exact Hh.
Qed.
Theorem any_zero_bytes H n r v j : 2052 <= n < 2 ^ 62 -> n mod 32 = 0 -> 8 <= j < 256 -> exists e, fixed_ok e n /\ echal e = r /\ sat e (circuit_of (circuit H)) /\
  (forall a b d h, poseidon_hit e a b d h -> H a b d = h) /\ (forall k, 0 <= k < 31 -> accepts e canonical_lookup [v; fz k; fz 0]) /\ accepts e key_bit_lookup [v; fz j; fb false].
Proof.
  intros Hn N Hj. destruct (empty_table H n r Hn) as (e & OK & Ch & _ & SP & vs & TB). destruct (zero_ok H e n vs v j (co_fixed H e n OK) (co_sat H e n OK) TB SP N Hj) as (A & B & C & D & _ & E).
  exists (zero_put e n v j). split; [exact A|]. split; [rewrite C; exact Ch|]. split; [exact B|]. split; [|exact E]. intros a b0 d h Hh. apply (co_poseidon H e n OK). apply D. exact Hh.
Qed.
Lemma fz_byte_inj a b : 0 <= a < 2 ^ 200 -> 0 <= b < 2 ^ 200 -> fz a = fz b -> a = b.
Proof. intros Ha Hb E. apply (f_equal val) in E. rewrite !val_fz in E. assert (2 ^ 200 < modulus) by reflexivity. rewrite !Z.mod_small in E by lia. exact E. Qed.
Theorem canonical_exact H n : 2052 <= n < 2 ^ 62 ->
  ((forall e, fixed_ok e n -> sat e (circuit_of (circuit H)) -> forall v i b, accepts e canonical_lookup [v; i; b] -> exists k, (k < 32)%nat /\ i = fz (Z.of_nat k) /\ b = fz (nth k (be_bytes 32 (val v)) 0)) <-> n mod 32 = 1).
Proof.
  intros Hn. split.
  - intros S. pose proof (Z.mod_pos_bound n 32 ltac:(lia)) as Hm. destruct (Z.eq_dec (n mod 32) 1) as [|N1]; [assumption|exfalso]. destruct (Z.eq_dec (n mod 32) 0) as [N0|N0].
    + destruct (any_zero_bytes H n f0 (fz 256) 8 Hn N0 ltac:(lia)) as (e & A & _ & B & _ & C & _). destruct (S e A B _ _ _ (C 30 ltac:(lia))) as (k & Hk & E1 & E2).
      change 30 with (Z.of_nat 30) in E1. apply fz_byte_inj in E1; [|lia|lia]. apply Nat2Z.inj in E1. subst k. change (nth 30 (be_bytes 32 (val (fz 256))) 0) with 1 in E2. apply fz_byte_inj in E2; lia.
    + destruct (any_top_byte H n f0 f0 1 248 Hn ltac:(lia) ltac:(reflexivity) ltac:(lia) ltac:(lia)) as (e & A & _ & B & _ & C & _). destruct (S e A B _ _ _ C) as (k & Hk & E1 & E2).
      change 0 with (Z.of_nat 0) in E1 at 1. apply fz_byte_inj in E1; [|lia|lia]. apply Nat2Z.inj in E1. subst k. change (nth 0 (be_bytes 32 (val f0)) 0) with 0 in E2. apply fz_byte_inj in E2; lia.
  - intros N1 e F S v i b A. destruct (canonical_sound e n F (circuit H) (conj (fixed_wf e n F) S) ltac:(apply part_right, part_left, part_here) v i b ltac:(lia) A) as (k & Hk & E & B). exists k. auto.
Qed.
Theorem key_bit_exact H n : 2052 <= n < 2 ^ 62 ->
  ((forall e, fixed_ok e n -> sat e (circuit_of (circuit H)) -> forall v i b, accepts e key_bit_lookup [v; i; b] -> exists j, 0 <= j < 256 /\ i = fz j /\ b = fb (Z.testbit (val v) j)) <-> n mod 32 = 1).
Proof.
  intros Hn. assert (Bt : f0 <> f1) by (intros E; apply (f_equal val) in E; vm_compute in E; discriminate E). split.
  - intros S. pose proof (Z.mod_pos_bound n 32 ltac:(lia)) as Hm. destruct (Z.eq_dec (n mod 32) 1) as [|N1]; [assumption|exfalso]. destruct (Z.eq_dec (n mod 32) 0) as [N0|N0].
    + destruct (any_zero_bytes H n f0 (fz 256) 8 Hn N0 ltac:(lia)) as (e & A & _ & B & _ & _ & C). destruct (S e A B _ _ _ C) as (k & Hk & E1 & E2).
      apply fz_byte_inj in E1; [|lia|lia]. subst k. change (Z.testbit (val (fz 256)) 8) with true in E2. exact (Bt E2).
    + destruct (any_top_byte H n f0 f0 1 248 Hn ltac:(lia) ltac:(reflexivity) ltac:(lia) ltac:(lia)) as (e & A & _ & B & _ & _ & C). destruct (S e A B _ _ _ C) as (k & Hk & E1 & E2).
      apply fz_byte_inj in E1; [|lia|lia]. subst k. change (Z.testbit (val f0) 248) with false in E2. change (Z.testbit 1 (248 - 248)) with true in E2. symmetry in E2. exact (Bt E2).
  - intros N1 e F S v i b A. destruct (key_bit_sound e n F (circuit H) (conj (fixed_wf e n F) S) ltac:(apply part_right, part_left, part_here) v i b ltac:(lia) ltac:(apply part_right, part_right, part_left, part_here) A) as (k & Hk & E & B). exists k. auto.
Qed.
Lemma any_entry_len H n r X m y : 2052 <= n < 2 ^ 62 -> r <> f0 -> 1 <= m <= 30 -> exists e, fixed_ok e n /\ echal e = r /\ sat e (circuit_of (circuit H)) /\
  (forall a b d h, poseidon_hit e a b d h -> H a b d = h) /\ accepts e rlc_lookup [X; fz m; y] /\ accepts e bytes_lookup [X; fz m].
Proof. intros Hn Hr Hm. apply any_entry; [exact Hn|exact Hr|]. intros E. change f0 with (fz 0) in E. apply fz_byte_inj in E; lia. Qed.
Theorem entry_added H e n : circuit_ok H e n -> echal e <> f0 -> n < eusable e ->
  (forall c, In c BR_cols -> eadv e c (n - 1) = eadv e c (n - 2) /\ eadv e c n = eadv e c 0) ->
  forall X m y, 1 <= m <= 30 -> exists e', fixed_ok e' n /\ echal e' = echal e /\ sat e' (circuit_of (circuit H)) /\
  (forall a b d h, poseidon_hit e' a b d h <-> poseidon_hit e a b d h) /\ (forall row, exposes e row <-> exposes e' row) /\ accepts e' rlc_lookup [X; fz m; y] /\ accepts e' bytes_lookup [X; fz m].
Proof.
  intros OK Hr Hu SP X m y Hm. assert (M : fz m <> f0) by (intros E; change f0 with (fz 0) in E; apply fz_byte_inj in E; lia).
  destruct (put_ok H e n X m y OK (conj Hu SP) Hr M) as (A & B & C & D & E & G). exists (br_put e n X m y). auto 8.
Qed.
Theorem key_bit_any H n r v j b : 2052 <= n < 2 ^ 62 -> 2 <= n mod 32 -> val v < 256 ^ 31 -> 248 <= j < 256 -> exists e, fixed_ok e n /\ echal e = r /\ sat e (circuit_of (circuit H)) /\
  (forall a b d h, poseidon_hit e a b d h -> H a b d = h) /\ accepts e key_bit_lookup [v; fz j; fb b].
Proof.
  intros Hn N Hv Hj. destruct (any_top_byte H n r v (if b then 255 else 0) j Hn N Hv ltac:(destruct b; lia) Hj) as (e & A & B & C & D & _ & E). exists e. split; [exact A|]. split; [exact B|]. split; [exact C|]. split; [exact D|].
  replace (Z.testbit (if b then 255 else 0) (j - 248)) with b in E; [exact E|]. destruct b; [|symmetry; apply Z.bits_0]. change 255 with (Z.ones 8). symmetry. apply Z.ones_spec_low. lia.
Qed.
