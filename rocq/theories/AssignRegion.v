(* The helper regions as a whole: fixed columns and advice cells of every gadget, in both modes. *)
From Coq Require Import ZArith List Bool Lia.
From Verif Require Import Pocklington Fr Query Builder BuilderProofs Bytes Gadgets GadgetProofs Fixed CanonProofs Assign AssignProofs AssignOk.
Import ListNotations.
Open Scope Z_scope.

(* membership in an explicit list, without search *)
Ltac mem := first [left; reflexivity | right; mem].
Ltac fo := repeat first [apply Forall_nil | apply Forall_cons; [cbn [fst]; mem|]].
Definition only (S : list col) (ws : list write) : Prop := Forall (fun w => In (fst (fst w)) S) ws.
Definition rows_only (S : list col) (rows : list row) : Prop := Forall (Forall (fun p => In (fst p) S)) rows.
Lemma only_none S ws c i : only S ws -> ~ In c S -> wfind ws c i = None.
Proof.
  induction 1 as [|[[c' i'] v] ws H1 H2 IH]; intros N; [reflexivity|]. cbn. rewrite IH by exact N.
  destruct (col_eq_dec c c') as [->|]; [contradiction|reflexivity].
Qed.
Lemma emit_only S rows : rows_only S rows -> forall s, only S (emit s rows).
Proof.
  induction 1 as [|r rows H1 H2 IH]; intros s; [constructor|]. cbn [emit]. apply Forall_app. split; [|apply IH].
  apply Forall_map. exact H1.
Qed.
Lemma rows_only_flat {X} S (f : X -> list row) l : (forall x, In x l -> rows_only S (f x)) -> rows_only S (flat_map f l).
Proof. induction l as [|x l IH]; intros H; [constructor|]. cbn. apply Forall_app. split; [apply H; cbn; auto|apply IH; intros; apply H; cbn; auto]. Qed.
Lemma only_place S regions : Forall (fun p => forall s, only S (snd p s)) regions -> forall s, only S (place s regions).
Proof. induction 1 as [|[h b] r H1 H2 IH]; intros s; [constructor|]. cbn. apply Forall_app. split; [apply H1|apply IH]. Qed.

Definition BR_S := Fx BR_is_first :: map A BR_cols.
Definition CR_S := [Fx CR_index_is_zero; Fx CR_index_is_31; Fx CR_index; Fx CR_modulus_byte] ++ map A CR_cols.
Definition KB_S := map A KB_cols.
Definition BB_S := [Fx BB_byte; Fx BB_index; Fx BB_bit].
Lemma br_rows_only r bs : forall k v rl, rows_only BR_S (br_bytes_rows r bs k v rl).
Proof. induction bs as [|b bs IH]; intros; constructor; [|apply IH]. fo. Qed.
Lemma br_only r u32s u64s u128s frs ws : byte_repr_assign r u32s u64s u128s frs = Some ws -> only BR_S ws.
Proof.
  unfold byte_repr_assign. destruct (br_strings _ _ _ _); [|discriminate]. intros E. apply some_inj in E. subst ws.
  constructor; [cbn; tauto|]. apply emit_only. apply rows_only_flat. intros. apply br_rows_only.
Qed.
Lemma flags_only k : Forall (fun p : col * Fr => In (fst p) CR_S) (cr_index_flags k).
Proof. unfold cr_index_flags. destruct (k =? 0); [fo|]. destruct (k =? 31); fo. Qed.
Lemma cr_rows_only r v bs : forall ms k sf rl, rows_only CR_S (cr_value_rows r v bs ms k sf rl).
Proof.
  induction bs as [|b bs IH]; intros [|m ms] k sf rl; try constructor; [|apply IH].
  apply Forall_app. split; [fo|]. apply Forall_app. split; [apply flags_only|fo].
Qed.
Lemma cr_pad_only ms : forall k, rows_only CR_S (cr_padding_rows ms k).
Proof.
  induction ms as [|m ms IH]; intros k; constructor; [|apply IH].
  apply Forall_app. split; [fo|]. apply Forall_app. split; [apply flags_only|fo].
Qed.
Lemma cr_only r vs n ws : canonical_assign r vs n = Some ws -> only CR_S ws.
Proof.
  unfold canonical_assign. destruct (_ <=? _); [|discriminate]. intros E. apply some_inj in E. subst ws. apply emit_only. apply Forall_app. split.
  - apply rows_only_flat. intros. apply cr_rows_only.
  - apply rows_only_flat. intros. apply cr_pad_only.
Qed.
Lemma cr_par_only th r vs n ws : canonical_assign_par th r vs n = Some ws -> only CR_S ws.
Proof.
  unfold canonical_assign_par. destruct (_ =? 0)%nat; [discriminate|]. intros E. apply some_inj in E. subst ws.
  apply only_place. destruct (firstn _ _) as [|c cs]; [constructor|]. constructor.
  - intros s. apply emit_only. apply rows_only_flat. intros. apply cr_rows_only.
  - apply Forall_map. apply Forall_forall. intros x _ s. apply emit_only. apply rows_only_flat. intros. apply cr_rows_only.
Qed.
Lemma kb_row_only l rw : kb_row l = Some rw -> Forall (fun p => In (fst p) KB_S) rw.
Proof.
  destruct l as [[v x] b]. unfold kb_row. destruct (_ <? _); [|discriminate]. destruct (Bool.eqb _ _); [|discriminate].
  intros E. apply some_inj in E. subst rw. fo.
Qed.
Lemma all_some_spec {X Y} (f : X -> option Y) l ys : all_some f l = Some ys -> Forall2 (fun x y => f x = Some y) l ys.
Proof.
  revert ys. induction l as [|x l IH]; intros ys E; cbn in E; [apply some_inj in E; subst; constructor|].
  destruct (f x) eqn:Ex; [|discriminate]. destruct (all_some f l); [|discriminate]. apply some_inj in E. subst. constructor; auto.
Qed.
Lemma all_some_rows_only ls rows : all_some kb_row ls = Some rows -> rows_only KB_S rows.
Proof.
  intros E. apply all_some_spec in E. induction E; constructor; [eapply kb_row_only; eassumption|assumption].
Qed.
Lemma kb_only ls ws : key_bit_assign ls = Some ws -> only KB_S ws.
Proof.
  unfold key_bit_assign. destruct (all_some kb_row ls) as [rows|] eqn:Q; [|discriminate]. intros E. apply some_inj in E. subst ws.
  apply emit_only. apply (all_some_rows_only ls). exact Q.
Qed.
Lemma rows_only_in S rows cs c : rows_only S rows -> concat cs = rows -> In c cs -> rows_only S c.
Proof.
  intros H E Hin. apply Forall_forall. intros r Hr. unfold rows_only in H. rewrite Forall_forall in H. apply H. rewrite <- E.
  apply in_concat. exists c. auto.
Qed.
Lemma kb_par_only th ls ws : key_bit_assign_par th ls = Some ws -> only KB_S ws.
Proof.
  unfold key_bit_assign_par. destruct (Nat.eqb_spec (chunk_size (length ls) th) 0); [discriminate|].
  destruct (all_some kb_row ls) as [rows|] eqn:Q; [|discriminate]. intros E. apply some_inj in E. subst ws.
  apply all_some_rows_only in Q. set (k := chunk_size _ _) in *.
  assert (P : concat (chunks k rows) = rows) by (apply chunks_concat; lia).
  assert (HC : forall c, In c (firstn th (chunks k rows)) -> rows_only KB_S c).
  { intros c Hc. apply (rows_only_in KB_S rows (chunks k rows) c Q P). rewrite <- (firstn_skipn th (chunks k rows)). apply in_or_app. left. exact Hc. }
  apply only_place. destruct (firstn th (chunks k rows)) as [|c cs]; [constructor|]. constructor.
  - intros s. apply emit_only. apply HC. cbn. auto.
  - apply Forall_map. apply Forall_forall. intros x Hx s. apply emit_only. apply HC. cbn. auto.
Qed.
Lemma bb_only : only BB_S byte_bit_assign.
Proof.
  apply emit_only. apply rows_only_flat. intros. apply Forall_map. apply Forall_forall. intros. fo.
Qed.
Lemma sel_only n : only [Fx SEL] (selector_writes n).
Proof. unfold only, selector_writes. apply Forall_map. apply Forall_forall. intros. cbn. auto. Qed.

Lemma wfind_final n c i : wfind (final_row_write n) c i = if col_eq_dec c (Fx FINAL) then if i =? n - 1 then Some f1 else None else None.
Proof. reflexivity. Qed.

(** * Fixed columns (both modes) *)
Lemma cr_fixed_cell r vs n c i : 0 <= n -> In (Fx c) CR_S -> cr_cell r vs n (Fx c) i = fixed_cell n c i.
Proof.
  intros Hn Hc. unfold cr_cell. destruct (in_range 1 i (1 + 32 * (n / 32))) eqn:R.
  2:{ cbn in Hc. repeat (destruct Hc as [Hc|Hc]; [try discriminate Hc; injection Hc as <-; cbn [fixed_cell]; rewrite R; reflexivity|]). contradiction. }
  pose proof (Z.mod_pos_bound (i - 1) 32 ltac:(lia)) as M.
  assert (E : Z.of_nat (Z.to_nat ((i - 1) mod 32)) = (i - 1) mod 32) by lia.
  assert (MB : modulus_byte ((i - 1) mod 32) = nth (Z.to_nat ((i - 1) mod 32)) cr_modulus_bytes 0).
  { rewrite <- E at 1. apply modulus_byte_nth. lia. }
  unfold cr_row_of, rcell. rewrite E. unfold cr_index_flags.
  cbn in Hc. repeat (destruct Hc as [Hc|Hc]; [try discriminate Hc; injection Hc as <-; cbn [fixed_cell]; rewrite R, ?MB; cbn [andb]|]); try contradiction;
    destruct (Z.eqb_spec ((i - 1) mod 32) 0) as [E0|E0]; try rewrite E0; destruct (Z.eqb_spec ((i - 1) mod 32) 31) as [E1|E1]; try rewrite E1; try reflexivity; try lia.
Qed.
Lemma bb_fixed_cell c i : In (Fx c) BB_S -> cell byte_bit_assign (Fx c) i = fixed_cell 0 c i.
Proof.
  intros Hc. unfold cell. rewrite wfind_bb. destruct (in_range 1 i 2049) eqn:R.
  - apply in_range_true in R. cbn in Hc. repeat (destruct Hc as [Hc|Hc]; [injection Hc as <-; cbn [fixed_cell];
      (replace (in_range 1 i 2049) with true by (symmetry; apply in_range_true; exact R))|]); try contradiction; try reflexivity.
    cbn. rewrite land_shift_testbit; [reflexivity|]. apply Z.mod_pos_bound. lia.
  - cbn in Hc. repeat (destruct Hc as [Hc|Hc]; [injection Hc as <-; cbn [fixed_cell]; rewrite R; reflexivity|]). contradiction.
Qed.
Lemma br_fixed_cell r u32s u64s u128s frs ws i : byte_repr_assign r u32s u64s u128s frs = Some ws ->
  cell ws (Fx BR_is_first) i = fixed_cell 0 BR_is_first i.
Proof.
  unfold byte_repr_assign. destruct (br_strings _ _ _ _); [|discriminate]. intros E. apply some_inj in E. subst ws.
  unfold cell. cbn [wfind]. rewrite wfind_emit_none.
  2:{ apply Forall_forall. intros rw Hrw. apply in_flat_map in Hrw. destruct Hrw as (bs & _ & Hrw).
      assert (G : forall bs k v rl, In rw (br_bytes_rows r bs k v rl) -> rfind rw (Fx BR_is_first) = None).
      { clear. induction bs as [|b bs IH]; intros k v rl H; [contradiction|]. destruct H as [<-|H]; [reflexivity|eapply IH; exact H]. }
      eapply G. exact Hrw. }
  cbn [fixed_cell]. destruct (i =? 0); reflexivity.
Qed.

Definition disjb (S1 S2 : list col) : bool := forallb (fun a => forallb (fun b => if col_eq_dec a b then false else true) S2) S1.
Lemma disj S1 S2 c : disjb S1 S2 = true -> In c S1 -> ~ In c S2.
Proof.
  unfold disjb. intros D H1 H2. rewrite forallb_forall in D. specialize (D c H1). rewrite forallb_forall in D. specialize (D c H2).
  destruct (col_eq_dec c c); congruence.
Qed.
Ltac not_in := let H := fresh in intros H; cbn in H; repeat (destruct H as [H|H]; [discriminate H|]); exact H.
Ltac skip_app L := rewrite wfind_app, (only_none _ _ _ _ L) by not_in.

Section Region.
  Variables (r : Fr) (u32s u64s u128s : list Z) (frs keys : list Fr) (lookups : list (Fr * Z * bool)) (n : Z).
  Hypothesis Hn : 32 <= n.
  Hypothesis Hkeys : Z.of_nat (length keys) <= n / 32.
  (* one statement for both modes: the three gadget write lists are known to have the right cells *)
  Variables cr kb br ws : list write.
  Hypothesis Hcr : only CR_S cr.
  Hypothesis Hcell : forall c i, cell cr c i = cr_cell r keys n c i.
  Hypothesis Hkb : only KB_S kb.
  Hypothesis Hbr : byte_repr_assign r u32s u64s u128s frs = Some br.
  Hypothesis Hws : ws = selector_writes n ++ cr ++ kb ++ byte_bit_assign ++ br ++ final_row_write n \/
                   ws = kb ++ cr ++ selector_writes n ++ byte_bit_assign ++ br ++ final_row_write n.
  Let Obr := br_only _ _ _ _ _ _ Hbr.
  Lemma region_only_final : only [Fx FINAL] (final_row_write n).
  Proof. fo. Qed.
  Lemma region_find c i :
    (In c CR_S -> cell ws c i = cell cr c i) /\ (In c KB_S -> cell ws c i = cell kb c i) /\
    (In c BR_S -> cell ws c i = cell br c i) /\ (In c BB_S -> cell ws c i = cell byte_bit_assign c i) /\
    (In c [Fx SEL] -> cell ws c i = cell (selector_writes n) c i) /\ (In c [Fx FINAL] -> cell ws c i = cell (final_row_write n) c i).
  Proof.
    unfold cell.
    pose proof (fun S D H => only_none CR_S cr c i Hcr (disj S CR_S c D H)) as N1.
    pose proof (fun S D H => only_none KB_S kb c i Hkb (disj S KB_S c D H)) as N2.
    pose proof (fun S D H => only_none BR_S br c i Obr (disj S BR_S c D H)) as N3.
    pose proof (fun S D H => only_none BB_S byte_bit_assign c i bb_only (disj S BB_S c D H)) as N4.
    pose proof (fun S D H => only_none [Fx SEL] _ c i (sel_only n) (disj S [Fx SEL] c D H)) as N5.
    pose proof (fun S D H => only_none [Fx FINAL] _ c i region_only_final (disj S [Fx FINAL] c D H)) as N6.
    assert (W : wfind ws c i = wfind (selector_writes n ++ cr ++ kb ++ byte_bit_assign ++ br ++ final_row_write n) c i \/
                wfind ws c i = wfind (kb ++ cr ++ selector_writes n ++ byte_bit_assign ++ br ++ final_row_write n) c i)
      by (destruct Hws as [-> | ->]; auto). clear Hws.
    set (w1 := wfind cr c i) in *. set (w2 := wfind kb c i) in *. set (w3 := wfind br c i) in *.
    set (w4 := wfind byte_bit_assign c i) in *. set (w5 := wfind (selector_writes n) c i) in *. set (w6 := wfind (final_row_write n) c i) in *.
    rewrite !wfind_app in W. fold w1 w2 w3 w4 w5 w6 in W. set (w := wfind ws c i) in *. clearbody w w1 w2 w3 w4 w5 w6.
    split; [|split; [|split; [|split; [|split]]]]; intros Hc;
      [specialize (N2 CR_S eq_refl Hc); specialize (N3 CR_S eq_refl Hc); specialize (N4 CR_S eq_refl Hc); specialize (N5 CR_S eq_refl Hc); specialize (N6 CR_S eq_refl Hc)
      |specialize (N1 KB_S eq_refl Hc); specialize (N3 KB_S eq_refl Hc); specialize (N4 KB_S eq_refl Hc); specialize (N5 KB_S eq_refl Hc); specialize (N6 KB_S eq_refl Hc)
      |specialize (N1 BR_S eq_refl Hc); specialize (N2 BR_S eq_refl Hc); specialize (N4 BR_S eq_refl Hc); specialize (N5 BR_S eq_refl Hc); specialize (N6 BR_S eq_refl Hc)
      |specialize (N1 BB_S eq_refl Hc); specialize (N2 BB_S eq_refl Hc); specialize (N3 BB_S eq_refl Hc); specialize (N5 BB_S eq_refl Hc); specialize (N6 BB_S eq_refl Hc)
      |specialize (N1 [Fx SEL] eq_refl Hc); specialize (N2 [Fx SEL] eq_refl Hc); specialize (N3 [Fx SEL] eq_refl Hc); specialize (N4 [Fx SEL] eq_refl Hc); specialize (N6 [Fx SEL] eq_refl Hc)
      |specialize (N1 [Fx FINAL] eq_refl Hc); specialize (N2 [Fx FINAL] eq_refl Hc); specialize (N3 [Fx FINAL] eq_refl Hc); specialize (N4 [Fx FINAL] eq_refl Hc); specialize (N5 [Fx FINAL] eq_refl Hc)];
      (repeat match goal with X : ?v = None |- _ => subst v end); cbn in W;
      repeat match goal with v : option Fr |- _ => destruct v end; destruct W as [W|W]; try discriminate W; try (apply some_inj in W; subst); reflexivity.
  Qed.
  Lemma region_fixed c i : c <> P_q_enable -> cell ws (Fx c) i = fixed_cell n c i.
  Proof.
    intros Hp. destruct (region_find (Fx c) i) as (R1 & R2 & R3 & R4 & R5 & R6).
    destruct c; try congruence.
    - rewrite R5 by (cbn; auto). unfold cell. rewrite wfind_sel. cbn [fixed_cell]. destruct (col_eq_dec _ _); [|congruence]. destruct (in_range 1 i n); reflexivity.
    - rewrite R6 by (cbn; auto). unfold cell. rewrite wfind_final. cbn [fixed_cell]. destruct (col_eq_dec _ _); [|congruence]. destruct (i =? n - 1); reflexivity.
    - rewrite R4 by (cbn; tauto). apply (bb_fixed_cell BB_byte). cbn; tauto.
    - rewrite R4 by (cbn; tauto). apply (bb_fixed_cell BB_index). cbn; tauto.
    - rewrite R4 by (cbn; tauto). apply (bb_fixed_cell BB_bit). cbn; tauto.
    - rewrite R3 by (cbn; tauto). apply (br_fixed_cell _ _ _ _ _ _ _ Hbr).
    - rewrite R1, Hcell by (cbn; tauto). apply cr_fixed_cell; [lia|cbn; tauto].
    - rewrite R1, Hcell by (cbn; tauto). apply cr_fixed_cell; [lia|cbn; tauto].
    - rewrite R1, Hcell by (cbn; tauto). apply cr_fixed_cell; [lia|cbn; tauto].
    - rewrite R1, Hcell by (cbn; tauto). apply cr_fixed_cell; [lia|cbn; tauto].
  Qed.
End Region.

(** * Key-bit rows in both modes *)
Definition kb_zero : Fr * Z * bool := (f0, 0, false).
Lemma kb_zero_row : exists rw, kb_row kb_zero = Some rw /\ forall c, In c KB_S -> rcell rw c = f0.
Proof.
  assert (E : kb_row kb_zero = Some [(A KB_value, f0); (A KB_index, fz 0); (A KB_bit, fb false);
               (A KB_index_div_8, fz (0 / 8)); (A KB_index_mod_8, fz (0 mod 8)); (A KB_byte, fz (be_byte 32 (val f0) (31 - Z.to_nat (0 / 8))))]).
  { unfold kb_row, kb_zero. destruct (Z.ltb_spec (0 / 8) 32) as [_|H]; [|cbn in H; lia].
    assert (B : be_byte 32 (val f0) (31 - Z.to_nat (0 / 8)) = 0) by reflexivity. rewrite B. reflexivity. }
  eexists. split; [exact E|]. intros c Hc. cbn in Hc. repeat (destruct Hc as [<-|Hc]; [reflexivity|]). contradiction.
Qed.
(* every row of the key-bit columns holds a listed lookup or the all-zero one, and the listed ones occur *)
Record kb_cells (ls : list (Fr * Z * bool)) (ws : list write) : Prop := {
  kbc_rows : forall i, exists l rw, In l (kb_zero :: ls) /\ kb_row l = Some rw /\ forall c, In c KB_S -> cell ws c i = rcell rw c;
  kbc_all : forall l, In l ls -> exists i rw, 1 <= i <= Z.of_nat (length ls) /\ kb_row l = Some rw /\ forall c, In c KB_S -> cell ws c i = rcell rw c }.
Lemma kb_blank (P : Fr * Z * bool -> Prop) ws i : (forall c, In c KB_S -> cell ws c i = f0) ->
  exists rw, kb_row kb_zero = Some rw /\ forall c, In c KB_S -> cell ws c i = rcell rw c.
Proof. intros H. destruct kb_zero_row as (rw & E & Z0). exists rw. split; [exact E|]. intros c Hc. rewrite H, Z0 by exact Hc. reflexivity. Qed.
Lemma Forall2_len {X Y} (R : X -> Y -> Prop) l l' : Forall2 R l l' -> length l = length l'.
Proof. induction 1; cbn; congruence. Qed.
Lemma Forall2_nth {X Y} (R : X -> Y -> Prop) l l' dx dy : Forall2 R l l' -> forall k, (k < length l)%nat -> R (nth k l dx) (nth k l' dy).
Proof.
  induction 1 as [|x y l l' H1 H2 IH]; intros k Hk; [cbn in Hk; lia|]. destruct k; [exact H1|]. apply IH. cbn in Hk. lia.
Qed.
Theorem kb_seq_cells ls ws : key_bit_assign ls = Some ws -> kb_cells ls ws.
Proof.
  unfold key_bit_assign. destruct (all_some kb_row ls) as [rows|] eqn:Q; [|discriminate]. intros E. apply some_inj in E. subst ws.
  apply all_some_spec in Q. pose proof (Forall2_len _ _ _ Q) as L. split.
  - intros i. destruct (in_range 1 i (1 + Z.of_nat (length rows))) eqn:R.
    + apply in_range_true in R. exists (nth (Z.to_nat (i - 1)) ls kb_zero), (nth (Z.to_nat (i - 1)) rows []).
      split; [right; apply nth_In; lia|]. split; [apply (Forall2_nth _ _ _ kb_zero [] Q); lia|].
      intros c _. rewrite cell_emit. replace (in_range 1 i _) with true by (symmetry; apply in_range_true; lia). reflexivity.
    + destruct (kb_blank (fun _ => True) (emit 1 rows) i) as (rw & E & C).
      { intros c _. rewrite cell_emit, R. reflexivity. }
      exists kb_zero, rw. split; [left; reflexivity|]. auto.
  - intros l Hl. apply (In_nth ls l kb_zero) in Hl. destruct Hl as (k & Hk & <-).
    exists (1 + Z.of_nat k), (nth k rows []). split; [lia|]. split; [apply (Forall2_nth _ _ _ kb_zero [] Q); exact Hk|].
    intros c _. rewrite cell_emit. replace (in_range 1 (1 + Z.of_nat k) _) with true by (symmetry; apply in_range_true; lia).
    replace (Z.to_nat (1 + Z.of_nat k - 1)) with k by lia. reflexivity.
Qed.
Lemma place_kb rest : forall start,
  place start (map (fun c' => (Z.of_nat (length c'), fun s => emit s c')) rest) = emit start (concat rest).
Proof.
  induction rest as [|c rest IH]; intros start; [reflexivity|]. cbn [map place concat]. rewrite emit_app, IH. reflexivity.
Qed.
Theorem kb_par_cells threads ls ws : (0 < threads)%nat -> hd_error ls = Some kb_zero -> key_bit_assign_par threads ls = Some ws -> kb_cells ls ws.
Proof.
  intros Ht Hhd E. unfold key_bit_assign_par in E. destruct (Nat.eqb_spec (chunk_size (length ls) threads) 0) as [|Hk]; [discriminate|].
  destruct (all_some kb_row ls) as [rows|] eqn:Q; [|discriminate]. apply some_inj in E. subst ws.
  assert (Qhd : nth 0 ls kb_zero = kb_zero) by (clear - Hhd; destruct ls as [|x ls]; [discriminate Hhd|]; cbn [hd_error] in Hhd; apply some_inj in Hhd; exact Hhd).
  apply all_some_spec in Q. pose proof (Forall2_len _ _ _ Q) as L.
  assert (Hl : (0 < length ls)%nat) by (destruct ls; [discriminate Hhd|cbn; lia]).
  rewrite L. rewrite chunks_fit by lia. rewrite <- L.
  assert (P : concat (chunks (chunk_size (length ls) threads) rows) = rows) by (apply chunks_concat; lia).
  set (cs := chunks _ rows) in *. clearbody cs.
  destruct cs as [|c0 cs]; [cbn in P; rewrite <- P in L; cbn in L; lia|].
  cbn [kb_regions place]. rewrite place_kb. cbn [concat] in P.
  set (l0 := length c0) in *. set (cr := concat cs) in *.
  assert (L2 : (l0 + length cr = length ls)%nat) by (rewrite L, <- P, app_length; reflexivity).
  assert (C1 : forall c i, 0 <= i < Z.of_nat l0 -> cell (emit 0 c0 ++ emit (0 + (Z.of_nat l0 + 1)) cr) c i = rcell (nth (Z.to_nat i) rows []) c).
  { intros c i Hi. unfold cell. rewrite wfind_app, !wfind_emit.
    replace (in_range (0 + (Z.of_nat l0 + 1)) i _) with false by (symmetry; apply in_range_false; lia).
    replace (in_range 0 i _) with true by (symmetry; apply in_range_true; lia).
    rewrite Z.sub_0_r. rewrite <- P, app_nth1 by lia. reflexivity. }
  assert (C2 : forall c i, Z.of_nat l0 < i <= Z.of_nat (length ls) -> cell (emit 0 c0 ++ emit (0 + (Z.of_nat l0 + 1)) cr) c i = rcell (nth (Z.to_nat (i - 1)) rows []) c).
  { intros c i Hi. unfold cell. rewrite wfind_app, !wfind_emit.
    replace (in_range (0 + (Z.of_nat l0 + 1)) i _) with true by (symmetry; apply in_range_true; lia).
    replace (in_range 0 i _) with false by (symmetry; apply in_range_false; lia).
    rewrite <- P. rewrite app_nth2 by lia. fold l0. replace (Z.to_nat (i - 1) - l0)%nat with (Z.to_nat (i - (0 + (Z.of_nat l0 + 1)))) by lia.
    unfold rcell. destruct (rfind _ c); reflexivity. }
  assert (C3 : forall c i, i < 0 \/ i = Z.of_nat l0 \/ Z.of_nat (length ls) < i -> cell (emit 0 c0 ++ emit (0 + (Z.of_nat l0 + 1)) cr) c i = f0).
  { intros c i Hi. unfold cell. rewrite wfind_app, !wfind_emit.
    replace (in_range (0 + (Z.of_nat l0 + 1)) i _) with false by (symmetry; apply in_range_false; lia).
    replace (in_range 0 i _) with false by (symmetry; apply in_range_false; lia). reflexivity. }
  set (ws := emit 0 c0 ++ _) in *. clearbody ws.
  assert (B : forall i, i < 0 \/ i = Z.of_nat l0 \/ Z.of_nat (length ls) < i -> exists rw, kb_row kb_zero = Some rw /\ forall c, In c KB_S -> cell ws c i = rcell rw c).
  { intros i Hi. apply (kb_blank (fun _ => True)). intros. apply C3. exact Hi. }
  split.
  - intros i. destruct (Z_lt_dec i 0) as [H|H]; [|destruct (Z_lt_dec i (Z.of_nat l0)) as [H1|H1]; [|destruct (Z.eq_dec i (Z.of_nat l0)) as [H2|H2]; [|destruct (Z_le_dec i (Z.of_nat (length ls))) as [H3|H3]]]].
    + destruct (B i) as (rw & E & C); [lia|]. exists kb_zero, rw. split; [left; reflexivity|auto].
    + exists (nth (Z.to_nat i) ls kb_zero), (nth (Z.to_nat i) rows []). split; [right; apply nth_In; lia|].
      split; [apply (Forall2_nth _ _ _ kb_zero [] Q); lia|]. intros c _. apply C1. lia.
    + destruct (B i) as (rw & E & C); [lia|]. exists kb_zero, rw. split; [left; reflexivity|auto].
    + exists (nth (Z.to_nat (i - 1)) ls kb_zero), (nth (Z.to_nat (i - 1)) rows []). split; [right; apply nth_In; lia|].
      split; [apply (Forall2_nth _ _ _ kb_zero [] Q); lia|]. intros c _. apply C2. lia.
    + destruct (B i) as (rw & E & C); [lia|]. exists kb_zero, rw. split; [left; reflexivity|auto].
  - intros l Hin. apply (In_nth ls l kb_zero) in Hin. destruct Hin as (k & Hk2 & <-).
    destruct (Nat.eq_dec k 0) as [->|Hk0].
    + rewrite Qhd.
      destruct (Nat.eq_dec l0 0) as [Z0|Z0].
      * (* impossible chunk of size 0: use the rows right after *)
        exists 1, (nth 0 rows []). split; [lia|].
        assert (E0 : kb_row kb_zero = Some (nth 0 rows [])).
        { pose proof (Forall2_nth _ _ _ kb_zero [] Q 0%nat Hl) as G. cbv beta in G.
          rewrite Qhd in G. exact G. }
        split; [exact E0|]. intros c _. rewrite C2 by lia. reflexivity.
      * destruct (B (Z.of_nat l0)) as (rw & E & C); [lia|]. exists (Z.of_nat l0), rw. split; [lia|auto].
    + destruct (Nat.lt_ge_cases k l0) as [Hlt|Hge].
      * exists (Z.of_nat k), (nth k rows []). split; [lia|]. split; [apply (Forall2_nth _ _ _ kb_zero [] Q); exact Hk2|].
        intros c _. rewrite C1 by lia. rewrite Nat2Z.id. reflexivity.
      * exists (1 + Z.of_nat k), (nth k rows []). split; [lia|]. split; [apply (Forall2_nth _ _ _ kb_zero [] Q); exact Hk2|].
        intros c _. rewrite C2 by lia. replace (Z.to_nat (1 + Z.of_nat k - 1)) with k by lia. reflexivity.
Qed.
