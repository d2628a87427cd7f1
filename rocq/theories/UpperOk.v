(* The start row and the account trie rows of an update are accepted. *)
From Coq Require Import ZArith List Bool Lia.
From Verif Require Import Pocklington Fr Query Builder BuilderProofs Gadgets MptUpdate Bytes GadgetProofs UpdateRows TrieSpec UpdateComplete Util Serde Trie Storage Types Lookups LookupMain
  Assign AssignProofs UpdateAssign MptAssign GadgetMain GadgetMain2 TrieProofs RowView BlockView BlocksOk RowsOk RowCells BlockRows Chain.
Import ListNotations.
Open Scope Z_scope.

(* the lookups that an account trie segment needs *)
Record upper_tables (H : Fr -> Fr -> Fr -> Fr) (e : env) (p : Proof) (r other : Fr) : Prop := {
  ut_addr : hit e (fr_from_u128 (address_high (c_address (pf_claim p)))) (fz (address_low (c_address (pf_claim p))) * fz (2 ^ 96))%fr DPair (akey H p);
  ut_high : accepts e bytes_lookup [fr_from_u128 (address_high (c_address (pf_claim p))); fz 15];
  ut_low : accepts e bytes_lookup [fz (address_low (c_address (pf_claim p))); fz 3];
  ut_old : accepts e fr_rlc_lookup [c_old_root (pf_claim p); rlc_fr (c_old_root (pf_claim p)) r];
  ut_new : accepts e fr_rlc_lookup [c_new_root (pf_claim p); rlc_fr (c_new_root (pf_claim p)) r];
  ut_rows : rows_hit H e (pf_account_trie_rows p);
  ut_bits : forall j row, nth_error (pf_account_trie_rows p) j = Some row -> accepts e key_bit_lookup [akey H p; fz (Z.of_nat j); fb (tr_direction row)] /\
    (tr_path row = Common -> accepts e key_bit_lookup [other; fz (Z.of_nat j); fb (tr_direction row)]) }.
(* the values of the claim fit what is claimed *)
Record upper_claim (H : Fr -> Fr -> Fr -> Fr) (e : env) (p : Proof) (r other data : Fr) (s' : SegmentType) : Prop := {
  uc_kind : proof_type_of (c_kind (pf_claim p)) <> AccountDestructed;
  uc_noold : forall row, In row (pf_account_trie_rows p) -> tr_path row <> ExtensionOld;
  uc_new : forall row, In row (pf_account_trie_rows p) -> tr_path row = ExtensionNew -> In (proof_type_of (c_kind (pf_claim p))) [NonceChanged; BalanceChanged; StorageChanged] /\ @ov_ p r = f0;
  uc_absent : In (proof_type_of (c_kind (pf_claim p))) [AccountDoesNotExist; StorageDoesNotExist] -> @ov_ p r = f0 /\ @nv_ p r = f0 /\ c_old_root (pf_claim p) = c_new_root (pf_claim p) /\
    forall row, In row (pf_account_trie_rows p) -> tr_path row = Common /\ tr_old row = tr_new row;
  uc_end : s' = SegStart -> no_account p = true /\ @ov_ p r = f0 /\ @nv_ p r = f0 /\ fst (final_hashes H p) = snd (final_hashes H p) /\ absent e (akey H p) other (fst (final_hashes H p)) data;
  uc_seg : s' = SegStart /\ ~ In (proof_type_of (c_kind (pf_claim p))) [StorageChanged; PoseidonCodeHashExists] \/ s' = AccountLeaf0 /\ proof_type_of (c_kind (pf_claim p)) <> AccountDoesNotExist }.

Definition self_f (e : env) (i : Z) : rowf :=
  RowF (pt e i) (sg e i) (pa e i) (eadv e MU_storage_key_rlc i) (eadv e MU_old_value i) (eadv e MU_new_value i) (eadv e MU_key i) (eadv e MU_other_key i) (eadv e MU_direction i)
    (eadv e MU_sibling i) (eadv e MU_old_hash i) (eadv e MU_new_hash i) (eadv e MU_domain i) (eadv e MU_depth i)
    (eadv e (iv 0) i) (eadv e (iv 1) i) (eadv e (iv 2) i) (eadv e (iv 3) i) (eadv e (iv 9) i) (eadv e (sp 0) i) (eadv e (sp 1) i) (eadv e (sp 2) i) (eadv e (sp 3) i)
    (eadv e (MU_zero_value 0) i) (eadv e (MU_zero_value 1) i) (eadv e (MU_zero_value 2) i) (eadv e (MU_zero_value 3) i).
Lemma self_reads e i : reads e i (self_f e i). Proof. constructor; reflexivity. Qed.

Lemma branch_in d : is_branch d = true -> In d [Branch0; Branch1; Branch2; Branch3]. Proof. destruct d; try discriminate; cbn; tauto. Qed.
Section Upper.
  Context {H : Fr -> Fr -> Fr -> Fr} {e : env} {p : Proof} {r : Fr} {o : Z} {w : list write} {other data : Fr} {final : PathType}.
  Hypothesis B : block_at H p r o w other data final.
  Hypothesis HR : holds_rows e w o (o + Z.of_nat (proof_n_rows p)).
  Hypothesis L : even_proof p.
  Notation T := (proof_type_of (c_kind (pf_claim p))).
  Notation rows := (pf_account_trie_rows p).
  Notation fo := (fst (final_hashes H p)).
  Notation fn := (snd (final_hashes H p)).
  Context {s' : SegmentType} {q' : PathType}.
  Hypothesis Es : sg e (o + 1 + Z.of_nat (length rows)) = s'.
  Hypothesis Eq : pa e (o + 1 + Z.of_nat (length rows)) = q'.
  Hypothesis TB : upper_tables H e p r other.
  Hypothesis UC : upper_claim H e p r other data s'.
  Hypothesis Ch : chain H (c_old_root (pf_claim p)) (c_new_root (pf_claim p)) rows fo fn.
  Hypothesis Lk : forall row, nth_error rows (pred (length rows)) = Some row -> link_end row q'.
  Hypothesis Qs : q' = PathStart <-> s' = SegStart.
  Hypothesis Qo : q' <> ExtensionOld.

  Notation tail_of l := (match l with true => @end_tail H p other data | false => T0 end).
  Lemma above_all f last : f_pt f = T -> f_sg f = SegStart \/ f_sg f = AccountTrie -> f_pa f <> ExtensionOld -> f_ov f = @ov_ p r -> f_nv f = @nv_ p r -> f_key f = akey H p -> f_other f = other ->
    (In T [AccountDoesNotExist; StorageDoesNotExist] -> (f_pa f = PathStart \/ f_pa f = Common) /\ f_old f = f_new f) ->
    f_z2 f = tz2 (tail_of last) -> f_z3 f = tz3 (tail_of last) -> f_i3 f = ti3 (tail_of last) -> (last = true -> f_old f = fo /\ f_new f = fn) ->
    above e f (if last then s' else AccountTrie) T.
  Proof.
    intros Pt Sg NO Ov Nv Ke Ot Ab Z2 Z3 I3 La.
    assert (EE : empty_end e f (if last then s' else AccountTrie)).
    { intros X. destruct last; [|discriminate X]. destruct (uc_end _ _ _ _ _ _ _ UC X) as (N1 & V1 & V2 & F1 & F2). destruct (La eq_refl) as [L1 L2].
      unfold end_tail in *. rewrite N1 in *. cbn [tz2 tz3 ti3] in *. unfold absent_at. rewrite L1, L2, Ov, Nv, V1, V2, Ke, Ot, I3, Z2, Z3. auto 10. }
    assert (A1 := uc_absent _ _ _ _ _ _ _ UC). assert (A2 := uc_kind _ _ _ _ _ _ _ UC).
    destruct T; cbn [above]; auto.
    - rewrite Ov, Nv. destruct A1 as (V1 & V2 & _); [cbn; tauto|]. destruct Ab as [_ Ab]; [cbn; tauto|]. auto.
    - rewrite Ov, Nv. destruct A1 as (V1 & V2 & _); [cbn; tauto|]. destruct Ab as [Ab1 Ab2]; [cbn; tauto|]. auto.
  Qed.
  Lemma next_types j : (j <= length rows)%nat -> sg e (o + 1 + Z.of_nat j) = match nth_error rows j with Some _ => AccountTrie | None => s' end /\
    pa e (o + 1 + Z.of_nat j) = match nth_error rows j with Some row => tr_path row | None => q' end.
  Proof.
    intros Hj. destruct (nth_error rows j) as [row|] eqn:E.
    - destruct (trie_reads B HR L j row E) as [_ R]. rewrite (rd_sg _ _ _ R), (rd_pa _ _ _ R). split; reflexivity.
    - apply nth_error_None in E. assert (j = length rows) as -> by lia. auto.
  Qed.
  Lemma trans_all sg0 more : sg0 = SegStart \/ sg0 = AccountTrie -> exists l, seg_transitions T sg0 = Some l /\ In (if more : bool then AccountTrie else s') l.
  Proof.
    assert (A2 := uc_kind _ _ _ _ _ _ _ UC). assert (A3 := uc_seg _ _ _ _ _ _ _ UC).
    intros [-> | ->]; destruct T; try (exfalso; apply A2; reflexivity); eexists; (split; [reflexivity|]); destruct more; try (cbn; tauto); destruct A3 as [[-> X]|[-> X]]; cbn in *; try tauto.
  Qed.
  Lemma start_ok_ : (exists m, view e o m) /\ row_ok H e o.
  Proof.
    destruct (start_reads B HR) as [V R]. split; [exact V|]. destruct (next_types 0%nat ltac:(lia)) as [S1 Q1]. change (Z.of_nat 0) with 0 in *. rewrite !Z.add_0_r in *.
    eapply (start_row H e o _ (@start_f H p r other data) _ _ (self_reads e (o - 1)) R S1 Q1); try reflexivity.
    - exact (ut_addr _ _ _ _ _ TB).
    - exact (ut_high _ _ _ _ _ TB).
    - exact (ut_low _ _ _ _ _ TB).
    - exact (ut_old _ _ _ _ _ TB).
    - exact (ut_new _ _ _ _ _ TB).
    - unfold trans. change (f_pt (@start_f H p r other data)) with T. change (f_sg (@start_f H p r other data)) with SegStart.
      destruct (trans_all SegStart (match rows with [] => false | _ => true end) (or_introl eq_refl)) as (l & L1 & L2). exists l. split; [exact L1|].
      destruct rows; exact L2.
    - change (f_pt (@start_f H p r other data)) with T.
      replace (match nth_error rows 0 with Some _ => AccountTrie | None => s' end) with (if (match rows with [] => true | _ => false end) then s' else AccountTrie) by (destruct rows; reflexivity).
      apply above_all; try reflexivity; [left; reflexivity|..].
      + discriminate.
      + intros X. split; [left; reflexivity|]. apply (uc_absent _ _ _ _ _ _ _ UC X).
      + unfold start_f. destruct rows; reflexivity.
      + unfold start_f. destruct rows; reflexivity.
      + unfold start_f. destruct rows; reflexivity.
      + intros X. destruct rows; [|discriminate X]. exact Ch.
  Qed.
  (* the row above trie row j *)
  Definition above_f (j : nat) : rowf := match j with O => @start_f H p r other data | S k => match nth_error rows k with Some row => @trie_f H p r other data k row | None => @start_f H p r other data end end.
  Lemma above_reads j : (j <= length rows)%nat -> reads e (o + 1 + Z.of_nat j - 1) (above_f j) /\ f_old (above_f j) = above_old (c_old_root (pf_claim p)) rows j /\ f_new (above_f j) = above_new (c_new_root (pf_claim p)) rows j /\
    f_depth (above_f j) = fz (Z.of_nat j) /\ f_pt (above_f j) = T /\ f_skr (above_f j) = skr_ (p := p) (r := r) /\ f_ov (above_f j) = @ov_ p r /\ f_nv (above_f j) = @nv_ p r /\ f_key (above_f j) = akey H p /\ f_other (above_f j) = other.
  Proof.
    intros Hj. destruct j as [|k]; cbn [above_f above_old above_new].
    - destruct (start_reads B HR) as [_ R]. replace (o + 1 + Z.of_nat 0 - 1) with o by lia. split; [exact R|]. repeat split.
    - destruct (nth_error rows k) as [row|] eqn:E.
      + destruct (trie_reads B HR L k row E) as [_ R]. replace (o + 1 + Z.of_nat (S k) - 1) with (o + 1 + Z.of_nat k) by lia. split; [exact R|]. split; [reflexivity|]. split; [reflexivity|]. split; [|repeat split].
        replace (Z.of_nat (S k)) with (Z.of_nat k + 1) by lia. reflexivity.
      + apply nth_error_None in E. lia.
  Qed.
  Lemma trie_ok_ j row : nth_error rows j = Some row -> (exists m, view e (o + 1 + Z.of_nat j) m) /\ row_ok H e (o + 1 + Z.of_nat j).
  Proof.
    intros Hj. assert (Hl : (j < length rows)%nat) by (apply nth_error_Some; congruence).
    destruct (trie_reads B HR L j row Hj) as [V R]. split; [exact V|].
    destruct (above_reads j ltac:(lia)) as (R' & O' & N' & D' & P' & K' & OV' & NV' & KE' & OT').
    destruct (next_types (S j) ltac:(lia)) as [S1 Q1]. replace (o + 1 + Z.of_nat (S j)) with (o + 1 + Z.of_nat j + 1) in S1, Q1 by lia.
    assert (In1 : In row rows) by (eapply nth_error_In, Hj).
    destruct (chain_nth _ _ _ _ _ _ _ _ Ch Hj) as (rest & C2 & _). cbn [chain] in C2. destruct C2 as (Br & (od & nd & _ & Cs) & _).
    assert (NS : tr_path row <> PathStart) by (intros X; rewrite X in Cs; exact Cs). clear Cs.
    assert (PS : path_step e (above_f j) (@trie_f H p r other data j row) (match nth_error rows (S j) with Some _ => AccountTrie | None => s' end) (match nth_error rows (S j) with Some row => tr_path row | None => q' end)
      /\ In (match nth_error rows (S j) with Some row => tr_path row | None => q' end) (path_transitions (f_pa (@trie_f H p r other data j row)))).
    { apply (chain_step H e rows _ _ fo fn j row _ _ AccountTrie _ _ Ch (ut_rows _ _ _ _ _ TB) Hj).
      - reflexivity.
      - reflexivity.
      - repeat split.
      - exact O'.
      - exact N'.
      - destruct (nth_error rows (S j)) as [nx|] eqn:E2; [auto|]. apply nth_error_None in E2. assert (A3 := uc_seg _ _ _ _ _ _ _ UC).
        assert (S2 : s' = SegStart \/ s' = AccountLeaf0) by tauto. assert (LE : link_end row q') by (apply Lk; replace (pred (length rows)) with j by lia; exact Hj).
        split; [destruct S2 as [-> | ->]; reflexivity|]. split; [exact LE|]. split.
        + intros ->. destruct S2 as [S2 | ->]; [|reflexivity]. apply Qs in S2. discriminate S2.
        + intros X. contradiction.
      - intros X. apply (uc_new _ _ _ _ _ _ _ UC row In1 X).
      - intros X. exfalso. exact (uc_noold _ _ _ _ _ _ _ UC row In1 X). }
    destruct PS as [PS PT].
    eapply (trie_row H e (o + 1 + Z.of_nat j) (above_f j) (@trie_f H p r other data j row) _ _ R' R S1 Q1 j (tr_direction row) (tr_domain row)); try reflexivity.
    - exact NS.
    - unfold same_claim. rewrite P', K', OV', NV'. repeat split.
    - unfold same_key. rewrite KE', OT'. repeat split.
    - exact D'.
    - apply (ut_bits _ _ _ _ _ TB j row Hj).
    - apply (ut_bits _ _ _ _ _ TB j row Hj).
    - apply branch_in, Br.
    - exact PS.
    - exact PT.
    - unfold trans. destruct (trans_all AccountTrie (match nth_error rows (S j) with Some _ => true | None => false end) (or_intror eq_refl)) as (l & L1 & L2). exists l. split; [exact L1|]. destruct (nth_error rows (S j)); exact L2.
    - replace (match nth_error rows (S j) with Some _ => AccountTrie | None => s' end) with (if (S j =? length rows)%nat then s' else AccountTrie).
      2:{ destruct (Nat.eqb_spec (S j) (length rows)) as [Q|Q]; destruct (nth_error rows (S j)) eqn:E2; try reflexivity.
          - assert (S j < length rows)%nat by (apply nth_error_Some; congruence). lia.
          - apply nth_error_None in E2. lia. }
      change (f_pt (@trie_f H p r other data j row)) with T. apply above_all; try reflexivity; [right; reflexivity|..].
      + apply (uc_noold _ _ _ _ _ _ _ UC row In1).
      + intros X. destruct (uc_absent _ _ _ _ _ _ _ UC X) as (_ & _ & _ & Y). destruct (Y row In1). auto.
      + intros X. apply Nat.eqb_eq in X. destruct (chain_last _ _ _ _ _ _ Ch) as [C1 C3]. rewrite <- X in C1, C3. cbn [above_old above_new] in C1, C3. rewrite Hj in C1, C3. auto.
  Qed.
  Theorem upper_ok : rows_ok H e o (o + 1 + Z.of_nat (length rows)).
  Proof.
    intros i Hi. destruct (Z.eq_dec i o) as [->|Ni]; [exact start_ok_|]. set (j := Z.to_nat (i - o - 1)). assert (Hj : (j < length rows)%nat) by lia.
    destruct (nth_error rows j) as [row|] eqn:E; [|apply nth_error_None in E; lia]. replace i with (o + 1 + Z.of_nat j) by lia. apply (trie_ok_ j row E).
  Qed.
End Upper.
