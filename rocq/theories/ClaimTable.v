(* C48: the exposed table holds exactly the claims of the assigned proofs. *)
From Coq Require Import ZArith List Bool Lia.
From Verif Require Import Pocklington Fr Query Builder BuilderProofs Gadgets MptUpdate Fixed Bytes GadgetProofs UpdateRows TrieSpec Util UtilProofs Serde Trie Storage Types TypesProofs Lookups LookupMain
  Assign AssignProofs UpdateAssign MptAssign MptModes GadgetMain GadgetMain2 UpdateProps RowView BlockView MptRows MptCases BlocksOk RowsOk RowCells BlockRows PaddingOk HonestPath HonestBlock HonestUpdate HonestConvert HonestAssign TableSpec HonestSpec HonestMain HonestCase.
Import ListNotations.
Open Scope Z_scope.

(** * Specification *)
(* a number or 0 *)
Definition num (o : option Z) : Z := match o with Some v => v | None => 0 end.
(* the table row a claim stands for; c is the RLC challenge; a missing value counts as 0 *)
Definition claim_row (c : Fr) (k : Claim) : statement :=
  let says kind slot old new := Statement (be_val (c_address k)) slot kind (c_new_root k) (c_old_root k) new old in
  match c_kind k with
  | KNonce o n => says NonceChanged f0 (fz (num o)) (fz (num n))
  | KBalance o n => says BalanceChanged f0 (word_rlc c (num o)) (word_rlc c (num n))
  | KCodeHash o n => says CodeHashExists f0 (word_rlc c (num o)) (word_rlc c (num n))
  | KPoseidonCodeHash o n => says PoseidonCodeHashExists f0 (match o with Some x => x | None => f0 end) (match n with Some x => x | None => f0 end)
  | KCodeSize o n => says CodeSizeExists f0 (fz (num o)) (fz (num n))
  | KStorage slot o n => says StorageChanged (word_rlc c slot) (word_rlc c (num o)) (word_rlc c (num n))
  | KIsEmpty None => says AccountDoesNotExist f0 f0 f0
  | KIsEmpty (Some slot) => says StorageDoesNotExist (word_rlc c slot) f0 f0
  end.

(** * Proof *)
Lemma claim_row_as c k : claim_row c k = claim_statement c k.
Proof.
  unfold claim_row, claim_statement, claim_storage_key, new_value_assignment, old_value_assignment. pose proof (LeafOk.rlc_zero_word c) as Z0. change (word_rlc c 0 = f0) in Z0.
  destruct (c_kind k) as [? ?|? ?|? ?|? ?|? ?|? ? ?|[?|]]; rewrite ?Z0; reflexivity.
Qed.
Definition is_seg (c : col * Fr) : bool := match fst c with A (MU_seg _) => true | _ => false end.
Definition segs (r : row) : row := filter is_seg r.
Lemma segs_app a b : segs (a ++ b) = segs a ++ segs b.
Proof. apply filter_app. Qed.
Lemma segs_find r v : rfind r (A (MU_seg v)) = rfind (segs r) (A (MU_seg v)).
Proof.
  induction r as [|[c x] r IH]; [reflexivity|]. unfold segs in *. cbn [rfind filter]. rewrite IH. destruct (is_seg (c, x)) eqn:E; cbn [rfind]; [reflexivity|].
  destruct (rfind (filter is_seg r) _); [reflexivity|]. destruct (col_eq_dec _ c) as [<-|]; [discriminate E|reflexivity].
Qed.
Lemma segs_oh_path q : segs (oh_assign oh_path q) = []. Proof. destruct q; reflexivity. Qed.
Lemma segs_oh_proof q : segs (oh_assign oh_proof q) = []. Proof. destruct q; reflexivity. Qed.
Lemma segs_oh_seg q : segs (oh_assign oh_segment q) = oh_assign oh_segment q. Proof. destruct q; reflexivity. Qed.
Lemma segs_claim p r : segs (claim_cells p r) = [].
Proof. unfold claim_cells. rewrite segs_app, segs_oh_proof. reflexivity. Qed.
Lemma segs_trie j row next c : trie_row_cells j row next = Some c -> segs c = [].
Proof. intros E. apply trie_cells_as in E. subst c. rewrite !segs_app, segs_oh_path. destruct (ext2 row next); reflexivity. Qed.
Lemma segs_tail H p o d f : segs (tail_cells H p o d f) = []. Proof. unfold tail_cells. destruct (no_account p); reflexivity. Qed.
Lemma segs_last H k o a b : segs (last_cells H k o a b) = []. Proof. destruct a, b; reflexivity. Qed.
Lemma segs_word w h l rh rl r : segs (word_rlc_assign w (iv h) (iv l) (sp rh) (sp rl) r) = [].
Proof. unfold word_rlc_assign. destruct (u256_hi_lo w). reflexivity. Qed.
Lemma segs_code k r : segs (code_hash_cells k r) = [].
Proof. destruct k as [| |o n| | | |]; try reflexivity. cbn [code_hash_cells]. rewrite segs_app. destruct o, n; rewrite ?segs_word; reflexivity. Qed.
Lemma segs_word_of l h lo rh rl r : segs (UpdateAssign.word_of l (iv h) (iv lo) (sp rh) (sp rl) r) = [].
Proof. destruct l; first [reflexivity|apply segs_word]. Qed.
Lemma blank_entry e i s : 0 <= i < eN e -> (forall v, v <> SegStart -> eadv e (MU_seg v) i = fb (seg_eqb v s)) -> s <> SegStart -> table_row e i = blank_row.
Proof.
  intros Hi G Ns.
  assert (A2 : oh_assigned oh_segment e i s) by (intros v Hv; change (eadv e (MU_seg v) i = fb (seg_eqb v s)); apply G; cbn in Hv; intuition congruence).
  pose proof (oh_assigned_dec _ seg_wf SegStart _ _ _ A2) as D. pose proof (oh_assigned_row _ seg_wf SegStart _ _ _ A2) as Rs.
  assert (M0 : (i + 0) mod eN e = i) by (rewrite Z.add_0_r; apply Z.mod_small; exact Hi).
  assert (E : eval e i (cur_seg [SegStart]) = f0).
  { unfold cur_seg, current_matches. rewrite (eval_matches oh_segment seg_wf SegStart e i 0 i); [|exact M0|exact Rs|repeat constructor; intros []]. rewrite D. destruct s; try reflexivity. congruence. }
  unfold table_row. set (t := cur_seg [SegStart]) in *. unfold mpt_update_lookup. fold t. cbn [map].
  assert (G2 : forall q, eval e i (q * t)%q = f0) by (intros q; change (eval e i (q * t)%q) with (eval e i q * eval e i t)%fr; rewrite E; ring).
  rewrite !G2. reflexivity.
Qed.
Lemma combine_nth_some {X Y} (a : list X) (b : list Y) k : (k < length a)%nat -> (k < length b)%nat -> exists x y, nth_error (combine a b) k = Some (x, y).
Proof.
  intros Ha Hb. destruct (nth_error (combine a b) k) as [[x y]|] eqn:E; [eauto|]. apply nth_error_None in E. rewrite combine_length in E. lia.
Qed.
Lemma combine_nth_l {X Y} (a : list X) : forall (b : list Y) k x y, nth_error (combine a b) k = Some (x, y) -> nth_error a k = Some x.
Proof. induction a as [|a0 a IH]; intros [|b0 b] [|k0] x y E; try discriminate E; cbn in *; [congruence|eapply IH, E]. Qed.

Section Block.
  Context {H : Fr -> Fr -> Fr -> Fr} {p : Proof} {r : Fr} {o : Z} {w : list write} {other data : Fr} {final : PathType}.
  Hypothesis B : block_at H p r o w other data final.
  Hypothesis L : even_proof p.
  Hypothesis M : match pf_storage p with SRoot _ => True | SUpdate _ _ _ _ _ => exists k, (exists a b, c_kind (pf_claim p) = KStorage k a b) \/ c_kind (pf_claim p) = KIsEmpty (Some k) end.
  Notation rows := (pf_account_trie_rows p).
  Lemma inner_segs i : o < i < o + Z.of_nat (proof_n_rows p) -> exists s, s <> SegStart /\ segs (row_at w i) = oh_assign oh_segment s.
  Proof.
    intros Hi. destruct (Z_lt_le_dec i (o + 1 + Z.of_nat (length rows))) as [Lt|Ge].
    { destruct (nth_error rows (Z.to_nat (i - o - 1))) as [row|] eqn:N; [|apply nth_error_None in N; lia].
      destruct (ba_trie _ _ _ _ _ _ _ _ B _ _ N) as (c & C1 & C2). replace (o + 1 + Z.of_nat (Z.to_nat (i - o - 1))) with i in C2 by lia. exists AccountTrie. split; [discriminate|].
      rewrite C2, !segs_app, segs_claim, (segs_trie _ _ _ _ C1), segs_oh_seg. cbn [app]. destruct (_ =? _)%nat; [rewrite segs_tail|]; reflexivity. }
    destruct (no_account p) eqn:NA.
    { exfalso. unfold no_account in NA. unfold proof_n_rows in Hi. rewrite NA in Hi. unfold even_proof in L. lia. }
    destruct (ba_leaf _ _ _ _ _ _ _ _ B NA) as (q & dirs & siblings & st & A1 & A2 & A3 & A4 & A6 & A5). cbv zeta in A5.
    pose proof (nn_rows p dirs NA A2) as NR. unfold even_proof in L. rewrite <- L in NR.
    set (olds := or_else (old_account_leaf_hashes p) _) in *. set (news := or_else (new_account_leaf_hashes p) _) in *.
    assert (Ln : (length dirs <= 4)%nat /\ (length dirs <= length siblings)%nat /\ (length dirs <= length olds)%nat /\ (length dirs <= length news)%nat /\ ((exists a b, c_kind (pf_claim p) = KPoseidonCodeHash a b) \/ length dirs = 4%nat)).
    { clear - A2 A3. unfold olds, news, old_account_leaf_hashes, new_account_leaf_hashes, account_leaf_siblings in *. generalize (pf_old_account_hash_traces p), (pf_new_account_hash_traces p), (repeat (fst (final_hashes H p)) 4), (repeat_length (fst (final_hashes H p)) 4), (repeat (snd (final_hashes H p)) 4), (repeat_length (snd (final_hashes H p)) 4).
      intros t t' l Hl l' Hl'. destruct (c_kind (pf_claim p)) as [[?|] [?|]|[?|] [?|]|[?|] [?|]|[?|] [?|]|[?|] [?|]|? ? ?|[?|]]; cbn [proof_type_of leaf_directions] in A2; try discriminate A2; apply some_eq in A2; subst dirs.
      all: cbn [choose_traces obind] in A3; try discriminate A3; repeat (ob A3); apply some_eq in A3; subst siblings; cbn [option_map or_else length]; rewrite ?Hl, ?Hl'; repeat (split; [lia|]).
      all: try (right; reflexivity); try (left; eauto; fail).
      all: destruct (pf_old_account p); cbn [option_map or_else length]; rewrite ?Hl; repeat (split; [lia|]); right; reflexivity. }
    destruct Ln as (L1 & L2 & L3 & L4 & L5).
    assert (Lf : forall k, (k < length dirs)%nat -> exists s c, s <> SegStart /\ nth_error SEGMENT_TYPES k = Some s /\ (exists sib ho hn d, leaf_row_cells H p q (akey H p) other data r s sib ho hn d k = Some c) /\
      segs (row_at w (o + 1 + Z.of_nat (length rows) + Z.of_nat k)) = oh_assign oh_segment s ++ segs (row_at st (o + 1 + Z.of_nat (length rows) + Z.of_nat k))).
    { intros k Hk. destruct (combine_nth_some (combine (combine (combine SEGMENT_TYPES siblings) olds) news) dirs k) as (x & d & Nx); [rewrite !combine_length; cbn [length SEGMENT_TYPES]; lia|exact Hk|].
      destruct x as [[[s sib] ho] hn]. destruct (A5 k s sib ho hn d Nx) as (c & C1 & C2).
      assert (Sg : nth_error SEGMENT_TYPES k = Some s) by (apply combine_nth_l, combine_nth_l, combine_nth_l, combine_nth_l in Nx; exact Nx).
      exists s, c. split; [destruct k as [|[|[|[|k]]]]; cbn in Sg; try (destruct k; discriminate Sg); apply some_eq in Sg; subst s; discriminate|]. split; [exact Sg|]. split; [eauto 10|].
      rewrite C2, !segs_app, segs_claim. assert (Sc : segs c = oh_assign oh_segment s).
      { unfold leaf_row_cells in C1. ob C1. apply some_eq in C1. subst c. rewrite !segs_app, segs_oh_seg, segs_oh_path.
        assert (Sa : segs a = []).
        { destruct s; try (apply some_eq in E; subst a; reflexivity). destruct (c_kind (pf_claim p)) as [| | | | |? ? ?|[?|]]; try (apply some_eq in E; subst a; reflexivity); ob E; ob E; apply some_eq in E; subst a; rewrite !segs_app, segs_word; reflexivity. }
        rewrite Sa. destruct k; cbn; rewrite app_nil_r; reflexivity. }
      rewrite Sc. destruct k as [|[|[|[|k]]]]; cbn [Nat.eqb]; rewrite ?segs_app, ?segs_code; reflexivity. }
    destruct (pf_storage p) as [root|sk key srows old new] eqn:St.
    - cbn [sp_n_rows] in NR. destruct (Lf (Z.to_nat (i - (o + 1 + Z.of_nat (length rows)))) ltac:(lia)) as (s & c & Ns & _ & _ & R). exists s. split; [exact Ns|].
      replace (o + 1 + Z.of_nat (length rows) + Z.of_nat (Z.to_nat (i - (o + 1 + Z.of_nat (length rows))))) with i in R by lia. rewrite R.
      cbn [assign_storage] in A4. apply some_eq in A4. subst st. cbn [row_at segs filter]. apply app_nil_r.
    - destruct M as (kk & Kd). assert (D4 : length dirs = 4%nat) by (destruct L5 as [(a & b & K)|]; [exfalso; destruct Kd as [(? & ? & K') | K']; congruence|assumption]).
      rewrite D4 in *. change (Z.of_nat 4) with 4 in *. cbn [sp_n_rows] in NR. destruct (storage_view _ _ _ _ _ _ _ _ _ A4) as (so & So & V).
      destruct (Z_lt_le_dec i (o + 1 + Z.of_nat (length rows) + 4)) as [Lt|Ge2].
      + destruct (Lf (Z.to_nat (i - (o + 1 + Z.of_nat (length rows)))) ltac:(lia)) as (s & c & Ns & _ & _ & R). exists s. split; [exact Ns|].
        replace (o + 1 + Z.of_nat (length rows) + Z.of_nat (Z.to_nat (i - (o + 1 + Z.of_nat (length rows))))) with i in R by lia. rewrite R.
        assert (X : segs (row_at st i) = []); [|rewrite X; apply app_nil_r].
        destruct (Z.eq_dec i (o + 1 + Z.of_nat (length rows) + 4 - 1)) as [->|]; [rewrite (sa_before _ _ _ _ _ _ _ _ _ V); destruct srows; [apply segs_last|reflexivity]|rewrite (sa_out _ _ _ _ _ _ _ _ _ V) by lia; reflexivity].
      + rewrite (A6 i) by (try exact D4; lia). rewrite segs_app, segs_claim. cbn [app].
        set (j := Z.to_nat (i - (o + 1 + Z.of_nat (length rows) + 4))). assert (Ei : i = o + 1 + Z.of_nat (length rows) + 4 + Z.of_nat j) by lia.
        destruct (nth_error srows j) as [row|] eqn:N.
        * destruct (sa_rows _ _ _ _ _ _ _ _ _ V j row N) as (c & C1 & C2). exists StorageTrie. split; [discriminate|]. rewrite Ei, C2, !segs_app, (segs_trie _ _ _ _ C1), segs_oh_seg. destruct (_ =? _)%nat; [rewrite segs_last|]; reflexivity.
        * apply nth_error_None in N. destruct (storage_leaf_path old new) as [path|] eqn:P.
          -- destruct (sa_leaf _ _ _ _ _ _ _ _ _ V path P) as (oh & nh & last & H1 & H2 & H3). exists StorageLeaf0. split; [discriminate|]. replace i with (o + 1 + Z.of_nat (length rows) + 4 + Z.of_nat (length srows)).
             2:{ rewrite Ei. assert (Nat.max (sl_n_rows old) (sl_n_rows new) <= 1)%nat by (destruct old, new; cbn; lia). lia. }
             rewrite H3. unfold sleaf_cells. rewrite !segs_app, !segs_word_of, segs_oh_path, segs_oh_seg.
             assert (X : segs last = []).
             { apply leaf_l_as in H2. subst last. clear. unfold leaf_l. destruct path; try reflexivity; unfold nonex_l; cbn [RowCells.lcells]; match goal with |- context [match ?x with Some _ => _ | None => [] end] => destruct x end; reflexivity. }
             rewrite X. destruct path; reflexivity.
          -- exfalso. assert (Nat.max (sl_n_rows old) (sl_n_rows new) = 0%nat) by (destruct old, new; cbn in P |- *; congruence). lia.
  Qed.
End Block.

Lemma matched H t tr p : proof_from H t tr = Some p ->
  match pf_storage p with SRoot _ => True | SUpdate _ _ _ _ _ => exists k, (exists a b, c_kind (pf_claim p) = KStorage k a b) \/ c_kind (pf_claim p) = KIsEmpty (Some k) end.
Proof.
  intros E. destruct (proof_from_inv _ _ _ _ E) as (p0 & p1 & l0 & l1 & FT). destruct (claim_from_inv _ _ _ (ft_claim _ _ _ _ _ _ _ _ FT)) as (ro & rn & kd & _ & _ & K & _ & Ec). rewrite Ec. cbn [c_kind].
  pose proof (ft_storage _ _ _ _ _ _ _ _ FT) as S. destruct (pf_storage p) as [root|sk key srows old new]; [exact Logic.I|].
  unfold storage_proof_from in S. destruct (t_common_state_root tr) as [root|] eqn:TC; [ob S; discriminate S|].
  ob S. ob S. ob S. ob S. ob S. apply obind_some in S. destruct S as (u & TU & S). apply obind_some in S. destruct S as (eo & Eo & S). apply obind_some in S. destruct S as (en & Een & S).
  destruct u as [x y]. cbn [fst snd] in Eo, Een. subst x y. clear S.
  destruct (claim_storage_inv _ _ _ _ _ K TU) as (o & n & k & _ & _ & _ & Q). exists k. destruct (_ && _); [right; exact Q|left; eauto].
Qed.

Section Table.
  Context {H : Fr -> Fr -> Fr -> Fr} {par : bool} {threads : nat} {proofs : list Proof} {n : Z} {r : Fr} {ws : list write} {e : env}.
  Hypothesis C : Forall (fun p => exists t tr, proof_from H t tr = Some p) proofs.
  Hypothesis T : (0 < threads)%nat.
  Hypothesis E : mpt_assign H par threads proofs n r = Some ws.
  Hypothesis FL : filled e r ws.
  Hypothesis Rm : room e n.
  Hypothesis En : enough_rows H proofs n.
  Lemma table_even : Forall even_proof proofs.
  Proof. eapply Forall_impl; [|exact C]. intros p (t & tr & X). exact (from_lengths H _ _ p X). Qed.
  Theorem claims_exposed p : In p proofs -> address_ok (c_address (pf_claim p)) -> exposes e (encode (echal e) (claim_row (echal e) (pf_claim p))).
  Proof.
    intros Hp Ad. destruct (assign_inv H par threads proofs n r ws (fun _ => T) E) as (reprs & lookups & upd & cr & kb & br & P). rewrite claim_row_as. exact (claim_exposed P e p FL Rm En table_even Hp Ad).
  Qed.
  (* the block that a row before the padding belongs to *)
  Lemma block_at_row : forall l o w, Forall (fun p => exists t tr, proof_from H t tr = Some p) l -> assign_proofs H l r o = Some w -> forall i, o <= i < o + Z.of_nat (total_rows l) ->
    exists p o' w', In p l /\ assign_single_proof H p r o' = Some w' /\ o <= o' <= i /\ i < o' + Z.of_nat (proof_n_rows p) /\ o' + Z.of_nat (proof_n_rows p) <= o + Z.of_nat (total_rows l) /\
      (forall j, o' <= j < o' + Z.of_nat (proof_n_rows p) -> row_at w j = row_at w' j).
  Proof.
    induction l as [|q l IH]; intros o w F A i Hi; [cbn [total_rows fold_right] in Hi; lia|]. cbn [assign_proofs] in A. ob A. ob A. apply some_eq in A. subst w.
    inversion F as [|? ? F1 F2]; subst. cbn [total_rows fold_right] in *. fold (total_rows l) in *. destruct F1 as (t & tr & X).
    destruct (single_rows H q r o a (from_lengths H _ _ q X) E0) as [W _].
    assert (F3 : Forall even_proof l) by (eapply Forall_impl; [|exact F2]; intros p (t' & tr' & X'); exact (from_lengths H _ _ p X')). pose proof (proofs_within H r _ _ _ F3 E1) as W2.
    destruct (Z_lt_le_dec i (o + Z.of_nat (proof_n_rows q))) as [Lt|Ge].
    - exists q, o, a. split; [left; reflexivity|]. split; [exact E0|]. split; [lia|]. split; [lia|]. split; [lia|]. intros j Hj. rewrite row_at_app, (within_row _ _ _ _ W2), app_nil_r by lia. reflexivity.
    - destruct (IH _ _ F2 E1 i ltac:(lia)) as (p & o' & w' & I0 & I1 & I2 & I3 & I4 & I5). exists p, o', w'. split; [right; exact I0|]. split; [exact I1|]. split; [lia|]. split; [lia|]. split; [lia|].
      intros j Hj. rewrite row_at_app, (within_row _ _ _ _ W) by lia. cbn [app]. apply I5, Hj.
  Qed.
  Theorem only_claims row : Forall (fun p => address_ok (c_address (pf_claim p))) proofs -> exposes e row ->
    row = blank_row \/ row = final_row \/ exists p, In p proofs /\ row = encode (echal e) (claim_row (echal e) (pf_claim p)).
  Proof.
    intros Ads (i & Ei & <-). destruct (assign_inv H par threads proofs n r ws (fun _ => T) E) as (reprs & lookups & upd & cr & kb & br & P).
    pose proof table_even as Ev. destruct (glue_sizes P En) as (S1 & S2 & _ & _). destruct (glue_rows P En Ev) as (w & Ew & RW). pose proof Rm as (R1 & R2 & R3 & R4).
    pose proof (filled_fixed P e FL ltac:(lia) R2 R4) as Fx. apply (proj1 (fix_enabled e n i Fx)) in Ei.
    assert (Cell : forall c, mu_col (A c) = true -> eadv e c i = rval (row_at upd i) c) by (intros c Hc; rewrite (filled_mu P e FL c i Hc) by lia; apply cell_row).
    destruct (Z_lt_le_dec i (1 + Z.of_nat (total_rows proofs))) as [Lt|Ge].
    - destruct (block_at_row proofs 1 w C Ew i ltac:(lia)) as (p & o & w' & Hp & I1 & I2 & I3 & I4 & I5). rewrite Forall_forall in Ev. assert (L := Ev p Hp). destruct (block_view H p r o w' L I1) as (other & data & final & B).
      destruct (Z.eq_dec i o) as [->|Ne].
      + right. right. exists p. split; [exact Hp|].
        assert (HR : holds_rows e w' o (o + Z.of_nat (proof_n_rows p))).
        { intros c j Hc Hj. rewrite (filled_mu P e FL c j Hc) by lia. rewrite cell_row, RW, pad_false by lia. rewrite I5 by exact Hj. reflexivity. }
        destruct (start_reads B HR) as [(m & V) Rd]. rewrite claim_row_as. rewrite Forall_forall in Ads.
        unfold table_row. rewrite (start_exposed e o (proof_type_of (c_kind (pf_claim p)))); [|lia|apply V|apply V|rewrite (rd_sg _ _ _ Rd); reflexivity|rewrite (rd_pt _ _ _ Rd); reflexivity].
        rewrite (rd_i0 _ _ _ Rd), (rd_i1 _ _ _ Rd), (rd_skr _ _ _ Rd), (rd_s0 _ _ _ Rd), (rd_s1 _ _ _ Rd), (rd_nv _ _ _ Rd), (rd_ov _ _ _ Rd). unfold start_f. cbn [f_i0 f_i1 f_skr f_s0 f_s1 f_nv f_ov].
        rewrite (fl_chal _ _ _ FL). unfold encode, claim_statement. cbn [st_address st_slot_rlc st_kind st_new_root st_old_root st_new_value st_old_value].
        destruct (address_val _ (Ads p Hp)) as (-> & Hh & _). rewrite fz_add, fz_mul. reflexivity.
      + left. rewrite Forall_forall in C. destruct (C p Hp) as (t & tr & X). destruct (inner_segs B L (matched H t tr p X) i ltac:(lia)) as (s & Ns & Sg).
        apply (blank_entry e i s); [lia| |exact Ns]. intros v Hv. rewrite Cell by reflexivity. rewrite RW, pad_false by lia. rewrite I5 by lia. unfold rval. rewrite segs_find, Sg. clear - Hv. destruct s, v; try reflexivity; congruence.
    - right. left. assert (V : view e i (mrow_of AccountDoesNotExist SegStart PathStart (padding_row H))).
      { apply row_view; [|apply pad_types]. intros c Hc. rewrite Cell by exact Hc. rewrite RW, pad_true by lia. reflexivity. }
      unfold table_row. rewrite (start_exposed e i AccountDoesNotExist); [|lia|apply V|apply V|apply (vw_sg _ _ _ V)|apply (vw_pt _ _ _ V)].
      rewrite !(vw_iv _ _ _ V), !(vw_sp _ _ _ V), (vw_skr _ _ _ V), (vw_nv _ _ _ V), (vw_ov _ _ _ V).
      unfold final_row. apply f_equal2; [|reflexivity]. cbn [m_iv mrow_of]. change (rval (padding_row H) (iv 0)) with f0. change (rval (padding_row H) (iv 1)) with f0. ring.
  Qed.
End Table.

Lemma forall2_from H us proofs : Forall2 (converts H) us proofs -> Forall (fun p => exists t tr, proof_from H t tr = Some p) proofs.
Proof. induction 1 as [|u p us proofs X _ IH]; constructor; [exists (u_kind u), (u_trace u); exact X|exact IH]. Qed.
Lemma forall2_back H us proofs p : Forall2 (converts H) us proofs -> In p proofs -> exists u, In u us /\ converts H u p.
Proof.
  induction 1 as [|u q us proofs X _ IH]; intros Hp; [destruct Hp|]. destruct Hp as [<-|Hp]; [exists u; split; [left; reflexivity|exact X]|].
  destruct (IH Hp) as (v & I1 & I2). exists v. split; [right; exact I1|exact I2].
Qed.
Lemma honest_address H u p : honest_update H u -> converts H u p -> address_ok (c_address (pf_claim p)).
Proof.
  intros [HO Ad _ _ _] X. assert (TA : t_address (u_trace u) = be_bytes 20 (u_address u)) by (destruct HO; reflexivity).
  destruct (proof_from_inv _ _ _ _ X) as (p0 & p1 & l0 & l1 & FT). destruct (claim_from_inv _ _ _ (ft_claim _ _ _ _ _ _ _ _ FT)) as (ro & rn & kd & _ & _ & _ & _ & Ec). rewrite Ec. cbn [c_address]. rewrite TA. exact (proj1 (ok_address Ad)).
Qed.
Lemma honest_addresses H us proofs : Forall (honest_update H) us -> Forall2 (converts H) us proofs -> Forall (fun p => address_ok (c_address (pf_claim p))) proofs.
Proof. intros F C. apply Forall_forall. intros p Hp. destruct (forall2_back _ _ _ _ C Hp) as (u & Hu & X). rewrite Forall_forall in F. exact (honest_address H u p (F u Hu) X). Qed.
Theorem honest_only H us proofs par threads n r ws e : Forall (honest_update H) us -> Forall2 (converts H) us proofs -> (0 < threads)%nat ->
  mpt_assign H par threads proofs n r = Some ws -> filled e r ws -> room e n -> enough_rows H proofs n ->
  forall row, exposes e row -> row <> blank_row -> row <> final_row -> exists u s, In u us /\ says H (echal e) u s /\ row = encode (echal e) s.
Proof.
  intros F C T E FL Rm En row X B1 B2. destruct (only_claims (forall2_from _ _ _ C) T E FL Rm En row (honest_addresses _ _ _ F C) X) as [Y|[Y|(p & Hp & Y)]]; [contradiction|contradiction|].
  destruct (forall2_back _ _ _ _ C Hp) as (u & Hu & Q). rewrite Forall_forall in F. exists u, (claim_statement (echal e) (pf_claim p)). split; [exact Hu|]. split; [exact (claim_says H (echal e) u p (F u Hu) Q)|]. rewrite <- claim_row_as. exact Y.
Qed.
Theorem honest_all_assigned H us proofs : Forall (honest_update H) us -> Forall2 (converts H) us proofs ->
  exists m, mpt_n_rows_required H proofs = Some m /\ forall par threads n r, (0 < threads)%nat -> m + 30 <= n -> exists ws, mpt_assign H par threads proofs n r = Some ws.
Proof. intros F C. destruct (honest_rows_required H us proofs F C) as (m & M). exists m. split; [exact M|]. intros par threads n r T Hn. exact (honest_assigned H us proofs m par threads n r F C T M Hn). Qed.
Theorem table_case r : exists proofs ws e, length proofs = 13%nat /\ Forall (fun p => exists t tr, proof_from mix t tr = Some p) proofs /\
  mpt_assign mix true 4 proofs 2080 r = Some ws /\ filled e r ws /\ room e 2080 /\ enough_rows mix proofs 2080 /\ Forall (fun p => address_ok (c_address (pf_claim p))) proofs.
Proof.
  destruct (honest_case r) as (proofs & ws & e & traces & F & Ln & C & En & E & FL & Rm & _). exists proofs, ws, e. split; [|split; [exact (forall2_from _ _ _ C)|repeat (split; [assumption|]); exact (honest_addresses _ _ _ F C)]].
  clear - C Ln. rewrite <- Ln. clear Ln. induction C; cbn; congruence.
Qed.
