(* The hash inputs of an honest update do not collide; the hashes of an account are recorded. *)
From Coq Require Import ZArith List Bool Lia.
From Verif Require Import Pocklington Fr Query Builder BuilderProofs Gadgets MptUpdate Bytes GadgetProofs UpdateRows TrieSpec UpdateComplete Util UtilProofs Serde Trie Storage Types TypesProofs Lookups LookupMain
  TrieProofs HonestTrace HonestSpec UpdateAssign BlockView BlocksOk RowsOk RowCells BlockRows Chain UpperOk LeafOk StorageOk TreeChain HonestPath TablesOk UtilMain GadgetMain GadgetMain2 Assign.
Import ListNotations.
Open Scope Z_scope.

Section Inputs.
  Context {H : Fr -> Fr -> Fr -> Fr} {V : Type} (hv : V -> Fr) (iv : V -> list triple).
  Lemma end_inputs (t : tree V) k k' v : forall d, tree_end t d k = Leaf k' v -> In (k', hv v, fdom DLeaf) (tree_inputs H hv iv t) /\ incl (iv v) (tree_inputs H hv iv t).
  Proof.
    induction t as [|k0 v0|l IHl r IHr]; intros d E; cbn [tree_end tree_inputs] in *; [discriminate E| |].
    - assert (k0 = k') by congruence. assert (v0 = v) by congruence. subst. split; [left; reflexivity|]. apply incl_tl, incl_refl.
    - assert (X : In (k', hv v, fdom DLeaf) (tree_inputs H hv iv l ++ tree_inputs H hv iv r) /\ incl (iv v) (tree_inputs H hv iv l ++ tree_inputs H hv iv r)).
      { destruct (kbit k d); [destruct (IHr _ E) as [A B]|destruct (IHl _ E) as [A B]]; (split; [apply in_or_app; auto|]); [apply incl_appr, B|apply incl_appl, B]. }
      destruct X as [X1 X2]. split; [right; exact X1|apply incl_tl, X2].
  Qed.
  Lemma end_all (P : V -> Prop) (t : tree V) k k' v : forall d, tree_all P t -> tree_end t d k = Leaf k' v -> P v.
  Proof.
    induction t as [|k0 v0|l IHl r IHr]; intros d A E; cbn [tree_end tree_all] in *; [discriminate E|congruence|]. destruct A as [A B]. destruct (kbit k d); eauto.
  Qed.
End Inputs.

Section Free.
  Context {H : Fr -> Fr -> Fr -> Fr} {t t' : tree account}.
  Hypothesis CF : collision_free H (inputs_of H t t').
  Notation S := (state_inputs H t ++ state_inputs H t').
  Lemma in_inputs x y d0 d : In (x, y, d0) S -> inputs_of H t t' (x, y, fdom d).
  Proof. intros I. split; cbn [fst snd]; [exists d0; right; exact I|eauto]. Qed.
  Lemma zero_inputs d : inputs_of H t t' (f0, f0, fdom d).
  Proof. split; cbn [fst snd]; [exists (fdom DPair); left; reflexivity|eauto]. Qed.
  Lemma fdom_eq d d' : fdom d = fdom d' -> d = d'. Proof. apply fdom_inj. Qed.
  Lemma cf_only x y d0 d : In (x, y, d0) S -> only_domain H x y (H x y (fdom d)) d.
  Proof.
    intros I. split; [reflexivity|]. intros d' _ E. apply fdom_eq. apply (proj1 CF _ _ (in_inputs _ _ _ d' I) (in_inputs _ _ _ d I)) in E. congruence.
  Qed.
  Lemma cf_nonzero x y d0 d : In (x, y, d0) S -> H x y (fdom d) <> f0.
  Proof. intros I. exact (proj2 CF _ (in_inputs _ _ _ d I)). Qed.
  Lemma cf_pair_nonzero : ZERO_PAIR_HASH H <> f0.
  Proof. exact (proj2 CF _ (zero_inputs DPair)). Qed.
  Lemma cf_zero_pair x y d0 d : In (x, y, d0) S -> H x y (fdom d) = ZERO_PAIR_HASH H -> x = f0 /\ y = f0 /\ d = DPair.
  Proof.
    intros I E. apply (proj1 CF _ _ (in_inputs _ _ _ d I) (zero_inputs DPair)) in E. split; [congruence|]. split; [congruence|]. apply fdom_eq. congruence.
  Qed.
End Free.

(* the cells of an account *)
Definition lv_acc (H : Fr -> Fr -> Fr -> Fr) (a : account) : leafv := lv_of (data_of a) (storage_root H (storage a)).
Lemma c64_eq : c64 = fz (2 ^ 64). Proof. reflexivity. Qed.
Lemma lv_acc_eq H a : account_ok a -> lv_acc H a = LeafV (fz (nonce a + code_size a * 2 ^ 64)) (fz (balance a)) (storage_root H (storage a)) (fz (keccak_code_hash a / 2 ^ 128)) (fz (keccak_code_hash a mod 2 ^ 128)) (poseidon_code_hash a).
Proof.
  intros (A1 & A2 & A3 & A4 & _). unfold lv_acc, lv_of, data_of. cbn [ad_nonce ad_balance ad_code_hash ad_poseidon_code_hash ad_code_size]. rewrite !big_uint_to_fr_spec by (try (pose proof (val_range (poseidon_code_hash a))); lia).
  rewrite hi_lo_spec by exact A4. cbn [fst snd]. rewrite fz_val. f_equal. rewrite fz_add, fz_mul. reflexivity.
Qed.
Lemma be_bytes_mod n : forall x, be_bytes n (x mod 256 ^ Z.of_nat n) = be_bytes n x.
Proof.
  induction n as [|n IH]; intros x; [reflexivity|]. cbn [be_bytes]. assert (P : 0 < 256 ^ Z.of_nat n) by (apply Z.pow_pos_nonneg; lia).
  replace (256 ^ Z.of_nat (Datatypes.S n)) with (256 * 256 ^ Z.of_nat n) by (rewrite Nat2Z.inj_succ, Z.pow_succ_r by lia; reflexivity).
  rewrite Z.rem_mul_r by lia. f_equal.
  - rewrite <- (IH (x / 256)). f_equal. rewrite (Z.mul_comm 256), Z.div_add by lia. rewrite (Z.div_small (x mod 256)) by (apply Z.mod_pos_bound; lia). reflexivity.
  - f_equal. rewrite (Z.mul_comm 256), Z_mod_plus_full. apply Z.mod_mod. lia.
Qed.

Section Hits.
  Context {H : Fr -> Fr -> Fr -> Fr} {e : env} {proofs : list Proof} {traces : list Trace} {lookups : list (Fr * Z * bool)} {reprs : Reprs} {p : Proof} {t t' : tree account}.
  Hypothesis ET : hash_traces H proofs = Some traces.
  Hypothesis T : tables e traces lookups (re_u32s reprs) (re_u64s reprs) (re_u128s reprs) (re_frs reprs) (mpt_update_keys H proofs).
  Hypothesis Hp : In p proofs.
  Hypothesis CF : collision_free H (inputs_of H t t').
  Notation S := (state_inputs H t ++ state_inputs H t').
  Lemma acc_hit K a : account_ok a -> In (K, account_hash H a, fdom DLeaf) S -> incl (account_inputs H a) S ->
    pf_old_account_hash_traces p = lv_traces H K (lv_acc H a) \/ pf_new_account_hash_traces p = lv_traces H K (lv_acc H a) -> lv_hit H e K (lv_acc H a).
  Proof.
    intros OK I1 I2 Tr.
    assert (G : forall l r h d d0, In [l; r; h] (lv_traces H K (lv_acc H a)) -> In d [AccountFields; DLeaf; DPair] -> h = H l r (fdom d) -> In (l, r, d0) S -> hit e l r d h).
    { intros l r h d d0 X1 X2 -> X4. apply (tb_hash _ _ _ _ _ _ _ _ T). apply (account_covered H proofs traces p [l; r; H l r (fdom d)] l r _ d ET Hp); auto.
      - destruct Tr as [-> | ->]; auto.
      - apply (cf_only CF _ _ d0 d X4). }
    unfold lv_traces in G. revert G. unfold lv_top, lv_hash, lv_ns, lv_n, lv_s, lv_k. rewrite (lv_acc_eq H a OK). cbn [lv_nc lv_bal lv_root lv_hi lv_lo lv_pch]. unfold account_inputs in I2. intros G.
    constructor; unfold lv_top, lv_hash, lv_ns, lv_n, lv_s, lv_k; cbn [lv_nc lv_bal lv_root lv_hi lv_lo lv_pch].
    - eapply G; [do 0 right; left; reflexivity|cbn; tauto|reflexivity|]. apply I2. apply in_or_app. right. apply in_or_app. left. left. reflexivity.
    - eapply G; [do 1 right; left; reflexivity|cbn; tauto|reflexivity|]. apply I2. apply in_or_app. left. do 1 right. left. reflexivity.
    - eapply G; [do 2 right; left; reflexivity|cbn; tauto|reflexivity|]. apply I2. apply in_or_app. left. left. reflexivity.
    - eapply G; [do 3 right; left; reflexivity|cbn; tauto|reflexivity|]. apply I2. apply in_or_app. left. do 2 right. left. reflexivity.
    - eapply G; [do 4 right; left; reflexivity|cbn; tauto|reflexivity|]. apply I2. apply in_or_app. left. do 3 right. left. reflexivity.
    - eapply G; [do 5 right; left; reflexivity|cbn; tauto|reflexivity|]. exact I1.
  Qed.
  Lemma acc_hash a : account_ok a -> lv_hash H (lv_acc H a) = account_hash H a.
  Proof. intros OK. unfold lv_hash, lv_ns, lv_n, lv_s, lv_k. rewrite (lv_acc_eq H a OK). reflexivity. Qed.
  Lemma word_in w wh : 0 <= w < 2 ^ 256 -> halves_in w (re_u128s reprs) -> hit e (fz (w / 2 ^ 128)) (fz (w mod 2 ^ 128)) DPair wh -> word_here e (echal e) w wh (fz (w / 2 ^ 128)) (fz (w mod 2 ^ 128)).
  Proof.
    intros Hw [I1 I2] Hh. unfold word_here, halves. rewrite u256_hi_lo_spec by exact Hw. eexists _, _. split; [reflexivity|].
    assert (0 <= w / 2 ^ 128 < 2 ^ 128) by (split; [apply Z.div_pos; lia|apply Z.div_lt_upper_bound; lia]). assert (0 <= w mod 2 ^ 128 < 2 ^ 128) by (apply Z.mod_pos_bound; lia).
    destruct (tb_128 _ _ _ _ _ _ _ _ T _ I1 ltac:(assumption)) as [A1 A2]. destruct (tb_128 _ _ _ _ _ _ _ _ T _ I2 ltac:(assumption)) as [B1 B2].
    split; [exact A1|]. split; [exact B1|]. split; [exact Hh|]. split; [exact A2|]. split; [exact B2|]. rewrite word_rlc_halves. f_equal. f_equal.
    change (2 ^ 128) with (256 ^ Z.of_nat 16). rewrite be_bytes_mod. reflexivity.
  Qed.
  (* 32 bytes of a number below 2^248 are 31 bytes after a zero *)
  Lemma balance_rlc b r : 0 <= b < 2 ^ 248 -> rlc (u256_to_big_endian b) r = rlc (be_bytes 31 (val (fz b))) r.
  Proof.
    intros Hb. assert (2 ^ 248 < modulus) by reflexivity. rewrite val_fz, Z.mod_small by lia. unfold u256_to_big_endian, u256_to_be.
    change 32%nat with (1 + 31)%nat. rewrite be_bytes_app. change (256 ^ Z.of_nat 31) with (2 ^ 248). rewrite Z.div_small by exact Hb. change (be_bytes 1 0) with (repeat 0 1). apply UtilMain.rlc_zeros.
  Qed.
  Lemma balance_in b : 0 <= b < 2 ^ 248 -> In (fz b) (re_frs reprs) -> accepts e rlc_lookup [fz b; fz 30; rlc (u256_to_big_endian b) (echal e)].
  Proof. intros Hb I. rewrite balance_rlc by exact Hb. exact (tb_fr _ _ _ _ _ _ _ _ T _ I). Qed.
End Hits.
