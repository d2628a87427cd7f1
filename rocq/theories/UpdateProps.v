(* From row-level facts to statements about the exposed table. *)
From Coq Require Import ZArith String List Bool Lia.
From Verif Require Import Pocklington Fr Query Builder BuilderProofs Gadgets MptUpdate Bytes GadgetProofs LagrangeProofs Fixed CanonProofs UpdateRows TrieSpec UpdateWalk UpdateAccount UpdateSound UpdateClaims UpdateStorage GadgetMain TableSpec.
Import ListNotations.
Open Scope Z_scope.

(* row i of the table that mpt.rs exposes (mpt_update.rs:80-105) *)
Definition table_row (e : env) (i : Z) : list Fr := map (eval e i) mpt_update_lookup.
(* some enabled row of the table equals [row] *)
Definition exposes (e : env) (row : list Fr) : Prop := exists i, enabled e i /\ table_row e i = row.

(* the state tries a statement is about: those with the given root, all values in range, paths not longer than
   the key-bit table is reliable for, and no hash collision among the hashes of the trie and of the circuit *)
Definition trie_of (H : Fr -> Fr -> Fr -> Fr) (e : env) (n : Z) (root : Fr) (t : tree account) : Prop :=
  state_root H t = root /\ tree_all account_ok t /\
  bits_ok n (height t) /\ tree_all (fun a => bits_ok n (height (storage a))) t /\
  collision_free H (inputs H e t).

  Lemma modify_reached_ext {V} (f g : V -> V) (t : tree V) : forall d k, (forall k' v, reached t d k = Some (k', v) -> f v = g v) ->
    modify_reached f t d k = modify_reached g t d k.
  Proof.
    induction t as [|k' v'|l IHl r IHr]; intros d k E; cbn in *; [reflexivity|rewrite (E _ _ eq_refl); reflexivity|].
    destruct (kbit k d); f_equal; auto.
  Qed.
  Lemma field_claim_step c p a o w a' : field_claim c p a o w a' -> field_step c p a o w a'.
  Proof. destruct p; cbn; auto. Qed.
(** ** Facts that need neither a correct Poseidon table nor the anchor *)
Section Rows.
  Variables (H : Fr -> Fr -> Fr -> Fr) (e : env) (n : Z).
  Hypothesis F : fixed_ok e n.
  Hypothesis SAT : sat e (circuit_of (circuit H)).
  Let HD := HD0 H e n F SAT.
  Let HL := HL0 H e n F SAT.
  Let Hn := fo_rows e n F.
  Let Hu := fo_usable e n F.
  Notation adv := (adv e). Notation sg := (sg e). Notation pa := (pa e). Notation pt := (pt e).

  Lemma kind_current i : 1 <= i < n -> eval e i (oh_current oh_proof) = fz (kind_number (pt i)).
  Proof.
    intros Hi. unfold oh_current.
    destruct (eval_oh_index oh_proof ptype_wf NonceChanged e i 0 i) as (k & K1 & K2);
      [rewrite Z.add_0_r; apply Z.mod_small; lia|apply (row_pt H e n F HD); lia|].
    rewrite K2. fold (pt i) in K1. f_equal.
    destruct k as [|[|[|[|[|[|[|[|[|k]]]]]]]]]; cbn in K1; try (injection K1 as <-; reflexivity). destruct k; discriminate K1.
  Qed.
  Lemma kind_inj p q : fz (kind_number p) = fz (kind_number q) -> p = q.
  Proof.
    intros E. apply fz_inj in E; [destruct p, q; cbn in E; congruence| |]; apply small_lt_modulus; [destruct p|destruct q]; cbn; lia.
  Qed.

  Theorem inner_rows i : enabled e i -> sg i <> SegStart -> table_row e i = blank_row.
  Proof.
    intros En Ns. apply (fix_enabled e n i F) in En. unfold table_row. rewrite (exposed0 H e n F SAT i En).
    destruct (sg i); cbn [seg_eqb]; try reflexivity. congruence.
  Qed.
  (* no destructed account *)
  Theorem never_destructed i : enabled e i -> pt i <> AccountDestructed.
  Proof.
    intros En Q. apply (fix_enabled e n i F) in En. pose proof (r_seg_reach H e n F HD i En) as X. rewrite Q in X.
    apply X. reflexivity.
  Qed.
  Theorem never_exposed_destructed row : exposes e row -> nth 2 row f0 <> fz (kind_number AccountDestructed).
  Proof.
    intros (i & En & <-) Q. pose proof En as En'. apply (fix_enabled e n i F) in En'.
    unfold table_row in Q. rewrite (exposed0 H e n F SAT i En') in Q.
    destruct (seg_eqb (sg i) SegStart).
    - cbn [nth] in Q. rewrite (kind_current i En') in Q. apply kind_inj in Q. exact (never_destructed i En Q).
    - apply (kind_inj NonceChanged) in Q. discriminate Q.
  Qed.
  (* an old-path extension never occurs on an account row *)
  Theorem account_rows_not_deleted i : enabled e i -> 2 <= i -> pa i = ExtensionOld -> sg i = StorageTrie \/ sg i = StorageLeaf0.
  Proof.
    intros En H2 Q. apply (fix_enabled e n i F) in En.
    destruct (sg i) eqn:S; auto; exfalso; apply (no_ext_old H e n F HD HL i ltac:(lia)); try rewrite S; try discriminate; exact Q.
  Qed.

  (* an update is a complete sequence of rows *)
  Theorem update_complete i : 1 <= i -> i + 1 < n -> sg i = SegStart ->
    exists m, 1 <= m /\ i + m < n /\ sg (i + m) = SegStart /\ pa (i + m) = PathStart /\ pa i = PathStart /\
      (forall k, 0 < k < m -> sg (i + k) <> SegStart /\ pa (i + k) <> PathStart /\ pt (i + k) = pt i /\
         adv MU_old_value (i + k) = adv MU_old_value i /\ adv MU_new_value (i + k) = adv MU_new_value i /\
         adv MU_storage_key_rlc (i + k) = adv MU_storage_key_rlc i) /\
      (forall k, 0 <= k < m -> In (pa (i + k + 1)) (path_transitions (pa (i + k))) /\
         exists l, seg_transitions (pt i) (sg (i + k)) = Some l /\ In (sg (i + k + 1)) l).
  Proof.
    intros H1 H2 Es.
    assert (X : forall f k, (forall j, (1 <= j < k)%nat -> sg (i + Z.of_nat j) <> SegStart) -> (1 <= k)%nat -> i + Z.of_nat k <= n - 1 -> n - 1 - (i + Z.of_nat k) <= Z.of_nat f ->
      exists m, (k <= m)%nat /\ i + Z.of_nat m < n /\ sg (i + Z.of_nat m) = SegStart /\ forall j, (1 <= j < m)%nat -> sg (i + Z.of_nat j) <> SegStart).
    { induction f as [|f IH]; intros k A B C D.
      - exists k. split; [lia|]. split; [lia|]. split; [|exact A]. replace (i + Z.of_nat k) with (n - 1) by lia. exact HL.
      - destruct (seg_eqb (sg (i + Z.of_nat k)) SegStart) eqn:Q.
        + exists k. split; [lia|]. split; [lia|]. split; [destruct (sg (i + Z.of_nat k)); cbn in Q; congruence|exact A].
        + assert (Ns : sg (i + Z.of_nat k) <> SegStart) by (intros E; rewrite E in Q; discriminate Q).
          assert (L : i + Z.of_nat k <> n - 1) by (intros E; rewrite E in Ns; exact (Ns HL)).
          destruct (IH (S k)) as (m & M1 & M2 & M3 & M4); try lia.
          * intros j Hj. destruct (Nat.eq_dec j k) as [->|]; [exact Ns|apply A; lia].
          * exists m. repeat split; auto; lia. }
    destruct (X (Z.to_nat n) 1%nat) as (m & M1 & M2 & M3 & M4); try lia.
    exists (Z.of_nat m). split; [lia|]. split; [exact M2|]. split; [exact M3|].
    split; [apply (pa_start H e n F HD); [lia|exact M3]|]. split; [apply (pa_start H e n F HD); [lia|exact Es]|].
    assert (C : forall k, 0 < k < Z.of_nat m -> sg (i + k) <> SegStart /\ pa (i + k) <> PathStart /\ pt (i + k) = pt i /\
         adv MU_old_value (i + k) = adv MU_old_value i /\ adv MU_new_value (i + k) = adv MU_new_value i /\
         adv MU_storage_key_rlc (i + k) = adv MU_storage_key_rlc i).
    { intros k Hk. assert (Ns : sg (i + k) <> SegStart) by (replace k with (Z.of_nat (Z.to_nat k)) by lia; apply M4; lia).
      split; [exact Ns|]. split; [intros Q; apply Ns, (sg_start H e n F HD); [lia|exact Q]|].
      destruct (pt_const H e n F HD i (Z.to_nat k) H1) as (A1 & A2 & A3 & A4); [lia|intros j Hj; apply M4; lia|].
      replace (Z.of_nat (Z.to_nat k)) with k in * by lia. auto. }
    split; [exact C|]. intros k Hk. split; [apply (r_path_trans H e n F HD); lia|].
    destruct (r_seg_trans H e n F HD (i + k)) as (l & L1 & L2); [lia|lia|]. exists l. split; [|exact L2].
    destruct (Z.eq_dec k 0) as [->|Ne]; [replace (i + 0) with i in * by lia; exact L1|].
    destruct (C k ltac:(lia)) as (_ & _ & P & _). rewrite <- P. exact L1.
  Qed.
End Rows.

Section Props.
  Variables (H : Fr -> Fr -> Fr -> Fr) (e : env) (n : Z).
  Hypothesis OK : circuit_ok H e n.
  Let F : fixed_ok e n := co_fixed H e n OK.
  Let HD := HD H e n OK.
  Let HL := HL H e n OK.
  Let Hn := fo_rows e n F.
  Let Hu := fo_usable e n F.
  Notation adv := (adv e). Notation sg := (sg e). Notation pa := (pa e). Notation pt := (pt e).

  (* what a start row says *)
  Record row_statement (i : Z) (s : statement) : Prop := {
    rs_seg : sg i = SegStart;
    rs_address : 0 <= st_address s < 2 ^ 160;
    rs_key : adv MU_key i = addr_key H (st_address s);
    rs_slot : st_slot_rlc s = adv MU_storage_key_rlc i;
    rs_kind : st_kind s = pt i;
    rs_new_root : st_new_root s = adv MU_new_hash i;
    rs_old_root : st_old_root s = adv MU_old_hash i;
    rs_new : st_new_value s = adv MU_new_value i;
    rs_old : st_old_value s = adv MU_old_value i }.
  Lemma start_statement i : 1 <= i < n -> sg i = SegStart -> exists s, row_statement i s /\ table_row e i = encode (echal e) s.
  Proof.
    intros Hi Es. destruct (start_row H e n OK i Hi Es) as (a & Ra & Ea & Ka & So & Sn).
    exists (Statement a (adv MU_storage_key_rlc i) (pt i) (adv MU_new_hash i) (adv MU_old_hash i) (adv MU_new_value i) (adv MU_old_value i)).
    split; [constructor; auto|]. unfold table_row. rewrite (exposed H e n OK i Hi), Es.
    cbn [seg_eqb]. unfold encode. cbn [st_address st_slot_rlc st_kind st_new_root st_old_root st_new_value st_old_value].
    rewrite <- (kind_current H e n F (co_sat H e n OK)) by exact Hi. rewrite <- Ea, So, Sn. reflexivity.
  Qed.
  Theorem table_rows i : enabled e i ->
    table_row e i = blank_row \/ (i = n - 1 /\ table_row e i = final_row) \/
    (i + 1 < n /\ exists s, row_statement i s /\ table_row e i = encode (echal e) s).
  Proof.
    intros En. apply (fix_enabled e n i F) in En. destruct (Z.eq_dec i (n - 1)) as [->|Ne].
    - right; left. split; [reflexivity|]. apply (last_start H e n OK).
    - destruct (seg_eqb (sg i) SegStart) eqn:Q.
      + right; right. split; [lia|]. apply start_statement; [exact En|]. destruct (sg i); cbn in Q; congruence.
      + left. unfold table_row. rewrite (exposed H e n OK i En), Q. reflexivity.
  Qed.
  Theorem exposes_statement row : exposes e row -> row <> blank_row -> row <> final_row ->
    exists i s, 1 <= i /\ i + 1 < n /\ row_statement i s /\ row = encode (echal e) s.
  Proof.
    intros (i & En & E) N1 N2. destruct (table_rows i En) as [X|[(_ & X)|(Lt & s & R & X)]]; [congruence|congruence|].
    apply (fix_enabled e n i F) in En. exists i, s. rewrite E in X. auto with zarith.
  Qed.
  Lemma encode_kind c s k : nth 2 (encode c s) f0 = fz (kind_number k) -> st_kind s = k.
  Proof. intros E. apply kind_inj. exact E. Qed.

  (* account fields *)
  Theorem field_sound i s t : 1 <= i -> i + 1 < n -> row_statement i s -> field_proof (st_kind s) = true -> trie_of H e n (st_old_root s) t ->
    match get t 0 (addr_key H (st_address s)) with
    | Some a => exists a', field_step (echal e) (st_kind s) a (st_old_value s) (st_new_value s) a' /\
                  state_root H (modify (fun _ => a') t 0 (addr_key H (st_address s))) = st_new_root s
    | None =>
        (st_old_value s = f0 /\
           ((st_new_value s = f0 /\ st_new_root s = st_old_root s) \/ st_kind s = NonceChanged \/ st_kind s = BalanceChanged)) \/
        (exists k b b', reached t 0 (addr_key H (st_address s)) = Some (k, b) /\ k <> addr_key H (st_address s) /\
           field_step (echal e) (st_kind s) b (st_old_value s) (st_new_value s) b' /\
           state_root H (modify_reached (fun _ => b') t 0 (addr_key H (st_address s))) = st_new_root s)
    end.
  Proof.
    intros H1 H2 R Fp (T1 & T2 & T3 & T4 & T5). destruct R as [Rs Ra Rk Rsl Rp Rn Ro Rnv Rov].
    rewrite Rp in *. rewrite Rn, Rov, Rnv, Ro, <- Rk in *.
    destruct (account_claim H e n OK t i (conj H1 H2) Rs T1 T3 T2 T5 Fp) as [(k & a & a' & A & B & C)|(A & B & C)].
    - destruct (get t 0 (adv MU_key i)) as [x|] eqn:G.
      + pose proof (get_reached t _ _ _ G) as G'. rewrite G' in A. injection A as <- <-.
        exists a'. split; [apply field_claim_step; exact B|]. rewrite (modify_reached_get _ t 0 _ x G) in C. exact C.
      + right. exists k, a, a'. split; [exact A|]. split; [intros ->; apply reached_get in A; congruence|].
        split; [apply field_claim_step; exact B|exact C].
    - rewrite A. left. split; [exact B|]. destruct C as [[C1 C2]|C]; auto.
  Qed.
  Theorem absent_sound i s t : 1 <= i -> i + 1 < n -> row_statement i s -> st_kind s = AccountDoesNotExist -> trie_of H e n (st_old_root s) t ->
    account_absent H s t.
  Proof.
    intros H1 H2 R Fp (T1 & T2 & T3 & T4 & T5). destruct R as [Rs Ra Rk Rsl Rp Rn Ro Rnv Rov].
    unfold account_absent. rewrite Rn, Rov, Rnv, Ro, <- Rk in *. rewrite Rp in Fp.
    apply (account_missing H e n OK t i (conj H1 H2) Rs T1 T3 T5 Fp).
  Qed.
  Theorem slot_absent_sound i s t : 1 <= i -> i + 1 < n -> row_statement i s -> st_kind s = StorageDoesNotExist -> trie_of H e n (st_old_root s) t ->
    slot_absent H (echal e) s t.
  Proof.
    intros H1 H2 R Fp (T1 & T2 & T3 & T4 & T5). destruct R as [Rs Ra Rk Rsl Rp Rn Ro Rnv Rov].
    unfold slot_absent. rewrite Rn, Rov, Rnv, Ro, Rsl, <- Rk in *. rewrite Rp in Fp.
    apply (storage_missing H e n OK t i (conj H1 H2) Rs T1 T3 T4 T5 Fp).
  Qed.

  Theorem slot_sound i s t : 1 <= i -> i + 1 < n -> row_statement i s -> st_kind s = StorageChanged -> trie_of H e n (st_old_root s) t ->
    forall a, get t 0 (addr_key H (st_address s)) = Some a ->
    exists slot, word_ok slot /\ st_slot_rlc s = word_rlc (echal e) slot /\
      match get (storage a) 0 (slot_key H slot) with
      | Some w => st_new_value s = f0 \/ (w <> 0 /\ exists w', w' <> 0 /\ slot_overwritten H (echal e) s t slot w w')
      | None => st_old_value s = f0 \/ st_new_value s = f0 \/
                exists k v, reached (storage a) 0 (slot_key H slot) = Some (k, v) /\ k <> slot_key H slot
      end.
  Proof.
    intros H1 H2 R Fp (T1 & T2 & T3 & T4 & T5) a G. destruct R as [Rs Ra Rk Rsl Rp Rn Ro Rnv Rov].
    unfold slot_overwritten. rewrite Rn, Rov, Rnv, Ro, Rsl, <- Rk in *. rewrite Rp in Fp.
    destruct (storage_claim H e n OK t i (conj H1 H2) Rs T1 T3 T4 T2 T5 Fp) as [(A & _)|(k & b & slot & A & Ws & Es & C)]; [congruence|].
    rewrite (get_reached t _ _ _ G) in A. injection A as <- <-. cbv zeta in C.
    exists slot. split; [exact Ws|]. split; [exact Es|].
    destruct C as [(k' & w & w' & B1 & B2 & B3 & B4 & B5 & B6 & B7)|[(B1 & B2)|B]].
    - destruct (get (storage a) 0 (slot_key H slot)) as [x|] eqn:G2.
      + pose proof (get_reached _ _ _ _ G2) as G2'. rewrite B1 in G2'. injection G2' as -> ->.
        right. split; [exact B2|]. exists w'. split; [exact B4|]. repeat split; auto; try apply B3.
        rewrite <- B7. f_equal. rewrite (modify_reached_get _ t 0 _ a G), (modify_reached_get _ (storage a) 0 _ x G2).
        rewrite <- (modify_reached_get _ t 0 _ a G), <- (modify_reached_get _ t 0 _ a G).
        apply modify_reached_ext. intros k2 v2 E. rewrite (get_reached t _ _ _ G) in E. injection E as _ <-. reflexivity.
      + right; right. exists k', w. split; [exact B1|]. intros ->. apply reached_get in B1. congruence.
    - rewrite B1. auto.
    - destruct (get (storage a) 0 (slot_key H slot)); auto.
  Qed.
  Theorem slot_missing_account i s t : 1 <= i -> i + 1 < n -> row_statement i s -> st_kind s = StorageChanged -> trie_of H e n (st_old_root s) t ->
    get t 0 (addr_key H (st_address s)) = None -> st_old_value s = f0 \/
    exists k b, reached t 0 (addr_key H (st_address s)) = Some (k, b) /\ k <> addr_key H (st_address s).
  Proof.
    intros H1 H2 R Fp (T1 & T2 & T3 & T4 & T5) G. destruct R as [Rs Ra Rk Rsl Rp Rn Ro Rnv Rov].
    rewrite Rov, Ro, <- Rk in *. rewrite Rp in Fp.
    destruct (storage_claim H e n OK t i (conj H1 H2) Rs T1 T3 T4 T2 T5 Fp) as [(A & B)|(k & b & slot & A & _)]; [auto|].
    right. exists k, b. split; [exact A|]. intros ->. apply reached_get in A. congruence.
  Qed.

End Props.

(** ** One theorem per kind of claim *)
Section Kinds.
  Variables (H : Fr -> Fr -> Fr -> Fr) (e : env) (n : Z).
  Hypothesis OK : circuit_ok H e n.
  Lemma nth2_encode c s : nth 2 (encode c s) f0 = fz (kind_number (st_kind s)). Proof. reflexivity. Qed.
  Lemma final_kind p : p <> AccountDoesNotExist -> nth 2 final_row f0 <> fz (kind_number p).
  Proof. intros N E. change (nth 2 final_row f0) with (fz (kind_number AccountDoesNotExist)) in E. apply kind_inj in E. congruence. Qed.
  Lemma decode_row row p : exposes e row -> nth 2 row f0 = fz (kind_number p) -> row <> blank_row -> row <> final_row ->
    exists i s, 1 <= i /\ i + 1 < n /\ row_statement H e i s /\ row = encode (echal e) s /\ st_kind s = p.
  Proof.
    intros Ex K N1 N2. destruct (exposes_statement H e n OK row Ex N1 N2) as (i & s & A & B & C & D).
    exists i, s. rewrite D in K. rewrite nth2_encode in K. apply kind_inj in K. auto.
  Qed.
  Theorem field_kind p row : field_proof p = true -> exposes e row -> nth 2 row f0 = fz (kind_number p) -> row <> blank_row ->
    exists s, row = encode (echal e) s /\ st_kind s = p /\ 0 <= st_address s < 2 ^ 160 /\
    forall t, trie_of H e n (st_old_root s) t ->
      account_field_updated H (echal e) s t /\
      (get t 0 (addr_key H (st_address s)) = None ->
        (st_old_value s = f0 /\ ((st_new_value s = f0 /\ st_new_root s = st_old_root s) \/ p = NonceChanged \/ p = BalanceChanged)) \/
        (exists k b, reached t 0 (addr_key H (st_address s)) = Some (k, b) /\ k <> addr_key H (st_address s))).
  Proof.
    intros Fp Ex K N. destruct (decode_row row p Ex K N) as (i & s & A & B & C & D & E).
    { intros ->. apply (final_kind p) in K; [exact K|]. intros ->. discriminate Fp. }
    exists s. split; [exact D|]. split; [exact E|]. split; [apply C|]. intros t Ht.
    pose proof (field_sound H e n OK i s t A B C ltac:(rewrite E; exact Fp) Ht) as X. split.
    - intros a Ga. rewrite Ga in X. exact X.
    - intros G. rewrite G in X. rewrite E in X. destruct X as [X|(k & b & b' & X1 & X2 & _)]; [left; exact X|right; exists k, b; auto].
  Qed.
  Theorem written_kind p row : p = NonceChanged \/ p = BalanceChanged -> exposes e row -> nth 2 row f0 = fz (kind_number p) -> row <> blank_row ->
    exists s, row = encode (echal e) s /\ st_kind s = p /\ 0 <= st_address s < 2 ^ 160 /\
    forall t, trie_of H e n (st_old_root s) t ->
      account_field_updated H (echal e) s t /\
      (get t 0 (addr_key H (st_address s)) = None -> st_old_value s = f0 \/
        (exists k b, reached t 0 (addr_key H (st_address s)) = Some (k, b) /\ k <> addr_key H (st_address s))).
  Proof.
    intros Hp Ex K N. destruct (field_kind p row ltac:(destruct Hp as [-> | ->]; reflexivity) Ex K N) as (s & A & B & C & D).
    exists s. split; [exact A|]. split; [exact B|]. split; [exact C|]. intros t Ht. destruct (D t Ht) as [E F]. split; [exact E|]. intros G. destruct (F G) as [[X _]|X]; auto.
  Qed.
  Theorem read_kind p row : field_proof p = true -> p <> NonceChanged -> p <> BalanceChanged -> exposes e row -> nth 2 row f0 = fz (kind_number p) -> row <> blank_row ->
    exists s, row = encode (echal e) s /\ st_kind s = p /\ 0 <= st_address s < 2 ^ 160 /\
    forall t, trie_of H e n (st_old_root s) t ->
      account_field_updated H (echal e) s t /\
      (get t 0 (addr_key H (st_address s)) = None -> (st_old_value s = f0 /\ st_new_value s = f0 /\ st_new_root s = st_old_root s) \/
        (exists k b, reached t 0 (addr_key H (st_address s)) = Some (k, b) /\ k <> addr_key H (st_address s))).
  Proof.
    intros Fp N1 N2 Ex K N. destruct (field_kind p row Fp Ex K N) as (s & A & B & C & D).
    exists s. split; [exact A|]. split; [exact B|]. split; [exact C|]. intros t Ht. destruct (D t Ht) as [E F]. split; [exact E|]. intros G. destruct (F G) as [[X [Y|[Y|Y]]]|X]; auto; contradiction.
  Qed.
  Theorem absent_kind row : exposes e row -> nth 2 row f0 = fz (kind_number AccountDoesNotExist) -> row <> final_row ->
    exists s, row = encode (echal e) s /\ st_kind s = AccountDoesNotExist /\ 0 <= st_address s < 2 ^ 160 /\
    forall t, trie_of H e n (st_old_root s) t -> account_absent H s t.
  Proof.
    intros Ex K N. destruct (decode_row row AccountDoesNotExist Ex K) as (i & s & A & B & C & D & E); [|exact N|].
    { intros ->. apply (kind_inj NonceChanged) in K. discriminate K. }
    exists s. split; [exact D|]. split; [exact E|]. split; [apply C|]. intros t Ht.
    apply (absent_sound H e n OK i s t A B C E Ht).
  Qed.
  Lemma blank_final row p : nth 2 row f0 = fz (kind_number p) -> p = StorageChanged \/ p = StorageDoesNotExist -> row <> blank_row /\ row <> final_row.
  Proof.
    intros K P. split; intros ->.
    - apply (kind_inj NonceChanged) in K. destruct P; congruence.
    - apply (final_kind p) in K; [exact K|]. destruct P; congruence.
  Qed.
  Theorem slot_absent_kind row : exposes e row -> nth 2 row f0 = fz (kind_number StorageDoesNotExist) ->
    exists s, row = encode (echal e) s /\ st_kind s = StorageDoesNotExist /\ 0 <= st_address s < 2 ^ 160 /\
    forall t, trie_of H e n (st_old_root s) t -> slot_absent H (echal e) s t.
  Proof.
    intros Ex K. destruct (blank_final _ _ K) as [N1 N2]; [auto|].
    destruct (decode_row row _ Ex K N1 N2) as (i & s & A & B & C & D & E).
    exists s. split; [exact D|]. split; [exact E|]. split; [apply C|]. intros t Ht.
    apply (slot_absent_sound H e n OK i s t A B C E Ht).
  Qed.
  Theorem slot_kind row : exposes e row -> nth 2 row f0 = fz (kind_number StorageChanged) ->
    exists s, row = encode (echal e) s /\ st_kind s = StorageChanged /\ 0 <= st_address s < 2 ^ 160 /\
    forall t, trie_of H e n (st_old_root s) t ->
      (forall a, get t 0 (addr_key H (st_address s)) = Some a ->
       exists slot, word_ok slot /\ st_slot_rlc s = word_rlc (echal e) slot /\
       match get (storage a) 0 (slot_key H slot) with
       | Some w => st_new_value s = f0 \/ (w <> 0 /\ exists w', w' <> 0 /\ slot_overwritten H (echal e) s t slot w w')
       | None => st_old_value s = f0 \/ st_new_value s = f0 \/
                 exists k v, reached (storage a) 0 (slot_key H slot) = Some (k, v) /\ k <> slot_key H slot
       end) /\
      (get t 0 (addr_key H (st_address s)) = None -> st_old_value s = f0 \/
       exists k b, reached t 0 (addr_key H (st_address s)) = Some (k, b) /\ k <> addr_key H (st_address s)).
  Proof.
    intros Ex K. destruct (blank_final _ _ K) as [N1 N2]; [auto|].
    destruct (decode_row row _ Ex K N1 N2) as (i & s & A & B & C & D & E).
    exists s. split; [exact D|]. split; [exact E|]. split; [apply C|]. intros t Ht. split.
    - apply (slot_sound H e n OK i s t A B C E Ht).
    - apply (slot_missing_account H e n OK i s t A B C E Ht).
  Qed.
End Kinds.
