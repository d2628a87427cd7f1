(* Claims about storage slots. *)
From Coq Require Import ZArith String List Bool Lia.
From Verif Require Import Pocklington Fr Query Builder BuilderProofs Gadgets MptUpdate Bytes GadgetProofs LagrangeProofs Fixed CanonProofs UpdateRows TrieSpec UpdateWalk UpdateAccount UpdateSound UpdateClaims.
Import ListNotations.
Open Scope Z_scope.

Section Storage.
  Variables (H : Fr -> Fr -> Fr -> Fr) (e : env) (n : Z).
  Hypothesis OK : circuit_ok H e n.
  Let F : fixed_ok e n := co_fixed H e n OK.
  Let HD := HD H e n OK.
  Let HL := HL H e n OK.
  Let Hn := fo_rows e n F.
  Let Hu := fo_usable e n F.
  Let HP := co_poseidon H e n OK.
  Notation adv := (adv e). Notation sg := (sg e). Notation pa := (pa e). Notation pt := (pt e).
  Notation PH := (PH e). Notation oldP := (oldP e). Notation newP := (newP e).

  (* rows i+1 .. i+d are common storage-trie rows *)
  Definition sto_run (i : Z) (d : nat) := forall k, (1 <= k <= d)%nat -> sg (i + Z.of_nat k) = StorageTrie /\ pa (i + Z.of_nat k) = Common.
  Definition common_sto (s : SegmentType) (p : PathType) := match s, p with StorageTrie, Common => true | _, _ => false end.
  Lemma sto_run_max i : 1 <= i -> i + 1 < n ->
    exists d, sto_run i d /\ i + Z.of_nat d + 1 < n /\ common_sto (sg (i + Z.of_nat d + 1)) (pa (i + Z.of_nat d + 1)) = false.
  Proof.
    intros Hi Hi'.
    assert (G : forall m d, i + Z.of_nat d + 1 + Z.of_nat m >= n -> sto_run i d -> i + Z.of_nat d + 1 < n ->
      exists d, sto_run i d /\ i + Z.of_nat d + 1 < n /\ common_sto (sg (i + Z.of_nat d + 1)) (pa (i + Z.of_nat d + 1)) = false).
    { induction m as [|m IH]; intros d Hm Hr Hlt; [lia|].
      destruct (common_sto (sg (i + Z.of_nat d + 1)) (pa (i + Z.of_nat d + 1))) eqn:E.
      - apply (IH (S d)).
        + lia.
        + intros k Hk. destruct (Nat.eq_dec k (S d)) as [->|Ne]; [|apply Hr; lia].
          replace (i + Z.of_nat (S d)) with (i + Z.of_nat d + 1) by lia.
          destruct (sg (i + Z.of_nat d + 1)), (pa (i + Z.of_nat d + 1)); cbn in E; try discriminate; auto.
        + replace (i + Z.of_nat (S d) + 1) with ((i + Z.of_nat d + 1) + 1) by lia. apply (next_lt e n HL); [lia|].
          intros Es'. rewrite Es' in E. discriminate.
      - exists d. auto. }
    apply (G (Z.to_nat n) 0%nat); [lia| |lia]. intros k Hk. lia.
  Qed.

  (* storage part of an update whose AccountLeaf3 row is l (on the common path) *)
  (* a word whose hash (for a slot: its key) is in the circuit's Poseidon table *)
  Definition hashed_slot (slot : Z) : Prop := word_ok slot /\ poseidon_hit e (fz (slot / 2 ^ 128)) (fz (slot mod 2 ^ 128)) (fdom DPair) (slot_key H slot).
  Section Part.
    Variable S : triple -> Prop.
    Hypothesis CF : collision_free H S.
    Hypothesis HT : forall l r d h, poseidon_hit e l r d h -> S (l, r, d).
    Variables (st : tree Z) (l : Z).
    Hypothesis Hl : 1 <= l /\ l + 1 < n.
    Hypothesis S3 : sg l = AccountLeaf3.
    Hypothesis P3 : pa l = Common.
    Hypothesis Hknown : known H S (word_hash H) word_inputs st.
    Hypothesis Hsroot : storage_root H st = adv MU_old_hash l.
    Hypothesis Hbits : bits_ok n (height st).
    Let K := adv MU_key l.
    Variable d : nat.
    Hypothesis Hrun : sto_run l d.
    Let j := l + Z.of_nat d.
    Hypothesis Hj : j + 1 < n.
    Lemma s_in_trie : in_trie e StorageTrie l d. Proof. intros k Hk. apply Hrun. exact Hk. Qed.
    Lemma l_not_trie : is_trie_seg (sg l) = false. Proof. rewrite S3. reflexivity. Qed.
    Lemma s_hashes : pa (j + 1) = Common \/ pa (j + 1) = PathStart -> forall k, (1 <= k <= d)%nat ->
      oldP (l + Z.of_nat k) (adv MU_domain (l + Z.of_nat k)) /\ newP (l + Z.of_nat k) (adv MU_domain (l + Z.of_nat k)).
    Proof.
      intros Hp k Hk. destruct (Hrun k Hk) as [_ Pk].
      pose proof (r_common H e n F HD (l + Z.of_nat k) ltac:(lia) ltac:(unfold j in Hj; lia) Pk) as C. unfold common_facts in C.
      assert (Pn : pa (l + Z.of_nat k + 1) = Common \/ pa (l + Z.of_nat k + 1) = PathStart).
      { destruct (Nat.eq_dec k d) as [->|Ne]; [exact Hp|]. left.
        destruct (Hrun (Datatypes.S k) ltac:(lia)) as [_ X]. replace (l + Z.of_nat k + 1) with (l + Z.of_nat (Datatypes.S k)) by lia. exact X. }
      destruct Pn as [Pn|Pn]; rewrite Pn in C; exact C.
    Qed.
    Lemma s_hashes_old : pa (j + 1) <> ExtensionOld -> forall k, (1 <= k <= d)%nat ->
      oldP (l + Z.of_nat k) (adv MU_domain (l + Z.of_nat k)).
    Proof.
      intros Hp k Hk. destruct (Hrun k Hk) as [_ Pk].
      pose proof (r_common H e n F HD (l + Z.of_nat k) ltac:(lia) ltac:(unfold j in Hj; lia) Pk) as C. unfold common_facts in C.
      assert (Pn : pa (l + Z.of_nat k + 1) <> ExtensionOld).
      { destruct (Nat.eq_dec k d) as [->|Ne]; [exact Hp|].
        destruct (Hrun (Datatypes.S k) ltac:(lia)) as [_ X]. replace (l + Z.of_nat k + 1) with (l + Z.of_nat (Datatypes.S k)) by lia. rewrite X. discriminate. }
      destruct (pa (l + Z.of_nat k + 1)); try congruence; apply C.
    Qed.
    Lemma s_old : pa (j + 1) <> ExtensionOld ->
      exists u, sub st K 0 d = Some u /\ known H S (word_hash H) word_inputs u /\ thash H (word_hash H) u = adv MU_old_hash j.
    Proof.
      intros Hp.
      destruct (walk_old H e n F HD (DCR H e n OK) (DKB H e n OK) HP S CF HT (word_hash H) word_inputs
        StorageTrie l K eq_refl ltac:(lia) l_not_trie eq_refl st d Hbits s_in_trie ltac:(fold j; lia) Hknown Hsroot (s_hashes_old Hp))
        as (u & A & B & C & _).
      exists u. auto.
    Qed.
    Lemma s_key : adv MU_key j = K.
    Proof. apply (trie_key H e n F HD StorageTrie l K eq_refl ltac:(lia) eq_refl d s_in_trie). fold j. lia. Qed.
    Lemma s_new u u' : pa (j + 1) = Common \/ pa (j + 1) = PathStart -> sub st K 0 d = Some u ->
      is_node u' = is_node u -> thash H (word_hash H) u' = adv MU_new_hash j ->
      storage_root H (repl st K 0 d u') = adv MU_new_hash l.
    Proof.
      intros Hp Hsub. apply (walk_new H e n F HD (DCR H e n OK) (DKB H e n OK) HP S CF HT (word_hash H) word_inputs
        StorageTrie l K eq_refl ltac:(lia) l_not_trie eq_refl st d u Hbits s_in_trie ltac:(fold j; lia) Hknown Hsroot (s_hashes Hp) Hsub).
    Qed.
    (* a non-existence row at the end of the run *)
    Lemma s_absent v other data : pa (j + 1) <> ExtensionOld -> nonex e v (adv MU_old_hash j) (adv MU_key j) other data -> get st 0 K = None.
    Proof.
      intros Hp N. destruct s_old as (u & U1 & U2 & U3); [exact Hp|].
      rewrite (sub_get d st K 0 u U1). rewrite s_key, <- U3 in N.
      apply (nonex_get H e HP S CF HT (word_hash H) word_inputs u _ _ _ _ _ U2 N).
    Qed.
    (* a new-extension below: nothing was there *)
    Lemma ext_new_sto m : forall i, n - i <= Z.of_nat m -> 2 <= i < n -> pa i = ExtensionNew ->
      (sg i = StorageTrie \/ sg i = StorageLeaf0) ->
      exists other data, nonex e f0 (adv MU_old_hash (i - 1)) (adv MU_key (i - 1)) other data /\ adv MU_old_value i = f0.
    Proof.
      induction m as [|m IH]; intros i Hm Hi Hp Hsg; [lia|].
      assert (Hns : sg i <> SegStart) by (destruct Hsg as [E|E]; rewrite E; discriminate).
      assert (Hlt : i + 1 < n) by (apply (next_lt e n HL); [lia|exact Hns]).
      destruct (r_ext_new H e n F HD i) as (X1 & X2 & X3 & _ & _ & _ & X7); [lia|lia|exact Hp|].
      destruct (r_key H e n F HD i) as [Ek _]; [lia|exact Hns|destruct Hsg as [E|E]; rewrite E; discriminate|].
      destruct Hsg as [E|E].
      - pose proof (r_path_trans H e n F HD i ltac:(lia) Hlt) as T. rewrite Hp in T. cbn in T.
        destruct (r_seg_trans H e n F HD i ltac:(lia) Hlt) as (l' & TS & I). rewrite E in TS.
        assert (Nx : sg (i + 1) = StorageTrie \/ sg (i + 1) = StorageLeaf0).
        { cbn in X1. destruct X1 as [X1|[X1|[X1|[]]]]; rewrite <- X1 in TS; cbn in TS; try discriminate TS; injection TS as <-; cbn in I; clear - I; intuition congruence. }
        assert (Pn : pa (i + 1) = ExtensionNew).
        { assert (Y : pa (i + 1) <> PathStart) by (intros Y; apply (sg_start H e n F HD) in Y; [|lia]; destruct Nx as [Nx|Nx]; rewrite Nx in Y; discriminate).
          clear - T Y. intuition congruence. }
        destruct (IH (i + 1)) as (o & dt & N & _); [lia|lia|exact Pn|exact Nx|].
        replace (i + 1 - 1) with i in N by lia. rewrite X3, Ek in N. exists o, dt. auto.
      - specialize (X7 ltac:(rewrite E; reflexivity)). rewrite X2, X3, Ek in X7. eauto.
    Qed.
    Lemma s_absent_new : (sg (j + 1) = StorageTrie \/ sg (j + 1) = StorageLeaf0) -> pa (j + 1) = ExtensionNew ->
      get st 0 K = None /\ adv MU_old_value (j + 1) = f0.
    Proof.
      intros Sg Pn. destruct (ext_new_sto (Z.to_nat n) (j + 1)) as (o & data & N & Z0); [lia|unfold j in *; lia|exact Pn|exact Sg|].
      replace (j + 1 - 1) with j in N by lia. split; [|exact Z0]. eapply s_absent; [rewrite Pn; discriminate|exact N].
    Qed.
    (* a common storage leaf *)
    Lemma s_leaf : sg (j + 1) = StorageLeaf0 -> pa (j + 1) = Common -> pt (j + 1) = StorageChanged -> tree_all word_ok st ->
      exists k w w', reached st 0 K = Some (k, w) /\ w <> 0 /\ hashed_slot w' /\ w' <> 0 /\
        adv MU_old_value (j + 1) = word_rlc (echal e) w /\ adv MU_new_value (j + 1) = word_rlc (echal e) w' /\
        storage_root H (modify_reached (fun _ => w') st 0 K) = adv MU_new_hash l.
    Proof.
      intros S0 P0 T0 Wok. destruct s_old as (u & U1 & U2 & U3); [rewrite P0; discriminate|].
      assert (Hr : 1 <= j + 1 < n) by (unfold j in *; lia).
      assert (Lt : j + 1 + 1 < n) by (apply (next_lt e n HL); [exact Hr|rewrite S0; discriminate]).
      destruct (r_seg_trans H e n F HD (j + 1) ltac:(lia) Lt) as (l' & TS & I). rewrite S0, T0 in TS. cbn in TS. injection TS as <-.
      assert (Sn : sg (j + 1 + 1) = SegStart) by (clear - I; cbn in I; intuition auto).
      assert (Pn : pa (j + 1 + 1) = PathStart) by (apply (pa_start H e n F HD); [lia|exact Sn]).
      assert (Dir : adv MU_direction (j + 1) = fb true) by (apply (r_dir H e n F HD); [exact Hr|rewrite S0, T0; reflexivity]).
      destruct (common_single H e n F HD (j + 1) DLeaf) as [Bo Bn]; [lia|exact Lt|exact P0|rewrite S0; reflexivity|eauto|right; rewrite Pn; split; discriminate|].
      apply (oldP_side e (j + 1) true DLeaf Dir) in Bo. apply (newP_side e (j + 1) true DLeaf Dir) in Bn.
      unfold sideP in Bo, Bn. replace (j + 1 - 1) with j in * by lia.
      destruct (leaf_step H e HP S CF HT (word_hash H) word_inputs u _ _ _ U2 U3 Bo) as (w & -> & Hw).
      pose proof (den_proof H e n F HD (j + 1) Hr) as D. rewrite T0 in D. destruct D as [_ D].
      apply (den_by_segment H e n F HD (j + 1) _ Hr) in D. rewrite S0 in D. destruct D as (_ & D1 & D2 & D3 & D4 & D5).
      apply (den_is_path H e n F HD (j + 1) _ _ Hr) in D1; [|exact P0]. destruct D1 as [D1 D1'].
      apply (r_word e n F (j + 1)) in D1; [|exact Hr]. apply (r_word e n F (j + 1)) in D1'; [|exact Hr].
      apply (word_sound H e n OK (j + 1)) in D1; [|exact Hr]. apply (word_sound H e n OK (j + 1)) in D1'; [|exact Hr].
      destruct D1 as (ov & A1 & B1 & C1 & E1). destruct D1' as (nv & A2 & B2 & C2 & E2).
      apply (proj1 (den_assert_equal e (j + 1) _ _ _)) in D2, D3. apply den_assert in D4, D5.
      rewrite eval_sub, eval_q_of_fr, !(ev_cur e n F) in D2 by exact Hr. rewrite eval_sub, eval_q_of_fr, !(ev_cur e n F) in D3 by exact Hr.
      rewrite eval_bnot, (ev_iz H e n F HD) in D4 by (exact Hr || lia). rewrite eval_bnot, (ev_iz H e n F HD) in D5 by (exact Hr || lia).
      change (adv (iz_value (izg 0)) (j + 1)) with (adv (MU_zero_value 0) (j + 1)) in D2.
      change (adv (iz_value (izg 1)) (j + 1)) with (adv (MU_zero_value 1) (j + 1)) in D3.
      assert (Ow : word_ok w) by (apply (sub_all word_ok d st K 0 _ U1 Wok)).
      assert (Iw : S (fz (w / 2 ^ 128), fz (w mod 2 ^ 128), fdom DPair)) by (apply U2; cbn; auto).
      destruct (hash_inj H e HP S CF HT _ _ _ _ _ _ _ C1 Iw Hw) as (Y1 & Y2 & _).
      assert (Ew : ov = w).
      { unfold word_ok in *. change (2 ^ 256) with (2 ^ 128 * 2 ^ 128) in *. clear - Y1 Y2 A1 Ow.
        pose proof (Z.div_mod ov (2 ^ 128) ltac:(lia)). pose proof (Z.div_mod w (2 ^ 128) ltac:(lia)).
        pose proof (Z.mod_pos_bound ov (2 ^ 128) ltac:(lia)). pose proof (Z.mod_pos_bound w (2 ^ 128) ltac:(lia)).
        assert (0 <= ov / 2 ^ 128 < 2 ^ 128) by (split; [apply Z.div_pos; lia|apply Z.div_lt_upper_bound; lia]).
        assert (0 <= w / 2 ^ 128 < 2 ^ 128) by (split; [apply Z.div_pos; lia|apply Z.div_lt_upper_bound; lia]).
        apply fz_inj in Y1; [|apply small_lt_modulus; lia|apply small_lt_modulus; lia].
        apply fz_inj in Y2; [|apply small_lt_modulus; lia|apply small_lt_modulus; lia]. lia. }
      assert (Nz : forall x z h, (1 - fb (feqb x f0))%fr = f1 -> x = (h - ZERO_PAIR_HASH H)%fr -> h = word_hash H z -> z <> 0).
      { intros x z h Q1 Q2 Q3 ->. rewrite Q2, Q3 in Q1. change (word_hash H 0) with (ZERO_PAIR_HASH H) in Q1.
        replace (ZERO_PAIR_HASH H - ZERO_PAIR_HASH H)%fr with f0 in Q1 by ring. rewrite feqb_refl in Q1. cbn in Q1.
        apply f1_neq_f0. rewrite <- Q1. ring. }
      exists (adv MU_sibling (j + 1)), w, nv. rewrite Ew in *.
      split; [apply (sub_reached d st K 0 _ _ U1)|].
      split; [exact (Nz _ _ _ D4 D2 B1)|]. split; [rewrite B2 in C2; exact (conj A2 C2)|]. split; [exact (Nz _ _ _ D5 D3 B2)|].
      split; [exact E1|]. split; [exact E2|].
      rewrite (sub_modify_reached (fun _ => nv) d st K 0 _ _ U1).
      apply (s_new (Leaf (adv MU_sibling (j + 1)) w)); [left; exact P0|exact U1|reflexivity|].
      cbn [thash]. rewrite <- B2. apply HP. exact Bn.
    Qed.
  End Part.

  (* the storage key at the AccountLeaf3 row *)
  Lemma l3_slot l : 1 <= l < n -> sg l = AccountLeaf3 -> (pt l = StorageChanged \/ pt l = StorageDoesNotExist) ->
    exists slot, hashed_slot slot /\ adv MU_key l = slot_key H slot /\ adv MU_storage_key_rlc l = word_rlc (echal e) slot.
  Proof.
    intros Hl S3 T. pose proof (den_proof H e n F HD l Hl) as D. destruct D as [_ D].
    assert (W : word_facts e l MU_key (iv 0) (iv 1) MU_storage_key_rlc (sp 0) (sp 1)).
    { apply (r_word e n F l); [exact Hl|]. destruct T as [T|T]; rewrite T in D.
      - apply (den_by_segment H e n F HD l _ Hl) in D. rewrite S3 in D. exact (proj2 D).
      - destruct D as (_ & _ & _ & _ & _ & D). apply (den_by_segment H e n F HD l _ Hl) in D. rewrite S3 in D. exact (proj2 D). }
    apply (word_sound H e n OK l) in W; [|exact Hl]. destruct W as (w & A & B & C & E). exists w. rewrite B in C. unfold hashed_slot. auto.
  Qed.

  (* rows of an empty-storage update *)
  Lemma sdne_row i : 1 <= i < n -> pt i = StorageDoesNotExist ->
    adv MU_old_value i = f0 /\ adv MU_new_value i = f0 /\ (pa i = PathStart \/ pa i = Common) /\ adv MU_old_hash i = adv MU_new_hash i /\
    (i + 1 < n -> sg (i + 1) = SegStart -> nonex e (adv MU_old_value i) (adv MU_old_hash i) (adv MU_key i) (adv MU_other_key i) (adv (iv 3) i)).
  Proof.
    intros Hi T. pose proof (den_proof H e n F HD i Hi) as D. rewrite T in D. destruct D as (_ & D1 & D2 & D3 & D4 & D5 & _).
    cbn [den] in D1, D2. rewrite (ev_cur e n F) in D1, D2 by exact Hi. split; [exact D1|]. split; [exact D2|].
    apply den_assert in D3. unfold cur_path, current_matches in D3.
    rewrite (ev_path H e n F HD) in D3; [|lia|repeat constructor; cbn; intuition discriminate]. rewrite Z.add_0_r in D3. apply fb_true in D3.
    split; [clear - D3; destruct (pa i); cbn in D3; auto; discriminate|].
    apply (proj1 (den_assert_equal e i _ _ _)) in D4. rewrite !(ev_cur e n F) in D4 by exact Hi. split; [exact D4|].
    intros Hi' Sn. apply (r_nonex H e n F HD i MU_old_value MU_old_hash (iv 3) Hi). apply D5.
    unfold next_seg, next_matches. rewrite (ev_seg H e n F HD) by (try lia; repeat constructor; cbn; tauto). rewrite Sn. reflexivity.
  Qed.

  Section Trie.
    Variables (t : tree account) (i : Z).
    Hypothesis Hi : 1 <= i /\ i + 1 < n.
    Hypothesis Hst : sg i = SegStart.
    Hypothesis Hroot : state_root H t = adv MU_old_hash i.
    Hypothesis Hbits : bits_ok n (height t).
    Hypothesis Hsbits : tree_all (fun a => bits_ok n (height (storage a))) t.
    Hypothesis Hacc : tree_all account_ok t.
    Hypothesis CF : collision_free H (inputs H e t).
    Let K := adv MU_key i.

    Lemma known_storage a : known_a H e t a -> known H (inputs H e t) (word_hash H) word_inputs (storage a).
    Proof. intros Ka x Hx. apply Ka. unfold account_inputs. apply in_or_app. right. apply in_or_app. right. exact Hx. Qed.

    (* the account-level half of a storage update that reaches an account leaf *)
    Lemma storage_account : (pt i = StorageChanged \/ pt i = StorageDoesNotExist) -> forall d, shape e n i d ->
      let j := i + Z.of_nat d in sg (j + 1) = AccountLeaf0 -> pa (j + 1) = Common ->
      exists k a slot, reached t 0 K = Some (k, a) /\ known_a H e t a /\ hashed_slot slot /\
        j + 5 < n /\ sg (j + 4) = AccountLeaf3 /\ pa (j + 4) = Common /\ pt (j + 4) = pt i /\
        adv MU_key (j + 4) = slot_key H slot /\ adv MU_storage_key_rlc i = word_rlc (echal e) slot /\
        adv MU_old_value (j + 4) = adv MU_old_value i /\ adv MU_new_value (j + 4) = adv MU_new_value i /\
        storage_root H (storage a) = adv MU_old_hash (j + 4) /\
        forall st, storage_root H st = adv MU_new_hash (j + 4) ->
          state_root H (modify_reached (set_storage st) t 0 K) = adv MU_new_hash i.
    Proof.
      intros T d Sh j S0 P0. destruct Sh as [R Lt _ Tj Oj Nj Kj]. fold j in Lt, Tj, Oj, Nj, Kj.
      destruct (acc_leaf H e n OK t i Hi Hst Hroot Hbits CF d R Lt S0 P0) as (k & a & Ra & Ka & Ea & Up). fold j K in Ra, Ea, Up.
      destruct (leaf_rows H e n F HD HL (j + 1) ltac:(unfold j in *; lia) S0 P0) as (L2 & _ & S1 & P1 & T1 & Alt).
      assert (Hj : 1 <= j) by (unfold j; lia). clearbody j.
      destruct (nonstart_step H e n F HD (j + 1) ltac:(lia)) as (X1 & Y1 & Z1 & K1); [rewrite S0; discriminate|].
      replace (j + 1 - 1) with j in * by lia.
      assert (T0 : pt (j + 1) = pt i) by congruence. rewrite T0 in *.
      destruct Alt as [(Tp & _)|(_ & L4 & b2 & b3 & S2 & S3 & P3 & T3 & D2 & D3 & B1 & B2 & B3)].
      { exfalso. destruct T as [T|T]; rewrite T in Tp; discriminate. }
      replace (j + 1 + 3) with (j + 4) in * by lia. replace (j + 1 + 2) with (j + 3) in * by lia. replace (j + 1 + 1) with (j + 2) in * by lia.
      destruct (nonstart_step H e n F HD (j + 2) ltac:(lia)) as (X2 & Y2 & Z2 & K2); [rewrite S1; discriminate|].
      destruct (nonstart_step H e n F HD (j + 3) ltac:(lia)) as (X3 & Y3 & Z3 & K3); [rewrite S2; discriminate|].
      destruct (nonstart_step H e n F HD (j + 4) ltac:(lia)) as (X4 & Y4 & Z4 & K4); [rewrite S3; discriminate|].
      replace (j + 2 - 1) with (j + 1) in * by lia. replace (j + 3 - 1) with (j + 2) in * by lia. replace (j + 4 - 1) with (j + 3) in * by lia.
      destruct (acc_four H e n OK t CF a (j + 1) b2 b3 Ka Ea) as (Co & Cn);
        [replace (j + 1 + 1) with (j + 2) by lia; exact B1|replace (j + 1 + 2) with (j + 3) by lia; exact B2|replace (j + 1 + 3) with (j + 4) by lia; exact B3|].
      replace (j + 1 + 3) with (j + 4) in * by lia.
      assert (b2 = true /\ b3 = false) as [-> ->] by (destruct T as [T|T]; rewrite T in D2, D3; cbn in D2, D3; split; congruence).
      cbn [comp with_comp] in Co, Cn.
      destruct (l3_slot (j + 4)) as (slot & W1 & W2 & W3); [lia|exact S3|rewrite T3; exact T|].
      exists k, a, slot.
      refine (conj Ra (conj Ka (conj W1 (conj _ (conj S3 (conj P3 (conj T3 (conj W2 (conj _ (conj _ (conj _ (conj (eq_sym Co) _)))))))))))).
      - lia.
      - rewrite <- W3, K4, K3, K2, K1. symmetry. exact Kj.
      - congruence.
      - congruence.
      - intros st Hst'. apply Up. rewrite Cn, <- Hst'. reflexivity.
    Qed.

    Theorem storage_missing_hashed : pt i = StorageDoesNotExist ->
      adv MU_old_value i = f0 /\ adv MU_new_value i = f0 /\ adv MU_new_hash i = adv MU_old_hash i /\
      (get t 0 K = None \/ exists slot, hashed_slot slot /\ adv MU_storage_key_rlc i = word_rlc (echal e) slot /\
         forall a, get t 0 K = Some a -> get (storage a) 0 (slot_key H slot) = None).
    Proof.
      intros T. destruct (sdne_row i ltac:(lia) T) as (V0 & V1 & _ & V2 & _).
      split; [exact V0|]. split; [exact V1|]. split; [symmetry; exact V2|].
      destruct (has_shape H e n OK i (proj1 Hi) (proj2 Hi) Hst) as (d & Sh). pose proof Sh as Sh'. destruct Sh' as [R Lt En Tj Oj Nj Kj].
      destruct En as [E0|S0 P0|S0 P0].
      - left. destruct (acc_absent_empty H e n OK t i Hi Hst Hroot Hbits CF d R Lt) as (A & B & C & D); [rewrite Tj, T; reflexivity|exact E0|]. exact D.
      - right. destruct (storage_account (or_intror T) d Sh S0 P0) as (k & a & slot & Ra & Ka & Ws & L5 & S3 & P3 & T3 & Ek & Er & _ & _ & Eo & _).
        set (l := i + Z.of_nat d + 4) in *. assert (Hl : 1 <= l /\ l + 1 < n) by (unfold l; lia). clearbody l.
        exists slot. split; [exact Ws|]. split; [exact Er|]. intros a' Ga. apply get_reached in Ga. fold K in Ga.
        assert (a' = a) by congruence. subst a'. clear Ga.
        destruct (sto_run_max l (proj1 Hl) (proj2 Hl)) as (m & Rm & Lm & Cm).
        assert (Tm : pt (l + Z.of_nat m) = StorageDoesNotExist).
        { rewrite <- T, <- T3. apply (pt_const H e n F HD l m ltac:(lia) ltac:(lia)). intros q Hq. destruct (Rm q Hq) as [X _]. rewrite X. discriminate. }
        assert (Hm : 1 <= l + Z.of_nat m < n) by lia.
        destruct (r_seg_trans H e n F HD (l + Z.of_nat m) ltac:(lia) Lm) as (l' & TS & I). rewrite Tm in TS.
        assert (Sm : sg (l + Z.of_nat m) = AccountLeaf3 \/ sg (l + Z.of_nat m) = StorageTrie).
        { destruct m as [|m']; [left; rewrite Z.add_0_r; exact S3|right; apply Rm; lia]. }
        assert (Tl : l' = [StorageTrie; SegStart]) by (destruct Sm as [Sm|Sm]; rewrite Sm in TS; cbn in TS; congruence). subst l'.
        assert (Sn : sg (l + Z.of_nat m + 1) = SegStart).
        { cbn in I. destruct I as [I|[I|[]]]; [exfalso|auto].
          assert (Tn : pt (l + Z.of_nat m + 1) = StorageDoesNotExist).
          { destruct (nonstart_step H e n F HD (l + Z.of_nat m + 1) ltac:(lia)) as (X & _); [rewrite <- I; discriminate|].
            replace (l + Z.of_nat m + 1 - 1) with (l + Z.of_nat m) in X by lia. congruence. }
          destruct (sdne_row (l + Z.of_nat m + 1) ltac:(lia) Tn) as (_ & _ & [Pp|Pp] & _).
          - apply (sg_start H e n F HD) in Pp; [|lia]. congruence.
          - rewrite <- I, Pp in Cm. discriminate. }
        destruct (sdne_row (l + Z.of_nat m) Hm Tm) as (_ & _ & _ & _ & Nx). specialize (Nx ltac:(lia) Sn).
        rewrite <- Ek. eapply (s_absent (inputs H e t) CF (HT H e t) (storage a) l Hl S3 (known_storage a Ka) Eo (reached_all e i (fun a => bits_ok n (height (storage a))) t 0 k a Hsbits Ra) m Rm Lm).
        + assert (Pn : pa (l + Z.of_nat m + 1) = PathStart) by (apply (pa_start H e n F HD); [lia|exact Sn]). rewrite Pn. discriminate.
        + exact Nx.
      - left. apply (acc_absent_new H e n OK t i Hi Hst Hroot Hbits CF d R Lt S0 P0).
    Qed.
    Theorem storage_missing : pt i = StorageDoesNotExist ->
      adv MU_old_value i = f0 /\ adv MU_new_value i = f0 /\ adv MU_new_hash i = adv MU_old_hash i /\
      (get t 0 K = None \/ exists slot, word_ok slot /\ adv MU_storage_key_rlc i = word_rlc (echal e) slot /\
         forall a, get t 0 K = Some a -> get (storage a) 0 (slot_key H slot) = None).
    Proof.
      intros T. destruct (storage_missing_hashed T) as (A & B & C & [D|(slot & [D _] & E)]); [auto|].
      refine (conj A (conj B (conj C (or_intror _)))). exists slot. auto.
    Qed.

    (* with the path type of the last rows: q is a row of the update that starts in row i *)
    Theorem storage_claim_hashed : pt i = StorageChanged ->
      (get t 0 K = None /\ adv MU_old_value i = f0) \/
      exists k a slot, reached t 0 K = Some (k, a) /\ hashed_slot slot /\ adv MU_storage_key_rlc i = word_rlc (echal e) slot /\
        let sk := slot_key H slot in
        exists q, i < q < n /\ (forall x, i < x <= q -> sg x <> SegStart) /\
        ((pa q = Common /\ exists k' w w', reached (storage a) 0 sk = Some (k', w) /\ w <> 0 /\ hashed_slot w' /\ w' <> 0 /\
            adv MU_old_value i = word_rlc (echal e) w /\ adv MU_new_value i = word_rlc (echal e) w' /\
            state_root H (modify_reached (set_storage (modify_reached (fun _ => w') (storage a) 0 sk)) t 0 K) = adv MU_new_hash i) \/
         (pa q = ExtensionNew /\ get (storage a) 0 sk = None /\ adv MU_old_value i = f0) \/
         (pa q = ExtensionOld /\ adv MU_new_value i = f0)).
    Proof.
      intros T.
      destruct (has_shape H e n OK i (proj1 Hi) (proj2 Hi) Hst) as (d & Sh). pose proof Sh as Sh'. destruct Sh' as [R Lt En Tj Oj Nj Kj].
      destruct En as [E0|S0 P0|S0 P0].
      - exfalso. destruct (r_seg_trans H e n F HD (i + Z.of_nat d) ltac:(lia) Lt) as (l & TS & I). rewrite Tj, T, E0 in *.
        assert (Sj : sg (i + Z.of_nat d) = SegStart \/ sg (i + Z.of_nat d) = AccountTrie).
        { destruct d as [|d']; [left; rewrite Z.add_0_r; exact Hst|right; apply R; lia]. }
        destruct Sj as [Sj|Sj]; rewrite Sj in TS; cbn in TS; injection TS as <-; cbn in I; intuition discriminate.
      - right. destruct (storage_account (or_introl T) d Sh S0 P0) as (k & a & slot & Ra & Ka & Ws & L5 & S3 & P3 & T3 & Ek & Er & Vo & Vn & Eo & Up).
        destruct (nonstart_step H e n F HD (i + Z.of_nat d + 1) ltac:(lia)) as (T1' & _); [rewrite S0; discriminate|]. replace (i + Z.of_nat d + 1 - 1) with (i + Z.of_nat d) in T1' by lia. rewrite Tj, T in T1'.
        destruct (leaf_rows H e n F HD HL (i + Z.of_nat d + 1) ltac:(lia) S0 P0) as (L2 & _ & S1 & P1 & T1 & Alt).
        assert (Leafs : forall x, i < x <= i + Z.of_nat d + 4 -> sg x <> SegStart).
        { intros x Hx. destruct (Z_le_dec x (i + Z.of_nat d)) as [Lx|Lx].
          - replace x with (i + Z.of_nat (Z.to_nat (x - i))) by lia. destruct (R (Z.to_nat (x - i)) ltac:(lia)) as [X _]. rewrite X. discriminate.
          - destruct Alt as [(Tp & _)|(_ & L4 & b2 & b3 & S2 & _)]; [exfalso; rewrite T1' in Tp; discriminate Tp|].
            assert (Cs : x = i + Z.of_nat d + 1 \/ x = i + Z.of_nat d + 1 + 1 \/ x = i + Z.of_nat d + 1 + 2 \/ x = i + Z.of_nat d + 4) by lia.
            destruct Cs as [->|[->|[->| ->]]]; rewrite ?S0, ?S1, ?S2, ?S3; discriminate. }
        clear L2 S1 P1 T1 Alt T1'.
        set (l := i + Z.of_nat d + 4) in *. assert (Hl : 1 <= l /\ l + 1 < n) by (unfold l; lia). assert (Il : i < l) by (unfold l; lia). clearbody l.
        exists k, a, slot. split; [exact Ra|]. split; [exact Ws|]. split; [exact Er|]. cbv zeta.
        destruct (sto_run_max l (proj1 Hl) (proj2 Hl)) as (m & Rm & Lm & Cm).
        destruct (pt_const H e n F HD l m ltac:(lia) ltac:(lia)) as (Tm & Om & Nm & _).
        { intros q Hq. destruct (Rm q Hq) as [X _]. rewrite X. discriminate. }
        rewrite T3, T in Tm. rewrite Vo in Om. rewrite Vn in Nm.
        destruct (r_seg_trans H e n F HD (l + Z.of_nat m) ltac:(lia) Lm) as (l' & TS & I). rewrite Tm in TS.
        assert (Sm : sg (l + Z.of_nat m) = AccountLeaf3 \/ sg (l + Z.of_nat m) = StorageTrie).
        { destruct m as [|m']; [left; rewrite Z.add_0_r; exact S3|right; apply Rm; lia]. }
        assert (Tl : l' = [StorageTrie; StorageLeaf0]) by (destruct Sm as [Sm|Sm]; rewrite Sm in TS; cbn in TS; congruence). subst l'.
        assert (Sn : sg (l + Z.of_nat m + 1) = StorageTrie \/ sg (l + Z.of_nat m + 1) = StorageLeaf0) by (clear - I; cbn in I; intuition auto).
        destruct (nonstart_step H e n F HD (l + Z.of_nat m + 1) ltac:(lia)) as (X1 & X2 & X3 & _); [destruct Sn as [Sn|Sn]; rewrite Sn; discriminate|].
        replace (l + Z.of_nat m + 1 - 1) with (l + Z.of_nat m) in * by lia.
        rewrite Tm in X1. rewrite Om in X2. rewrite Nm in X3.
        assert (Lt1 : l + Z.of_nat m + 1 + 1 < n) by (apply (next_lt e n HL); [lia|destruct Sn as [Sn|Sn]; rewrite Sn; discriminate]).
        assert (Ins : forall x, i < x <= l + Z.of_nat m + 1 -> sg x <> SegStart).
        { intros x Hx. destruct (Z_le_dec x l) as [Lx|Lx]; [apply Leafs; lia|]. destruct (Z.eq_dec x (l + Z.of_nat m + 1)) as [->|Nx]; [destruct Sn as [Sn|Sn]; rewrite Sn; discriminate|].
          replace x with (l + Z.of_nat (Z.to_nat (x - l))) by lia. destruct (Rm (Z.to_nat (x - l)) ltac:(lia)) as [X _]. rewrite X. discriminate. }
        exists (l + Z.of_nat m + 1). split; [lia|]. split; [exact Ins|].
        destruct (pa (l + Z.of_nat m + 1)) eqn:Pn.
        + exfalso. apply (sg_start H e n F HD) in Pn; [|lia]. destruct Sn as [Sn|Sn]; rewrite Sn in Pn; discriminate.
        + left. split; [reflexivity|]. assert (Sl : sg (l + Z.of_nat m + 1) = StorageLeaf0) by (destruct Sn as [Sn|Sn]; [rewrite Sn in Cm; discriminate|exact Sn]).
          pose proof (reached_all e i account_ok t 0 k a Hacc Ra) as Oa. destruct Oa as (_ & _ & _ & _ & Os).
          destruct (s_leaf (inputs H e t) CF (HT H e t) (storage a) l Hl S3 (known_storage a Ka) Eo (reached_all e i (fun a => bits_ok n (height (storage a))) t 0 k a Hsbits Ra) m Rm Lm Sl Pn X1 Os)
            as (k' & w & w' & Y1 & Y2 & Y3 & Y4 & Y5 & Y6 & Y7).
          rewrite Ek in Y1, Y7. rewrite X2 in Y5. rewrite X3 in Y6. exists k', w, w'.
          exact (conj Y1 (conj Y2 (conj Y3 (conj Y4 (conj Y5 (conj Y6 (Up _ Y7))))))).
        + right; right. split; [reflexivity|]. destruct (r_ext_old H e n F HD (l + Z.of_nat m + 1)) as (_ & _ & Z0 & _); [lia|exact Lt1|exact Pn|]. congruence.
        + right; left. destruct (s_absent_new (inputs H e t) CF (HT H e t) (storage a) l Hl S3 (known_storage a Ka) Eo (reached_all e i (fun a => bits_ok n (height (storage a))) t 0 k a Hsbits Ra) m Rm Lm Sn Pn) as (A & B).
          rewrite Ek in A. split; [reflexivity|]. split; [exact A|]. congruence.
      - left. destruct (acc_absent_new H e n OK t i Hi Hst Hroot Hbits CF d R Lt S0 P0) as (A & B). split; [exact A|].
        destruct (nonstart_step H e n F HD (i + Z.of_nat d + 1) ltac:(lia)) as (_ & Y & _); [destruct S0 as [S0|S0]; rewrite S0; discriminate|].
        replace (i + Z.of_nat d + 1 - 1) with (i + Z.of_nat d) in Y by lia. congruence.
    Qed.
    Theorem storage_claim_path : pt i = StorageChanged ->
      (get t 0 K = None /\ adv MU_old_value i = f0) \/
      exists k a slot, reached t 0 K = Some (k, a) /\ word_ok slot /\ adv MU_storage_key_rlc i = word_rlc (echal e) slot /\
        let sk := slot_key H slot in
        exists q, i < q < n /\ (forall x, i < x <= q -> sg x <> SegStart) /\
        ((pa q = Common /\ exists k' w w', reached (storage a) 0 sk = Some (k', w) /\ w <> 0 /\ word_ok w' /\ w' <> 0 /\
            adv MU_old_value i = word_rlc (echal e) w /\ adv MU_new_value i = word_rlc (echal e) w' /\
            state_root H (modify_reached (set_storage (modify_reached (fun _ => w') (storage a) 0 sk)) t 0 K) = adv MU_new_hash i) \/
         (pa q = ExtensionNew /\ get (storage a) 0 sk = None /\ adv MU_old_value i = f0) \/
         (pa q = ExtensionOld /\ adv MU_new_value i = f0)).
    Proof.
      intros T. destruct (storage_claim_hashed T) as [X|(k & a & slot & A1 & [A2 _] & A3 & q & Q1 & Q2 & C)]; [left; exact X|]. right. exists k, a, slot. split; [exact A1|]. split; [exact A2|]. split; [exact A3|]. cbv zeta. exists q. split; [exact Q1|]. split; [exact Q2|].
      destruct C as [(P & k' & w & w' & B1 & B2 & [B3 _] & B4)|C]; [left|right; exact C]. split; [exact P|]. exists k', w, w'. exact (conj B1 (conj B2 (conj B3 B4))).
    Qed.
    Theorem storage_claim : pt i = StorageChanged ->
      (get t 0 K = None /\ adv MU_old_value i = f0) \/
      exists k a slot, reached t 0 K = Some (k, a) /\ word_ok slot /\ adv MU_storage_key_rlc i = word_rlc (echal e) slot /\
        let sk := slot_key H slot in
        ((exists k' w w', reached (storage a) 0 sk = Some (k', w) /\ w <> 0 /\ word_ok w' /\ w' <> 0 /\
            adv MU_old_value i = word_rlc (echal e) w /\ adv MU_new_value i = word_rlc (echal e) w' /\
            state_root H (modify_reached (set_storage (modify_reached (fun _ => w') (storage a) 0 sk)) t 0 K) = adv MU_new_hash i) \/
         (get (storage a) 0 sk = None /\ adv MU_old_value i = f0) \/
         adv MU_new_value i = f0).
    Proof.
      intros T. destruct (storage_claim_path T) as [X|(k & a & slot & A1 & A2 & A3 & q & _ & _ & C)]; [left; exact X|]. right. exists k, a, slot. split; [exact A1|]. split; [exact A2|]. split; [exact A3|]. cbv zeta.
      destruct C as [(_ & C)|[(_ & C)|(_ & C)]]; auto.
    Qed.
  End Trie.
End Storage.
