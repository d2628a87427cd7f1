(* The leaf that stood in the place of a new account or slot, and the one that takes the place of a cleared slot, is stored under
   its own key. *)
From Coq Require Import ZArith String List Bool Lia.
From Verif Require Import Pocklington Fr Query Builder BuilderProofs Gadgets MptUpdate Bytes GadgetProofs LagrangeProofs Fixed CanonProofs UpdateRows TrieSpec UpdateWalk UpdateAccount UpdateSound UpdateClaims UpdateStorage GadgetMain TableSpec UpdateProps ChangeSpec TwoTries NewSide NewAccount NewClaims NewStorage NewSlots NewProps Witness.
Import ListNotations.
Open Scope Z_scope.

(** * One-sided rows: the absent key's neighbour is the one named in the rows above *)
Section Rows.
  Variables (H : Fr -> Fr -> Fr -> Fr) (e : env) (n : Z).
  Hypothesis OK : circuit_ok H e n.
  Let F := co_fixed H e n OK.
  Let HD := HD H e n OK.
  Let HL := HL H e n OK.
  Let Hn := fo_rows e n F.
  Let Hu := fo_usable e n F.
  Notation adv := (adv e). Notation sg := (sg e). Notation pa := (pa e). Notation pt := (pt e).

  Lemma new_other m : forall i, n - i <= Z.of_nat m -> 2 <= i < n -> pa i = ExtensionNew ->
    (sg i = AccountTrie \/ sg i = AccountLeaf0) ->
    exists data, nonex e f0 (adv MU_old_hash (i - 1)) (adv MU_key (i - 1)) (adv MU_other_key (i - 1)) data.
  Proof.
    induction m as [|m IH]; intros i Hm Hi Hp Hsg; [lia|].
    assert (Hns : sg i <> SegStart) by (destruct Hsg as [E|E]; rewrite E; discriminate).
    assert (Hlt : i + 1 < n) by (apply (next_lt e n HL); [lia|exact Hns]).
    destruct (r_ext_new H e n F HD i) as (X1 & X2 & X3 & _ & _ & _ & X7); [lia|lia|exact Hp|].
    destruct (r_key H e n F HD i) as [Ek Eo]; [lia|exact Hns|destruct Hsg as [E|E]; rewrite E; discriminate|].
    destruct Hsg as [E|E].
    - pose proof (r_path_trans H e n F HD i ltac:(lia) Hlt) as T. rewrite Hp in T. cbn in T.
      assert (T' : pa (i + 1) = ExtensionNew \/ pa (i + 1) = PathStart) by (clear - T; intuition congruence).
      destruct T' as [Pn|Pn].
      + destruct (r_seg_trans H e n F HD i ltac:(lia) Hlt) as (l & TS & I). rewrite E in TS.
        assert (Ns : sg (i + 1) <> SegStart) by (intros Y; apply (pa_start H e n F HD) in Y; [congruence|lia]).
        assert (Nx : sg (i + 1) = AccountTrie \/ sg (i + 1) = AccountLeaf0).
        { cbn in X1. destruct X1 as [X1|[X1|[X1|[]]]]; rewrite <- X1 in TS; cbn in TS; injection TS as <-; cbn in I; clear - I Ns; intuition congruence. }
        destruct (IH (i + 1)) as (dt & N); [lia|lia|exact Pn|exact Nx|].
        replace (i + 1 - 1) with i in N by lia. rewrite X3, Ek, Eo in N. exists dt. exact N.
      + assert (Sn : sg (i + 1) = SegStart) by (apply (sg_start H e n F HD); [lia|exact Pn]).
        assert (Pe : has_empty_part (pt i) = true).
        { destruct (r_seg_trans H e n F HD i ltac:(lia) Hlt) as (l & TS & I). rewrite E, Sn in *.
          cbn in X1. destruct X1 as [X1|[X1|[X1|[]]]]; rewrite <- X1 in *; try reflexivity.
          cbn in TS. injection TS as <-. cbn in I. intuition discriminate. }
        destruct (r_empty H e n F HD i ltac:(lia) Hlt Pe (or_intror E) Sn) as (_ & _ & _ & dt & N).
        rewrite X2, X3, Ek, Eo in N. exists dt. exact N.
    - specialize (X7 ltac:(rewrite E; reflexivity)). rewrite X2, X3, Ek, Eo in X7. eauto.
  Qed.
  Lemma new_other_sto m : forall i, n - i <= Z.of_nat m -> 2 <= i < n -> pa i = ExtensionNew -> pt i = StorageChanged ->
    (sg i = StorageTrie \/ sg i = StorageLeaf0) ->
    exists data, nonex e f0 (adv MU_old_hash (i - 1)) (adv MU_key (i - 1)) (adv MU_other_key (i - 1)) data.
  Proof.
    induction m as [|m IH]; intros i Hm Hi Hp Ht Hsg; [lia|].
    assert (Hns : sg i <> SegStart) by (destruct Hsg as [E|E]; rewrite E; discriminate).
    assert (Hlt : i + 1 < n) by (apply (next_lt e n HL); [lia|exact Hns]).
    destruct (r_ext_new H e n F HD i) as (_ & X2 & X3 & _ & _ & _ & X7); [lia|lia|exact Hp|].
    destruct (r_key H e n F HD i) as [Ek Eo]; [lia|exact Hns|destruct Hsg as [E|E]; rewrite E; discriminate|].
    destruct Hsg as [E|E].
    - destruct (r_seg_trans H e n F HD i ltac:(lia) Hlt) as (l' & TS & I). rewrite E, Ht in TS. cbn in TS. injection TS as <-.
      assert (Nx : sg (i + 1) = StorageTrie \/ sg (i + 1) = StorageLeaf0) by (clear - I; cbn in I; intuition congruence).
      assert (Ns1 : sg (i + 1) <> SegStart) by (destruct Nx as [Nx|Nx]; rewrite Nx; discriminate).
      assert (Pn : pa (i + 1) = ExtensionNew) by (apply (ext_new_next H e n OK); [lia|lia|exact Hp|exact Ns1]).
      destruct (nonstart_step H e n F HD (i + 1) ltac:(lia) Ns1) as (Tn & _). replace (i + 1 - 1) with i in Tn by lia.
      destruct (IH (i + 1)) as (dt & N); [lia|lia|exact Pn|congruence|exact Nx|].
      replace (i + 1 - 1) with i in N by lia. rewrite X3, Ek, Eo in N. exists dt. exact N.
    - specialize (X7 ltac:(rewrite E; reflexivity)). rewrite X2, X3, Ek, Eo in X7. eauto.
  Qed.
  Lemma old_other_sto m : forall i, n - i <= Z.of_nat m -> 2 <= i < n -> pa i = ExtensionOld ->
    (sg i = StorageTrie \/ sg i = StorageLeaf0) ->
    exists data, nonex e f0 (adv MU_new_hash (i - 1)) (adv MU_key (i - 1)) (adv MU_other_key (i - 1)) data.
  Proof.
    induction m as [|m IH]; intros i Hm Hi Hp Hsg; [lia|].
    assert (Hns : sg i <> SegStart) by (destruct Hsg as [E|E]; rewrite E; discriminate).
    assert (Hlt : i + 1 < n) by (apply (next_lt e n HL); [lia|exact Hns]).
    destruct (r_ext_old H e n F HD i) as (X1 & _ & X2 & X3 & _ & _ & X7); [lia|lia|exact Hp|].
    destruct (r_key H e n F HD i) as [Ek Eo]; [lia|exact Hns|destruct Hsg as [E|E]; rewrite E; discriminate|].
    destruct Hsg as [E|E].
    - destruct (r_seg_trans H e n F HD i ltac:(lia) Hlt) as (l' & TS & I). rewrite E, X1 in TS. cbn in TS. injection TS as <-.
      assert (Nx : sg (i + 1) = StorageTrie \/ sg (i + 1) = StorageLeaf0) by (clear - I; cbn in I; intuition congruence).
      assert (Pn : pa (i + 1) = ExtensionOld) by (apply (ext_old_next H e n OK); [lia|lia|exact Hp|destruct Nx as [Nx|Nx]; rewrite Nx; discriminate]).
      destruct (IH (i + 1)) as (dt & N); [lia|lia|exact Pn|exact Nx|].
      replace (i + 1 - 1) with i in N by lia. rewrite X3, Ek, Eo in N. exists dt. exact N.
    - specialize (X7 E). rewrite X2, X3, Ek, Eo in X7. eauto.
  Qed.
End Rows.

Lemma leaf_get {V} d k K (v v' : V) : get (Leaf k v) d K = None -> get (Leaf k v') d K = None.
Proof. cbn. destruct (feqb K k); [discriminate|reflexivity]. Qed.

(** * New accounts *)
Section Account.
  Variables (H : Fr -> Fr -> Fr -> Fr) (e : env) (n : Z).
  Hypothesis OK : circuit_ok H e n.
  Let F := co_fixed H e n OK.
  Let HD := HD H e n OK.
  Let HL := HL H e n OK.
  Let Hn := fo_rows e n F.
  Let HP := co_poseidon H e n OK.
  Notation adv := (adv e). Notation sg := (sg e). Notation pa := (pa e). Notation pt := (pt e).
  Variables (t t' : tree account) (i : Z).
  Hypothesis Hi : 1 <= i /\ i + 1 < n.
  Hypothesis Hst : sg i = SegStart.
  Hypothesis Hroot : state_root H t = adv MU_old_hash i.
  Hypothesis Hroot' : state_root H t' = adv MU_new_hash i.
  Hypothesis Hbits : bits_ok n (height t).
  Hypothesis Hbits' : bits_ok n (height t').
  Hypothesis Hacc : tree_all account_ok t.
  Hypothesis Hacc' : tree_all account_ok t'.
  Notation S := (inputs2 H e t t').
  Hypothesis CF : collision_free H S.
  Let K := adv MU_key i.

  Theorem created_occupant a' : get t 0 K = None -> get t' 0 K = Some a' -> others_own t K.
  Proof.
    intros G G'.
    destruct (has_shape H e n OK i (proj1 Hi) (proj2 Hi) Hst) as (d & Sh). destruct Sh as [R Lt En Tj Oj Nj Kj].
    destruct (known2 H e t t') as [Kt Kt'].
    assert (Hd0 : is_trie_seg (sg i) = false) by (rewrite Hst; reflexivity).
    assert (It : in_trie e AccountTrie i d) by (intros k Hk; apply R; exact Hk).
    assert (Hc : forall k, (1 <= k <= d)%nat -> pa (i + Z.of_nat k) = Common) by (intros k Hk; apply R; exact Hk).
    destruct (common_two H e n F HD (DCR H e n OK) (DKB H e n OK) HP S CF (HT2 H e t t') (account_hash H) (account_inputs H) account_ok (ainj H e t t' CF)
      AccountTrie i K eq_refl ltac:(lia) Hd0 eq_refl t t' Hbits Hbits' Kt Kt' Hacc Hacc' Hroot Hroot' d It Hc Lt) as (u & u' & A & A' & Ku & Ku' & Pu & Pu' & Eu & Eu' & Rep).
    assert (Kj' : adv MU_key (i + Z.of_nat d) = K) by (apply (trie_key H e n F HD AccountTrie i K eq_refl ltac:(lia) eq_refl d It); lia).
    set (j := i + Z.of_nat d) in *. assert (Hj : i <= j < n) by (unfold j; lia).
    assert (Oc : forall v data, nonex e v (adv MU_old_hash j) (adv MU_key j) (adv MU_other_key j) data -> others_own t K).
    { intros v data N. rewrite Kj', <- Eu in N. unfold others_own.
      exact (occupant H e n OK (account_hash H) (account_inputs H) S CF (HT2 H e t t') AccountTrie i eq_refl (proj1 Hi) Hd0 t u d v data Hbits It (proj2 Hj) Hc A Ku N). }
    destruct En as [E0|S0 P0|S0 P0].
    - assert (Sj : sg j = SegStart \/ sg j = AccountTrie).
      { unfold j. destruct d as [|d']; [left; rewrite Z.add_0_r; exact Hst|right; apply R; lia]. }
      assert (Hp : has_empty_part (pt j) = true).
      { rewrite Tj. destruct (r_seg_trans H e n F HD j ltac:(lia) Lt) as (l & TS & I). rewrite Tj, E0 in *.
        destruct (pt i); try reflexivity; destruct Sj as [Sj|Sj]; rewrite Sj in TS; cbn in TS; try discriminate TS; injection TS as <-; cbn in I; intuition discriminate. }
      destruct (r_empty H e n F HD j ltac:(lia) Lt Hp Sj E0) as (_ & _ & _ & data & N). exact (Oc _ _ N).
    - exfalso. destruct (leaf_rows H e n F HD HL (j + 1) ltac:(lia) S0 P0) as (_ & [Bo Bn] & _).
      unfold sideP in Bo, Bn. replace (j + 1 - 1) with j in * by lia.
      destruct (leaf_step H e HP S CF (HT2 H e t t') (account_hash H) (account_inputs H) u _ _ _ Ku Eu Bo) as (a & -> & _).
      destruct (leaf_step H e HP S CF (HT2 H e t t') (account_hash H) (account_inputs H) u' _ _ _ Ku' Eu' Bn) as (b & -> & _).
      rewrite (sub_get d t K 0 _ A) in G. rewrite (sub_get d t' K 0 _ A') in G'. rewrite (leaf_get _ _ _ _ b G) in G'. discriminate G'.
    - destruct (new_other H e n OK (Z.to_nat n) (j + 1)) as (data & N); [lia|lia|exact P0|exact S0|].
      replace (j + 1 - 1) with j in N by lia. exact (Oc _ _ N).
  Qed.
End Account.

(** * New and cleared slots *)
Section Two.
  Variables (H : Fr -> Fr -> Fr -> Fr) (e : env) (n : Z).
  Hypothesis OK : circuit_ok H e n.
  Let F := co_fixed H e n OK.
  Let HD := HD H e n OK.
  Let HL := HL H e n OK.
  Let Hn := fo_rows e n F.
  Let Hu := fo_usable e n F.
  Let HP := co_poseidon H e n OK.
  Notation adv := (adv e). Notation sg := (sg e). Notation pa := (pa e). Notation pt := (pt e).
  Variable S : triple -> Prop.
  Hypothesis CF : collision_free H S.
  Hypothesis HT : forall l r d h, poseidon_hit e l r d h -> S (l, r, d).
  Variables (s s' : tree Z) (l : Z).
  Hypothesis Hl : 2 <= l /\ l + 1 < n.
  Hypothesis S3 : sg l = AccountLeaf3.
  Hypothesis T3 : pt l = StorageChanged.
  Notation known := (known H S (word_hash H) word_inputs).
  Hypothesis Ks : known s.
  Hypothesis Ks' : known s'.
  Hypothesis Ps : tree_all word_ok s.
  Hypothesis Ps' : tree_all word_ok s'.
  Hypothesis Es : storage_root H s = adv MU_old_hash l.
  Hypothesis Es' : storage_root H s' = adv MU_new_hash l.
  Hypothesis Bs : bits_ok n (height s).
  Hypothesis Bs' : bits_ok n (height s').
  Let K := adv MU_key l.

  Theorem slot_occupants : (forall w, get s 0 K = None -> get s' 0 K = Some w -> others_own s K) /\ (forall w, get s 0 K = Some w -> get s' 0 K = None -> others_own s' K).
  Proof.
    destruct (sto_run_max H e n OK l ltac:(lia) (proj2 Hl)) as (d & R & Lt & Cm).
    assert (Hd0 : is_trie_seg (sg l) = false) by (rewrite S3; reflexivity).
    assert (Id : in_trie e StorageTrie l d) by (intros k Hk; apply R; exact Hk).
    assert (Hc : forall k, (1 <= k <= d)%nat -> pa (l + Z.of_nat k) = Common) by (intros k Hk; apply R; exact Hk).
    destruct (common_two H e n F HD (DCR H e n OK) (DKB H e n OK) HP S CF HT (word_hash H) word_inputs word_ok (winj H S CF)
      StorageTrie l K eq_refl ltac:(lia) Hd0 eq_refl s s' Bs Bs' Ks Ks' Ps Ps' Es Es' d Id Hc Lt) as (u & u' & A & A' & Ku & Ku' & Pu & Pu' & Eu & Eu' & Rep).
    assert (Kj : adv MU_key (l + Z.of_nat d) = K) by (apply (trie_key H e n F HD StorageTrie l K eq_refl ltac:(lia) eq_refl d Id); lia).
    destruct (pt_const H e n F HD l d ltac:(lia) ltac:(lia)) as (Tj & _).
    { intros q Hq. destruct (R q Hq) as [X _]. rewrite X. discriminate. }
    set (j := l + Z.of_nat d) in *.
    assert (Hj : l <= j < n) by (unfold j; lia).
    assert (Sj : sg j = AccountLeaf3 \/ sg j = StorageTrie).
    { unfold j. destruct d as [|d']; [left; rewrite Z.add_0_r; exact S3|right; apply R; lia]. }
    destruct (r_seg_trans H e n F HD j ltac:(lia) Lt) as (ls & TS & I). rewrite Tj, T3 in TS.
    assert (Tl : ls = [StorageTrie; StorageLeaf0]) by (destruct Sj as [Sj|Sj]; rewrite Sj in TS; cbn in TS; congruence). subst ls.
    assert (Sn : sg (j + 1) = StorageTrie \/ sg (j + 1) = StorageLeaf0) by (clear - I; cbn in I; intuition auto).
    assert (Ns : sg (j + 1) <> SegStart) by (destruct Sn as [Sn|Sn]; rewrite Sn; discriminate).
    destruct (nonstart_step H e n F HD (j + 1) ltac:(lia) Ns) as (X1 & _).
    replace (j + 1 - 1) with j in * by lia. rewrite Tj, T3 in X1.
    pose proof (sub_get d s K 0 u A) as Gs. pose proof (sub_get d s' K 0 u' A') as Gs'.
    destruct (pa (j + 1)) eqn:Pn.
    - exfalso. apply (sg_start H e n F HD) in Pn; [|lia]. contradiction.
    - assert (Sl : sg (j + 1) = StorageLeaf0) by (destruct Sn as [Sn|Sn]; [rewrite Sn in Cm; discriminate|exact Sn]).
      assert (Lt2 : j + 1 + 1 < n) by (apply (next_lt e n HL); [lia|exact Ns]).
      destruct (leaf_words H e n OK (j + 1) ltac:(lia) ltac:(lia) Sl Pn X1) as (Lo & Ln & _).
      replace (j + 1 - 1) with j in * by lia.
      destruct (leaf_step H e HP S CF HT (word_hash H) word_inputs u _ _ _ Ku Eu Lo) as (x & -> & _).
      destruct (leaf_step H e HP S CF HT (word_hash H) word_inputs u' _ _ _ Ku' Eu' Ln) as (x' & -> & _).
      split; intros w G G'; exfalso; rewrite Gs in G; rewrite Gs' in G'.
      + rewrite (leaf_get _ _ _ _ x' G) in G'. discriminate G'.
      + rewrite (leaf_get _ _ _ _ x G') in G. discriminate G.
    - destruct (old_other_sto H e n OK (Z.to_nat n) (j + 1)) as (data & N); [lia|lia|exact Pn|exact Sn|].
      replace (j + 1 - 1) with j in N by lia. rewrite Kj, <- Eu' in N.
      pose proof (nonex_get H e HP S CF HT (word_hash H) word_inputs u' _ _ _ _ (0 + d)%nat Ku' N) as Gu.
      split; intros w G G'; [congruence|]. unfold others_own.
      exact (occupant H e n OK (word_hash H) word_inputs S CF HT StorageTrie l eq_refl ltac:(lia) Hd0 s' u' d f0 data Bs' Id (proj2 Hj) Hc A' Ku' N).
    - destruct (new_other_sto H e n OK (Z.to_nat n) (j + 1)) as (data & N); [lia|lia|exact Pn|exact X1|exact Sn|].
      replace (j + 1 - 1) with j in N by lia. rewrite Kj, <- Eu in N.
      pose proof (nonex_get H e HP S CF HT (word_hash H) word_inputs u _ _ _ _ (0 + d)%nat Ku N) as Gu.
      split; intros w G G'; [|congruence]. unfold others_own.
      exact (occupant H e n OK (word_hash H) word_inputs S CF HT StorageTrie l eq_refl ltac:(lia) Hd0 s u d f0 data Bs Id (proj2 Hj) Hc A Ku N).
  Qed.
End Two.

Section Slots.
  Variables (H : Fr -> Fr -> Fr -> Fr) (e : env) (n : Z).
  Hypothesis OK : circuit_ok H e n.
  Let F := co_fixed H e n OK.
  Let HD := HD H e n OK.
  Let HL := HL H e n OK.
  Let Hn := fo_rows e n F.
  Notation adv := (adv e). Notation sg := (sg e). Notation pa := (pa e). Notation pt := (pt e).
  Variables (t t' : tree account) (i : Z).
  Hypothesis Hi : 1 <= i /\ i + 1 < n.
  Hypothesis Hst : sg i = SegStart.
  Hypothesis Hroot : state_root H t = adv MU_old_hash i.
  Hypothesis Hroot' : state_root H t' = adv MU_new_hash i.
  Hypothesis Hbits : bits_ok n (height t).
  Hypothesis Hbits' : bits_ok n (height t').
  Hypothesis Hsb : tree_all (fun a => bits_ok n (height (storage a))) t.
  Hypothesis Hsb' : tree_all (fun a => bits_ok n (height (storage a))) t'.
  Hypothesis Hacc : tree_all account_ok t.
  Hypothesis Hacc' : tree_all account_ok t'.
  Notation S := (inputs2 H e t t').
  Hypothesis CF : collision_free H S.
  Let K := adv MU_key i.
  Notation kacc := (kacc H S).
  Notation of_update := (of_update e n i).
  Definition swaps (s s' : tree Z) (k : Fr) : Prop :=
    (forall w, get s 0 k = None -> get s' 0 k = Some w -> others_own s k) /\ (forall w, get s 0 k = Some w -> get s' 0 k = None -> others_own s' k).

  Lemma slot_swaps j a a' : pt i = StorageChanged -> of_update j -> sg j = AccountLeaf0 -> pa j = Common -> kacc a -> kacc a' -> account_ok a -> account_ok a' ->
    bits_ok n (height (storage a)) -> bits_ok n (height (storage a')) ->
    account_hash H a = adv MU_old_hash j -> account_hash H a' = adv MU_new_hash j ->
    a' = set_storage (storage a') a /\ exists slot, word_ok slot /\ adv MU_storage_key_rlc i = word_rlc (echal e) slot /\
      slot_change (echal e) (slot_key H slot) (storage a) (storage a') (adv MU_old_value i) (adv MU_new_value i) /\ swaps (storage a) (storage a') (slot_key H slot).
  Proof.
    intros T Uj S0 P0 Ka Ka' Oa Oa' Ba Ba' Ea Ea'. pose proof Uj as (Hj & Tj & Vj & Wj & _).
    destruct (leaf_rows H e n F HD HL j ltac:(lia) S0 P0) as (L2 & _ & S1 & P1 & T1 & Alt).
    assert (U1 : of_update (j + 1)) by (apply (upd_next H e n OK i Hi); [exact Uj|lia|rewrite S1; discriminate]).
    rewrite Tj, T in *.
    destruct Alt as [(Tp & _)|(Fr4 & L4 & b2 & b3 & S2 & S3 & P3 & T3 & D2 & D3 & B1 & B2 & B3)]; [discriminate Tp|].
    destruct B1 as [O1 N1]. destruct B2 as [O2 N2]. destruct B3 as [O3 N3].
    replace (j + 1 - 1) with j in * by lia. replace (j + 2 - 1) with (j + 1) in * by lia. replace (j + 3 - 1) with (j + 2) in * by lia.
    destruct (four_side H e n OK t t' CF (adv MU_old_hash) a j b2 b3 Ka Ea O1 O2 O3) as (X3 & Xp & X2 & Xs).
    destruct (four_side H e n OK t t' CF (adv MU_new_hash) a' j b2 b3 Ka' Ea' N1 N2 N3) as (Y3 & Yp & Y2 & Ys).
    rewrite Xp in Yp. rewrite X2 in Y2. rewrite Xs in Ys.
    cbn [leaf_dir] in D2, D3. injection D2 as <-. injection D3 as <-. cbn [comp negb] in X3, Y3, Ys, Y2.
    destruct (inj3 H S CF _ _ _ _ _ _ (i1 H S a Ka) (i1 H S a' Ka') Y2) as (C3 & C4 & _).
    destruct (cx_inj a a' Oa Oa' C3) as [M1 M2]. apply (cy_inj a a' Oa Oa') in C4. apply (ck_inj H S CF a a' Oa Oa' Ka Ka') in Ys.
    split; [apply account_is; cbn; congruence|].
    assert (U3 : of_update (j + 3)).
    { replace (j + 3) with (j + 1 + 1 + 1) by lia. apply (upd_next H e n OK i Hi); [apply (upd_next H e n OK i Hi); [exact U1|lia|]|lia|].
      - replace (j + 1 + 1) with (j + 2) by lia. rewrite S2. discriminate.
      - replace (j + 1 + 1 + 1) with (j + 3) by lia. rewrite S3. discriminate. }
    destruct U3 as (_ & _ & V3 & W3 & R3).
    destruct (l3_hashed H e n OK (j + 3)) as (slot & Q1 & Q2 & Q3 & Q4); [lia|exact S3|exact T3|].
    exists slot. split; [exact Q1|]. split; [congruence|]. rewrite <- Q2.
    assert (L3 : 2 <= j + 3 /\ j + 3 + 1 < n) by lia. split.
    - destruct (storage_two H e n OK S CF (HT2 H e t t') (storage a) (storage a') (j + 3) L3 S3 P3 T3
        (kacc_sto H S a Ka) (kacc_sto H S a' Ka') ltac:(apply Oa) ltac:(apply Oa') (eq_sym X3) (eq_sym Y3) Ba Ba') as (d & u & u' & A & A' & Rep & Df).
      apply slot_change_of. exact (diff_change e (j + 3) _ _ d u u' _ _ A A' Rep Df V3 W3).
    - exact (slot_occupants H e n OK S CF (HT2 H e t t') (storage a) (storage a') (j + 3) L3 S3 T3
        (kacc_sto H S a Ka) (kacc_sto H S a' Ka') ltac:(apply Oa) ltac:(apply Oa') (eq_sym X3) (eq_sym Y3) Ba Ba').
  Qed.
  Theorem storage_swaps a : pt i = StorageChanged -> get t 0 K = Some a ->
    exists s' slot, t' = modify (set_storage s') t 0 K /\ word_ok slot /\ adv MU_storage_key_rlc i = word_rlc (echal e) slot /\
      slot_change (echal e) (slot_key H slot) (storage a) s' (adv MU_old_value i) (adv MU_new_value i) /\ swaps (storage a) s' (slot_key H slot).
  Proof.
    intros T G. destruct (account_two H e n OK t t' i Hi Hst Hroot Hroot' Hbits Hbits' Hacc Hacc' CF) as (d & u & u' & A & A' & Rep & Df). fold K in A, A', Rep.
    rewrite (sub_get d t K 0 u A) in G. cbn [Nat.add] in G.
    destruct Df as [E G0 V0 V1|j k b b' Uj S0 P0 -> -> Kb Kb' Ob Ob' Eb Eb'|m Su G0 V0 V1 _ E|m j k b' Su G0 V0 Hm Uj S0 P0 E Kb' Ob' Eb'];
      try (change (get u d K = None) in G0; congruence).
    cbn in G. destruct (feqb_spec K k) as [<-|]; [|discriminate G]. injection G as ->.
    destruct (slot_swaps j a b' T Uj S0 P0 Kb Kb' Ob Ob' (sub_bits n d t _ K 0 A Hsb) (sub_bits n d t' _ K 0 A' Hsb') Eb Eb') as (Ea & slot & Q).
    exists (storage b'), slot. split; [|exact Q].
    rewrite (sub_modify (set_storage (storage b')) d t K 0 _ A). cbn [modify]. rewrite feqb_refl, <- Ea. exact Rep.
  Qed.
End Slots.

(** * Exposed rows *)
Section Props.
  Variables (H : Fr -> Fr -> Fr -> Fr) (e : env) (n : Z).
  Hypothesis OK : circuit_ok H e n.
  Theorem created_occupant_row : forall row, exposes e row -> row <> blank_row -> row <> final_row ->
    exists s, row = encode (echal e) s /\ 0 <= st_address s < 2 ^ 160 /\ forall t t', tries_of H e n s t t' ->
    let K := addr_key H (st_address s) in
    ~ present t K -> present t' K -> forall k b, reached t 0 K = Some (k, b) -> k <> K /\ get t 0 k = Some b.
  Proof.
    apply (lift_row H e n). exact OK. cbv zeta. intros i s t t' Hi R T. rewrite <- (rs_key _ _ _ _ R). intros N (a' & G').
    assert (G : get t 0 (adv e MU_key i) = None).
    { destruct (get t 0 (adv e MU_key i)) as [a|] eqn:Ga; [|reflexivity]. exfalso. apply N. exists a. exact Ga. }
    apply (created_occupant H e n OK t t' i Hi (rs_seg _ _ _ _ R)) with (a' := a'); try apply T; try exact G; try exact G'.
    - rewrite (to_old _ _ _ _ _ _ T). apply R.
    - rewrite (to_new _ _ _ _ _ _ T). apply R.
  Qed.
  Theorem swapped_occupant_row : forall row, exposes e row -> row <> blank_row -> row <> final_row ->
    exists s, row = encode (echal e) s /\ 0 <= st_address s < 2 ^ 160 /\ forall t t', tries_of H e n s t t' ->
    let K := addr_key H (st_address s) in
    st_kind s = StorageChanged -> forall a, get t 0 K = Some a ->
    exists st' slot, t' = modify (set_storage st') t 0 K /\ word_ok slot /\ st_slot_rlc s = word_rlc (echal e) slot /\
      slot_change (echal e) (slot_key H slot) (storage a) st' (st_old_value s) (st_new_value s) /\
      let sk := slot_key H slot in
      (~ present (storage a) sk -> present st' sk -> forall k v, reached (storage a) 0 sk = Some (k, v) -> k <> sk /\ get (storage a) 0 k = Some v) /\
      (present (storage a) sk -> ~ present st' sk -> forall k v, reached st' 0 sk = Some (k, v) -> k <> sk /\ get st' 0 k = Some v).
  Proof.
    apply (lift_row H e n). exact OK. cbv zeta. intros i s t t' Hi R T.
    rewrite <- (rs_key _ _ _ _ R), (rs_kind _ _ _ _ R), (rs_old _ _ _ _ R), (rs_new _ _ _ _ R), (rs_slot _ _ _ _ R). intros P a G.
    assert (r1 : state_root H t = adv e MU_old_hash i) by (rewrite (to_old _ _ _ _ _ _ T); apply R).
    assert (r2 : state_root H t' = adv e MU_new_hash i) by (rewrite (to_new _ _ _ _ _ _ T); apply R).
    destruct (storage_swaps H e n OK t t' i Hi (rs_seg _ _ _ _ R) r1 r2 (to_bits _ _ _ _ _ _ T) (to_bits' _ _ _ _ _ _ T) (to_sbits _ _ _ _ _ _ T) (to_sbits' _ _ _ _ _ _ T) (to_ok _ _ _ _ _ _ T) (to_ok' _ _ _ _ _ _ T) (to_free _ _ _ _ _ _ T) a P G)
      as (st' & slot & A & B & C & D & E1 & E2). exists st', slot. split; [exact A|]. split; [exact B|]. split; [exact C|]. split; [exact D|].
    assert (Np : forall x : tree Z, ~ present x (slot_key H slot) -> get x 0 (slot_key H slot) = None).
    { intros x N. destruct (get x 0 (slot_key H slot)) as [w|] eqn:Gw; [|reflexivity]. exfalso. apply N. exists w. exact Gw. }
    split.
    - intros N (w & Y). exact (E1 w (Np _ N) Y).
    - intros (w & Y) N. exact (E2 w Y (Np _ N)).
  Qed.
End Props.
