(* How the new storage trie of an update differs from the old one. *)
From Coq Require Import ZArith String List Bool Lia.
From Verif Require Import Pocklington Fr Query Builder BuilderProofs Gadgets MptUpdate Bytes GadgetProofs LagrangeProofs Fixed CanonProofs UpdateRows TrieSpec UpdateWalk UpdateAccount UpdateSound UpdateClaims UpdateStorage ChangeSpec TwoTries NewSide.
Import ListNotations.
Open Scope Z_scope.

Section Rows.
  Variables (H : Fr -> Fr -> Fr -> Fr) (e : env) (n : Z).
  Hypothesis OK : circuit_ok H e n.
  Let F : fixed_ok e n := co_fixed H e n OK.
  Let HD := HD H e n OK.
  Let HL := HL H e n OK.
  Let Hn := fo_rows e n F.
  Let Hu := fo_usable e n F.
  Let HP := co_poseidon H e n OK.
  Notation adv := (adv e). Notation sg := (sg e). Notation pa := (pa e). Notation pt := (pt e).
  Notation PH := (PH e).

  (** ** a common storage leaf *)
  Lemma leaf_words q : 2 <= q -> q < n -> sg q = StorageLeaf0 -> pa q = Common -> pt q = StorageChanged ->
    PH (adv MU_sibling q) (adv MU_old_hash q) (fdom DLeaf) (adv MU_old_hash (q - 1)) /\
    PH (adv MU_sibling q) (adv MU_new_hash q) (fdom DLeaf) (adv MU_new_hash (q - 1)) /\
    exists ov nv, word_ok ov /\ word_ok nv /\ ov <> 0 /\ nv <> 0 /\
      PH (fz (ov / 2 ^ 128)) (fz (ov mod 2 ^ 128)) (fdom DPair) (adv MU_old_hash q) /\
      PH (fz (nv / 2 ^ 128)) (fz (nv mod 2 ^ 128)) (fdom DPair) (adv MU_new_hash q) /\
      adv MU_old_value q = word_rlc (echal e) ov /\ adv MU_new_value q = word_rlc (echal e) nv.
  Proof.
    intros Hq2 Hq S0 P0 T0. assert (Hr : 1 <= q < n) by lia.
    assert (Lt : q + 1 < n) by (apply (next_lt e n HL); [exact Hr|rewrite S0; discriminate]).
    destruct (r_seg_trans H e n F HD q ltac:(lia) Lt) as (l' & TS & I). rewrite S0, T0 in TS. cbn in TS. injection TS as <-.
    assert (Sn : sg (q + 1) = SegStart) by (clear - I; cbn in I; intuition auto).
    assert (Pn : pa (q + 1) = PathStart) by (apply (pa_start H e n F HD); [lia|exact Sn]).
    assert (Dir : adv MU_direction q = fb true) by (apply (r_dir H e n F HD); [exact Hr|rewrite S0, T0; reflexivity]).
    destruct (common_single H e n F HD q DLeaf) as [Bo Bn]; [lia|exact Lt|exact P0|rewrite S0; reflexivity|eauto|right; rewrite Pn; split; discriminate|].
    apply (oldP_side e q true DLeaf Dir) in Bo. apply (newP_side e q true DLeaf Dir) in Bn. unfold sideP in Bo, Bn.
    split; [exact Bo|]. split; [exact Bn|].
    pose proof (den_proof H e n F HD q Hr) as D. rewrite T0 in D. destruct D as [_ D].
    apply (den_by_segment H e n F HD q _ Hr) in D. rewrite S0 in D. destruct D as (_ & D1 & D2 & D3 & D4 & D5).
    apply (den_is_path H e n F HD q _ _ Hr) in D1; [|exact P0]. destruct D1 as [D1 D1'].
    apply (r_word e n F q) in D1; [|exact Hr]. apply (r_word e n F q) in D1'; [|exact Hr].
    apply (word_sound H e n OK q) in D1; [|exact Hr]. apply (word_sound H e n OK q) in D1'; [|exact Hr].
    destruct D1 as (ov & A1 & B1 & C1 & E1). destruct D1' as (nv & A2 & B2 & C2 & E2).
    apply (proj1 (den_assert_equal e q _ _ _)) in D2, D3. apply den_assert in D4, D5.
    rewrite eval_sub, eval_q_of_fr, !(ev_cur e n F) in D2 by exact Hr. rewrite eval_sub, eval_q_of_fr, !(ev_cur e n F) in D3 by exact Hr.
    rewrite eval_bnot, (ev_iz H e n F HD) in D4 by (exact Hr || lia). rewrite eval_bnot, (ev_iz H e n F HD) in D5 by (exact Hr || lia).
    change (adv (iz_value (izg 0)) q) with (adv (MU_zero_value 0) q) in D2.
    change (adv (iz_value (izg 1)) q) with (adv (MU_zero_value 1) q) in D3.
    assert (Nz : forall x z h, (1 - fb (feqb x f0))%fr = f1 -> x = (h - ZERO_PAIR_HASH H)%fr -> h = word_hash H z -> z <> 0).
    { intros x z h Q1 Q2 Q3 ->. rewrite Q2, Q3 in Q1. change (word_hash H 0) with (ZERO_PAIR_HASH H) in Q1.
      replace (ZERO_PAIR_HASH H - ZERO_PAIR_HASH H)%fr with f0 in Q1 by ring. rewrite feqb_refl in Q1. cbn in Q1.
      apply f1_neq_f0. rewrite <- Q1. ring. }
    exists ov, nv. split; [exact A1|]. split; [exact A2|]. split; [exact (Nz _ _ _ D4 D2 B1)|]. split; [exact (Nz _ _ _ D5 D3 B2)|]. auto.
  Qed.

  (** ** rows below an ExtensionOld row *)
  Lemma ext_old_next i : 2 <= i -> i + 1 < n -> pa i = ExtensionOld -> sg (i + 1) <> SegStart -> pa (i + 1) = ExtensionOld.
  Proof.
    intros Hi Hi' Hp Ns. pose proof (r_path_trans H e n F HD i ltac:(lia) Hi') as T. rewrite Hp in T. cbn in T.
    destruct T as [T|[T|[]]]; [auto|]. exfalso. apply Ns. apply (sg_start H e n F HD); [lia|auto].
  Qed.
  (* rows i+1 .. i+m are storage-trie rows on path p *)
  Definition one_run (p : PathType) (i : Z) (m : nat) := forall k, (1 <= k <= m)%nat -> sg (i + Z.of_nat k) = StorageTrie /\ pa (i + Z.of_nat k) = p.
  Lemma one_run_max p i : 1 <= i -> i + 1 < n ->
    exists m, one_run p i m /\ i + Z.of_nat m + 1 < n /\ ~ (sg (i + Z.of_nat m + 1) = StorageTrie /\ pa (i + Z.of_nat m + 1) = p).
  Proof.
    intros Hi Hi'.
    assert (G : forall f m, i + Z.of_nat m + 1 + Z.of_nat f >= n -> one_run p i m -> i + Z.of_nat m + 1 < n ->
      exists m, one_run p i m /\ i + Z.of_nat m + 1 < n /\ ~ (sg (i + Z.of_nat m + 1) = StorageTrie /\ pa (i + Z.of_nat m + 1) = p)).
    { induction f as [|f IH]; intros m Hm Hr Hlt; [lia|].
      assert (Dec : (sg (i + Z.of_nat m + 1) = StorageTrie /\ pa (i + Z.of_nat m + 1) = p) \/ ~ (sg (i + Z.of_nat m + 1) = StorageTrie /\ pa (i + Z.of_nat m + 1) = p)).
      { destruct (sg (i + Z.of_nat m + 1)); try (right; intros [X _]; discriminate X).
        destruct p, (pa (i + Z.of_nat m + 1)); (left; split; reflexivity) || (right; intros [_ X]; discriminate X). }
      destruct Dec as [[E1 E2]|Nd]; [|exists m; auto].
      apply (IH (Datatypes.S m)).
      - lia.
      - intros k Hk. destruct (Nat.eq_dec k (Datatypes.S m)) as [->|Ne]; [|apply Hr; lia].
        replace (i + Z.of_nat (Datatypes.S m)) with (i + Z.of_nat m + 1) by lia. auto.
      - replace (i + Z.of_nat (Datatypes.S m) + 1) with ((i + Z.of_nat m + 1) + 1) by lia. apply (next_lt e n HL); [lia|congruence]. }
    apply (G (Z.to_nat n) 0%nat); [lia| |lia]. intros k Hk. lia.
  Qed.
  Lemma old_new_const i m : 1 <= i -> one_run ExtensionOld i m -> i + Z.of_nat m + 1 < n -> forall k, (k <= m)%nat ->
    adv MU_new_hash (i + Z.of_nat k) = adv MU_new_hash i.
  Proof.
    intros Hi Hr Hm. induction k as [|k IH]; intros Hk; [rewrite Z.add_0_r; reflexivity|].
    destruct (Hr (Datatypes.S k) ltac:(lia)) as [Sk Pk].
    destruct (r_ext_old H e n F HD (i + Z.of_nat (Datatypes.S k))) as (_ & _ & _ & E & _); [lia|lia|exact Pk|].
    rewrite E. replace (i + Z.of_nat (Datatypes.S k) - 1) with (i + Z.of_nat k) by lia. apply IH. lia.
  Qed.
  Lemma old_rows i0 d m : 1 <= i0 -> in_trie e StorageTrie i0 (d + m) -> one_run ExtensionOld (i0 + Z.of_nat d) m ->
    i0 + Z.of_nat (d + m) + 1 < n -> sg (i0 + Z.of_nat (d + m) + 1) = StorageLeaf0 ->
    forall k, (1 <= k <= m)%nat -> (exists dm, In dm branches /\ side e (adv MU_old_hash) (i0 + Z.of_nat (d + k)) dm) /\
       adv MU_sibling (i0 + Z.of_nat (d + k)) = if (k =? m)%nat then adv MU_new_hash (i0 + Z.of_nat d) else f0.
  Proof.
    intros Hi It Hr Hm Hx k Hk.
    destruct (trie_dom H e n F HD StorageTrie i0 eq_refl Hi _ It ltac:(lia) (d + k)%nat ltac:(lia)) as (dm & Dm & Edm).
    destruct (Hr k Hk) as [Sk Pk]. replace (i0 + Z.of_nat d + Z.of_nat k) with (i0 + Z.of_nat (d + k)) in * by lia.
    destruct (r_ext_old H e n F HD (i0 + Z.of_nat (d + k))) as (_ & _ & _ & _ & N & Sb & _); [lia|lia|exact Pk|].
    rewrite Edm in N. split; [exists dm; split; [exact Dm|exact N]|].
    rewrite Sb by exact Sk. clear Sb.
    destruct (Nat.eqb_spec k m) as [->|Ne].
    - rewrite Hx. cbn [seg_eqb]. replace (i0 + Z.of_nat (d + m) - 1) with (i0 + Z.of_nat d + Z.of_nat (m - 1)) by lia. apply (old_new_const _ m); auto; lia.
    - destruct (Hr (Datatypes.S k) ltac:(lia)) as [S1 _]. replace (i0 + Z.of_nat (d + k) + 1) with (i0 + Z.of_nat d + Z.of_nat (Datatypes.S k)) by lia.
      rewrite S1. reflexivity.
  Qed.
  (* an old-only path ends at a leaf below which the new trie has nothing for the key *)
  Lemma ext_old_nonex m : forall i, n - i <= Z.of_nat m -> 2 <= i < n -> pa i = ExtensionOld ->
    (sg i = StorageTrie \/ sg i = StorageLeaf0) ->
    exists other data, nonex e f0 (adv MU_new_hash (i - 1)) (adv MU_key (i - 1)) other data /\ adv MU_new_value i = f0.
  Proof.
    induction m as [|m IH]; intros i Hm Hi Hp Hsg; [lia|].
    assert (Hns : sg i <> SegStart) by (destruct Hsg as [E|E]; rewrite E; discriminate).
    assert (Hlt : i + 1 < n) by (apply (next_lt e n HL); [lia|exact Hns]).
    destruct (r_ext_old H e n F HD i) as (X1 & _ & X2 & X3 & _ & _ & X7); [lia|lia|exact Hp|].
    destruct (r_key H e n F HD i) as [Ek _]; [lia|exact Hns|destruct Hsg as [E|E]; rewrite E; discriminate|].
    destruct Hsg as [E|E].
    - destruct (r_seg_trans H e n F HD i ltac:(lia) Hlt) as (l' & TS & I). rewrite E, X1 in TS. cbn in TS. injection TS as <-.
      assert (Nx : sg (i + 1) = StorageTrie \/ sg (i + 1) = StorageLeaf0) by (clear - I; cbn in I; intuition congruence).
      assert (Pn : pa (i + 1) = ExtensionOld) by (apply ext_old_next; [lia|lia|exact Hp|destruct Nx as [Nx|Nx]; rewrite Nx; discriminate]).
      destruct (IH (i + 1)) as (o & dt & N & _); [lia|lia|exact Pn|exact Nx|].
      replace (i + 1 - 1) with i in N by lia. rewrite X3, Ek in N. exists o, dt. auto.
    - specialize (X7 E). rewrite X2, X3, Ek in X7. eauto.
  Qed.
  Lemma ext_new_nonex_sto m : forall i, n - i <= Z.of_nat m -> 2 <= i < n -> pa i = ExtensionNew -> pt i = StorageChanged ->
    (sg i = StorageTrie \/ sg i = StorageLeaf0) ->
    exists other data, nonex e f0 (adv MU_old_hash (i - 1)) (adv MU_key (i - 1)) other data /\ adv MU_old_value i = f0.
  Proof.
    induction m as [|m IH]; intros i Hm Hi Hp Ht Hsg; [lia|].
    assert (Hns : sg i <> SegStart) by (destruct Hsg as [E|E]; rewrite E; discriminate).
    assert (Hlt : i + 1 < n) by (apply (next_lt e n HL); [lia|exact Hns]).
    destruct (r_ext_new H e n F HD i) as (_ & X2 & X3 & _ & _ & _ & X7); [lia|lia|exact Hp|].
    destruct (r_key H e n F HD i) as [Ek _]; [lia|exact Hns|destruct Hsg as [E|E]; rewrite E; discriminate|].
    destruct Hsg as [E|E].
    - destruct (r_seg_trans H e n F HD i ltac:(lia) Hlt) as (l' & TS & I). rewrite E, Ht in TS. cbn in TS. injection TS as <-.
      assert (Nx : sg (i + 1) = StorageTrie \/ sg (i + 1) = StorageLeaf0) by (clear - I; cbn in I; intuition congruence).
      assert (Ns1 : sg (i + 1) <> SegStart) by (destruct Nx as [Nx|Nx]; rewrite Nx; discriminate).
      assert (Pn : pa (i + 1) = ExtensionNew) by (apply (ext_new_next H e n OK); [lia|lia|exact Hp|exact Ns1]).
      destruct (nonstart_step H e n F HD (i + 1) ltac:(lia) Ns1) as (Tn & _). replace (i + 1 - 1) with i in Tn by lia.
      destruct (IH (i + 1)) as (o & dt & N & _); [lia|lia|exact Pn|congruence|exact Nx|].
      replace (i + 1 - 1) with i in N by lia. rewrite X3, Ek in N. exists o, dt. auto.
    - specialize (X7 ltac:(rewrite E; reflexivity)). rewrite X2, X3, Ek in X7. eauto.
  Qed.
End Rows.

Section Two.
  Variables (H : Fr -> Fr -> Fr -> Fr) (e : env) (n : Z).
  Hypothesis OK : circuit_ok H e n.
  Let F : fixed_ok e n := co_fixed H e n OK.
  Let HD := HD H e n OK.
  Let HL := HL H e n OK.
  Let Hn := fo_rows e n F.
  Let Hu := fo_usable e n F.
  Let HP := co_poseidon H e n OK.
  Notation adv := (adv e). Notation sg := (sg e). Notation pa := (pa e). Notation pt := (pt e).
  Notation PH := (PH e).
  Variable S : triple -> Prop.
  Hypothesis CF : collision_free H S.
  Hypothesis HT : forall l r d h, poseidon_hit e l r d h -> S (l, r, d).
  Variables (s s' : tree Z) (l : Z).
  Hypothesis Hl : 2 <= l /\ l + 1 < n.
  Hypothesis S3 : sg l = AccountLeaf3.
  Hypothesis P3 : pa l = Common.
  Hypothesis T3 : pt l = StorageChanged.
  Notation known := (known H S (word_hash H) word_inputs).
  Notation th := (thash H (word_hash H)).
  Hypothesis Ks : known s.
  Hypothesis Ks' : known s'.
  Hypothesis Ps : tree_all word_ok s.
  Hypothesis Ps' : tree_all word_ok s'.
  Hypothesis Es : storage_root H s = adv MU_old_hash l.
  Hypothesis Es' : storage_root H s' = adv MU_new_hash l.
  Hypothesis Bs : bits_ok n (height s).
  Hypothesis Bs' : bits_ok n (height s').
  Let K := adv MU_key l.

  Inductive slot_diff (d : nat) (u u' : tree Z) : Prop :=
  | SD_leaf : forall k w w', u = Leaf k w -> u' = Leaf k w' -> w <> 0 -> w' <> 0 -> word_ok w -> word_ok w' ->
      adv MU_old_value l = word_rlc (echal e) w -> adv MU_new_value l = word_rlc (echal e) w' -> slot_diff d u u'
  | SD_new : forall m k w', single u -> get u d K = None -> adv MU_old_value l = f0 -> (m = O -> u = Empty) ->
      u' = chain K d m u (Leaf k w') -> slot_diff d u u'
  | SD_old : forall m k w, single u' -> get u' d K = None -> adv MU_new_value l = f0 -> (m = O -> u' = Empty) ->
      u = chain K d m u' (Leaf k w) -> slot_diff d u u'.
  Lemma nonex_single_sto u v key o data : known u -> nonex e v (th u) key o data -> single u.
  Proof.
    intros Ku [_ [[A B]|(A & B & C)]].
    - rewrite (zero_step H S CF (word_hash H) word_inputs u Ku B). exact Logic.I.
    - destruct (leaf_step H e HP S CF HT (word_hash H) word_inputs u _ _ _ Ku eq_refl C) as (w & -> & _). exact Logic.I.
  Qed.
  Lemma winj w w' : word_ok w -> word_ok w' -> (forall x, In x (word_inputs w) -> S x) -> (forall x, In x (word_inputs w') -> S x) -> word_hash H w = word_hash H w' -> w = w'.
  Proof. apply word_inj. exact CF. Qed.

  Theorem storage_two : exists d u u', sub s K 0 d = Some u /\ sub s' K 0 d = Some u' /\ s' = repl s K 0 d u' /\ slot_diff d u u'.
  Proof.
    destruct (sto_run_max H e n OK l ltac:(lia) (proj2 Hl)) as (d & R & Lt & Cm).
    assert (Hd0 : is_trie_seg (sg l) = false) by (rewrite S3; reflexivity).
    assert (Id : in_trie e StorageTrie l d) by (intros k Hk; apply R; exact Hk).
    destruct (common_two H e n F HD (DCR H e n OK) (DKB H e n OK) HP S CF HT (word_hash H) word_inputs word_ok winj
      StorageTrie l K eq_refl ltac:(lia) Hd0 eq_refl s s' Bs Bs' Ks Ks' Ps Ps' Es Es' d Id) as (u & u' & A & A' & Ku & Ku' & Pu & Pu' & Eu & Eu' & Rep).
    { intros k Hk. apply R. exact Hk. } { exact Lt. }
    exists d, u, u'. split; [exact A|]. split; [exact A'|]. split; [exact Rep|].
    assert (Kj : adv MU_key (l + Z.of_nat d) = K).
    { apply (trie_key H e n F HD StorageTrie l K eq_refl ltac:(lia) eq_refl d Id). lia. }
    destruct (pt_const H e n F HD l d ltac:(lia) ltac:(lia)) as (Tj & Oj & Nj & _).
    { intros q Hq. destruct (R q Hq) as [X _]. rewrite X. discriminate. }
    set (j := l + Z.of_nat d) in *.
    assert (Hj : l <= j < n) by (unfold j; lia).
    assert (Sj : sg j = AccountLeaf3 \/ sg j = StorageTrie).
    { unfold j. destruct d as [|d']; [left; rewrite Z.add_0_r; exact S3|right; apply R; lia]. }
    assert (Pj : pa j = Common).
    { unfold j. destruct d as [|d']; [rewrite Z.add_0_r; exact P3|apply R; lia]. }
    destruct (r_seg_trans H e n F HD j ltac:(lia) Lt) as (ls & TS & I). rewrite Tj, T3 in TS.
    assert (Tl : ls = [StorageTrie; StorageLeaf0]) by (destruct Sj as [Sj|Sj]; rewrite Sj in TS; cbn in TS; congruence). subst ls.
    assert (Sn : sg (j + 1) = StorageTrie \/ sg (j + 1) = StorageLeaf0) by (clear - I; cbn in I; intuition auto).
    assert (Ns : sg (j + 1) <> SegStart) by (destruct Sn as [Sn|Sn]; rewrite Sn; discriminate).
    destruct (nonstart_step H e n F HD (j + 1) ltac:(lia) Ns) as (X1 & X2 & X3 & _).
    replace (j + 1 - 1) with j in * by lia. rewrite Tj, T3 in X1. rewrite Oj in X2. rewrite Nj in X3.
    assert (J2 : 2 <= j) by lia.
    assert (Lt2 : j + 1 + 1 < n) by (apply (next_lt e n HL); [lia|exact Ns]).
    (* rows of a one-sided path *)
    assert (One : forall p m, (p = ExtensionNew \/ p = ExtensionOld) -> one_run e p j m -> j + Z.of_nat m + 1 < n ->
      in_trie e StorageTrie l (d + m) /\ j + Z.of_nat m = l + Z.of_nat (d + m) /\ pt (j + Z.of_nat m) = StorageChanged).
    { intros p m Hp Rm Lm. split; [|split].
      - intros k Hk. destruct (le_lt_dec k d) as [L|L]; [apply R; lia|].
        destruct (Rm (k - d)%nat ltac:(lia)) as [X _]. unfold j in X. replace (l + Z.of_nat d + Z.of_nat (k - d)) with (l + Z.of_nat k) in X by lia. exact X.
      - unfold j; lia.
      - destruct (pt_const H e n F HD j m ltac:(lia) ltac:(lia)) as (B1 & _); [|congruence].
        intros x Hx. destruct (Rm x ltac:(lia)) as [X _]. rewrite X. discriminate. }
    destruct (pa (j + 1)) eqn:Pn.
    - exfalso. apply (sg_start H e n F HD) in Pn; [|lia]. contradiction.
    - assert (Sl : sg (j + 1) = StorageLeaf0) by (destruct Sn as [Sn|Sn]; [rewrite Sn in Cm; discriminate|exact Sn]).
      destruct (leaf_words H e n OK (j + 1) ltac:(lia) ltac:(lia) Sl Pn X1) as (Lo & Ln & ov & nv & W1 & W2 & Z1 & Z2 & Q1 & Q2 & V1 & V2).
      replace (j + 1 - 1) with j in * by lia.
      destruct (leaf_step H e HP S CF HT (word_hash H) word_inputs u _ _ _ Ku Eu Lo) as (w & -> & Hw).
      destruct (leaf_step H e HP S CF HT (word_hash H) word_inputs u' _ _ _ Ku' Eu' Ln) as (w' & -> & Hw').
      assert (Iw : S (fz (w / 2 ^ 128), fz (w mod 2 ^ 128), fdom DPair)) by (apply Ku; cbn; auto).
      assert (Iw' : S (fz (w' / 2 ^ 128), fz (w' mod 2 ^ 128), fdom DPair)) by (apply Ku'; cbn; auto).
      destruct (hash_inj H e HP S CF HT _ _ _ _ _ _ _ Q1 Iw Hw) as (Y1 & Y2 & _).
      destruct (hash_inj H e HP S CF HT _ _ _ _ _ _ _ Q2 Iw' Hw') as (Y1' & Y2' & _).
      assert (ov = w) by (apply halves; [exact W1|exact Pu|exact Y1|exact Y2]). assert (nv = w') by (apply halves; [exact W2|exact Pu'|exact Y1'|exact Y2']).
      subst ov nv. apply (SD_leaf d _ _ (adv MU_sibling (j + 1)) w w'); auto; congruence.
    - (* only in the old trie *)
      destruct (ext_old_nonex H e n OK (Z.to_nat n) (j + 1)) as (o & data & N & Z0); [lia|lia|exact Pn|exact Sn|].
      replace (j + 1 - 1) with j in N by lia. rewrite Kj, <- Eu' in N.
      assert (Su : single u') by (apply (nonex_single_sto u' _ _ _ _ Ku' N)).
      assert (Gu : get u' d K = None) by (apply (nonex_get H e HP S CF HT (word_hash H) word_inputs u' _ _ _ _ _ Ku' N)).
      destruct (one_run_max H e n OK ExtensionOld j ltac:(lia) ltac:(lia)) as (m & Rm & Lm & Nm).
      destruct (One ExtensionOld m (or_intror eq_refl) Rm Lm) as (It & Ej & Tm).
      assert (Nx : sg (j + Z.of_nat m + 1) = StorageLeaf0 /\ pa (j + Z.of_nat m + 1) = ExtensionOld).
      { destruct m as [|m'].
        - rewrite Z.add_0_r in *. destruct Sn as [X|X]; [exfalso; apply Nm; auto|auto].
        - destruct (Rm (Datatypes.S m') ltac:(lia)) as [Sm Pm].
          destruct (r_seg_trans H e n F HD (j + Z.of_nat (Datatypes.S m')) ltac:(lia) Lm) as (lm & TSm & Im). rewrite Sm, Tm in TSm. cbn in TSm. injection TSm as <-.
          assert (Nq : sg (j + Z.of_nat (Datatypes.S m') + 1) <> SegStart) by (clear - Im; cbn [In] in Im; intuition congruence).
          assert (Px : pa (j + Z.of_nat (Datatypes.S m') + 1) = ExtensionOld) by (apply (ext_old_next H e n OK); [lia|exact Lm|exact Pm|exact Nq]).
          split; [|exact Px]. cbn [In] in Im. destruct Im as [Im|[Im|[]]]; [exfalso; apply Nm; auto|auto]. }
      destruct Nx as [Sx Px].
      destruct (chain_one H e n F HD (DCR H e n OK) (DKB H e n OK) HP S CF HT (word_hash H) word_inputs word_ok winj
        StorageTrie l K eq_refl ltac:(lia) Hd0 eq_refl (adv MU_old_hash) s u' Bs Pu' Ku' m d u It ltac:(lia) A Ku Pu Eu) as (v & _ & Kv & Pv & Ev & Ch).
      { intros k Hk. rewrite Eu'. apply (old_rows H e n OK l d m ltac:(lia) It Rm ltac:(lia)); [rewrite <- Ej; exact Sx|exact Hk]. }
      rewrite <- Ej in Ev. set (q := j + Z.of_nat m + 1) in *.
      assert (Lq : q + 1 < n) by (apply (next_lt e n HL); [lia|rewrite Sx; discriminate]).
      destruct (r_ext_old H e n F HD q ltac:(lia) Lq Px) as (Tq & _ & _ & _ & Op & _).
      rewrite (single_dom H e n OK q DLeaf ltac:(lia)) in Op by (rewrite Sx; reflexivity).
      apply (oldP_side e q true DLeaf) in Op; [|apply (r_dir H e n F HD); [lia|rewrite Sx, Tq; reflexivity]].
      unfold sideP in Op. replace (q - 1) with (j + Z.of_nat m) in Op by lia.
      destruct (leaf_step H e HP S CF HT (word_hash H) word_inputs v _ _ _ Kv Ev Op) as (w & -> & Hw).
      apply (SD_old d u u' m (adv MU_sibling q) w); auto; [congruence|].
      intros ->. pose proof (r_common H e n F HD j ltac:(lia) Lt Pj) as Cf. unfold common_facts in Cf. rewrite Pn in Cf.
      unfold q in Sx. rewrite Z.add_0_r in Sx. rewrite Sx in Cf. cbn [is_leaf0] in Cf. destruct Cf as (_ & _ & Cf & _).
      apply (zero_step H S CF (word_hash H) word_inputs u' Ku'). rewrite Eu'. exact Cf.
    - (* only in the new trie *)
      destruct (ext_new_nonex_sto H e n OK (Z.to_nat n) (j + 1)) as (o & data & N & Z0); [lia|lia|exact Pn|exact X1|exact Sn|].
      replace (j + 1 - 1) with j in N by lia. rewrite Kj, <- Eu in N.
      assert (Su : single u) by (apply (nonex_single_sto u _ _ _ _ Ku N)).
      assert (Gu : get u d K = None) by (apply (nonex_get H e HP S CF HT (word_hash H) word_inputs u _ _ _ _ _ Ku N)).
      destruct (one_run_max H e n OK ExtensionNew j ltac:(lia) ltac:(lia)) as (m & Rm & Lm & Nm).
      destruct (One ExtensionNew m (or_introl eq_refl) Rm Lm) as (It & Ej & Tm).
      assert (Nx : sg (j + Z.of_nat m + 1) = StorageLeaf0 /\ pa (j + Z.of_nat m + 1) = ExtensionNew).
      { destruct m as [|m'].
        - rewrite Z.add_0_r in *. destruct Sn as [X|X]; [exfalso; apply Nm; auto|auto].
        - destruct (Rm (Datatypes.S m') ltac:(lia)) as [Sm Pm].
          destruct (r_seg_trans H e n F HD (j + Z.of_nat (Datatypes.S m')) ltac:(lia) Lm) as (lm & TSm & Im). rewrite Sm, Tm in TSm. cbn in TSm. injection TSm as <-.
          assert (Nq : sg (j + Z.of_nat (Datatypes.S m') + 1) <> SegStart) by (clear - Im; cbn [In] in Im; intuition congruence).
          assert (Px : pa (j + Z.of_nat (Datatypes.S m') + 1) = ExtensionNew) by (apply (ext_new_next H e n OK); [lia|exact Lm|exact Pm|exact Nq]).
          split; [|exact Px]. cbn [In] in Im. destruct Im as [Im|[Im|[]]]; [exfalso; apply Nm; auto|auto]. }
      destruct Nx as [Sx Px].
      destruct (chain_one H e n F HD (DCR H e n OK) (DKB H e n OK) HP S CF HT (word_hash H) word_inputs word_ok winj
        StorageTrie l K eq_refl ltac:(lia) Hd0 eq_refl (adv MU_new_hash) s' u Bs' Pu Ku m d u' It ltac:(lia) A' Ku' Pu' Eu') as (v & _ & Kv & Pv & Ev & Ch).
      { intros k Hk. rewrite Eu. apply (ext_rows H e n OK StorageTrie l d m ltac:(lia) eq_refl It Rm ltac:(lia)); [rewrite <- Ej, Sx; reflexivity|exact Hk]. }
      rewrite <- Ej in Ev. set (q := j + Z.of_nat m + 1) in *.
      assert (Lq : q + 1 < n) by (apply (next_lt e n HL); [lia|rewrite Sx; discriminate]).
      destruct (nonstart_step H e n F HD q ltac:(lia)) as (Tq & _); [rewrite Sx; discriminate|].
      replace (q - 1) with (j + Z.of_nat m) in * by lia. rewrite Tm in Tq.
      pose proof (ext_side H e n OK q true DLeaf ltac:(lia) Lq Px ltac:(rewrite Sx; reflexivity) ltac:(rewrite Sx, Tq; reflexivity)) as Np. unfold newS, sideP in Np.
      replace (q - 1) with (j + Z.of_nat m) in Np by lia.
      destruct (leaf_step H e HP S CF HT (word_hash H) word_inputs v _ _ _ Kv Ev Np) as (w & -> & Hw).
      apply (SD_new d u u' m (adv MU_sibling q) w); auto; [congruence|].
      intros ->. pose proof (r_common H e n F HD j ltac:(lia) Lt Pj) as Cf. unfold common_facts in Cf. rewrite Pn in Cf.
      unfold q in Sx. rewrite Z.add_0_r in Sx. rewrite Sx in Cf. cbn [is_leaf0] in Cf. destruct Cf as (_ & _ & Cf & _).
      apply (zero_step H S CF (word_hash H) word_inputs u Ku). rewrite Eu. exact Cf.
  Qed.
End Two.
