(* Account-level soundness of one update. *)
From Coq Require Import ZArith String List Bool Lia.
From Verif Require Import Pocklington Fr Query Builder BuilderProofs Gadgets MptUpdate Bytes GadgetProofs LagrangeProofs Fixed CanonProofs UpdateRows TrieSpec UpdateWalk.
Import ListNotations.
Open Scope Z_scope.

Section Account.
  Variables (H : Fr -> Fr -> Fr -> Fr) (e : env) (n : Z).
  Hypothesis F : fixed_ok e n.
  Hypothesis HD : forall i, 1 <= i < n -> den e i (mpt_update_configure H).
  Hypothesis HL : sg e (n - 1) = SegStart.
  Let Hn := fo_rows e n F.
  Let Hu := fo_usable e n F.
  Let Hs := fo_small e n F.
  Notation adv := (adv e). Notation sg := (sg e). Notation pa := (pa e). Notation pt := (pt e).
  Notation PH := (PH e). Notation oldP := (oldP e). Notation newP := (newP e).

  Lemma next_lt i : 1 <= i < n -> sg i <> SegStart -> i + 1 < n.
  Proof. intros Hi N. assert (i <> n - 1) by (intros ->; contradiction). lia. Qed.
  Lemma pa_start i : 1 <= i < n -> sg i = SegStart -> pa i = PathStart.
  Proof. intros Hi E. apply (r_start_iff H e n F HD i Hi). exact E. Qed.
  Lemma sg_start i : 1 <= i < n -> pa i = PathStart -> sg i = SegStart.
  Proof. intros Hi E. apply (r_start_iff H e n F HD i Hi). exact E. Qed.

  (* rows i+1 .. i+d are common account-trie rows *)
  Definition acc_run (i : Z) (d : nat) := forall k, (1 <= k <= d)%nat -> sg (i + Z.of_nat k) = AccountTrie /\ pa (i + Z.of_nat k) = Common.
  Definition common_trie (s : SegmentType) (p : PathType) := match s, p with AccountTrie, Common => true | _, _ => false end.

  Lemma acc_run_max i : 1 <= i -> i + 1 < n -> sg i = SegStart ->
    exists d, acc_run i d /\ i + Z.of_nat d + 1 < n /\
      common_trie (sg (i + Z.of_nat d + 1)) (pa (i + Z.of_nat d + 1)) = false.
  Proof.
    intros Hi Hi' Es.
    assert (G : forall m d, i + Z.of_nat d + 1 + Z.of_nat m >= n -> acc_run i d -> i + Z.of_nat d + 1 < n ->
      exists d, acc_run i d /\ i + Z.of_nat d + 1 < n /\ common_trie (sg (i + Z.of_nat d + 1)) (pa (i + Z.of_nat d + 1)) = false).
    { induction m as [|m IH]; intros d Hm Hr Hlt; [lia|].
      destruct (common_trie (sg (i + Z.of_nat d + 1)) (pa (i + Z.of_nat d + 1))) eqn:E.
      - apply (IH (S d)).
        + lia.
        + intros k Hk. destruct (Nat.eq_dec k (S d)) as [->|Ne]; [|apply Hr; lia].
          replace (i + Z.of_nat (S d)) with (i + Z.of_nat d + 1) by lia.
          destruct (sg (i + Z.of_nat d + 1)), (pa (i + Z.of_nat d + 1)); cbn in E; try discriminate; auto.
        + replace (i + Z.of_nat (S d) + 1) with ((i + Z.of_nat d + 1) + 1) by lia. apply next_lt; [lia|].
          intros Es'. rewrite Es' in E. discriminate.
      - exists d. auto. }
    apply (G (Z.to_nat n) 0%nat); [lia| |lia]. intros k Hk. lia.
  Qed.

  Lemma pt_const i k : 1 <= i -> i + Z.of_nat k < n ->
    (forall j, (1 <= j <= k)%nat -> sg (i + Z.of_nat j) <> SegStart) -> pt (i + Z.of_nat k) = pt i /\
    adv MU_old_value (i + Z.of_nat k) = adv MU_old_value i /\ adv MU_new_value (i + Z.of_nat k) = adv MU_new_value i /\
    adv MU_storage_key_rlc (i + Z.of_nat k) = adv MU_storage_key_rlc i.
  Proof.
    intros Hi. induction k as [|k IH]; intros Hk N; [rewrite Z.add_0_r; auto|].
    destruct (r_nonstart H e n F HD (i + Z.of_nat (S k))) as (A & B & C & D); [lia|apply N; lia|].
    replace (i + Z.of_nat (S k) - 1) with (i + Z.of_nat k) in * by lia.
    destruct IH as (A' & C' & D' & B'); [lia|intros j Hj; apply N; lia|].
    repeat split; congruence.
  Qed.
  Lemma nonstart_step i : 2 <= i < n -> sg i <> SegStart -> pt i = pt (i - 1) /\
    adv MU_old_value i = adv MU_old_value (i - 1) /\ adv MU_new_value i = adv MU_new_value (i - 1) /\
    adv MU_storage_key_rlc i = adv MU_storage_key_rlc (i - 1).
  Proof. intros Hi Hs'. destruct (r_nonstart H e n F HD i Hi Hs') as (A & B & C & D). auto. Qed.

  (* an old-extension row lies in a storage segment *)
  Lemma no_ext_old i : 2 <= i < n -> sg i <> StorageTrie -> sg i <> StorageLeaf0 -> pa i <> ExtensionOld.
  Proof.
    intros Hi N1 N2 E. assert (sg i <> SegStart) by (intros X; apply pa_start in X; [congruence|lia]).
    destruct (r_ext_old H e n F HD i) as (_ & X & _); [lia|apply next_lt; [lia|assumption]|exact E|].
    cbn in X. intuition congruence.
  Qed.

  (** ** the end of the common account-trie run *)
  Inductive acc_end (j : Z) : Prop :=
  | AE_empty : sg (j + 1) = SegStart -> acc_end j
  | AE_leaf : sg (j + 1) = AccountLeaf0 -> pa (j + 1) = Common -> acc_end j
  | AE_new : (sg (j + 1) = AccountTrie \/ sg (j + 1) = AccountLeaf0) -> pa (j + 1) = ExtensionNew -> acc_end j.
  Lemma acc_ends i d : 1 <= i -> sg i = SegStart -> acc_run i d -> i + Z.of_nat d + 1 < n ->
    common_trie (sg (i + Z.of_nat d + 1)) (pa (i + Z.of_nat d + 1)) = false -> acc_end (i + Z.of_nat d).
  Proof.
    intros Hi Es Hr Hlt Hc. set (j := i + Z.of_nat d) in *.
    assert (Hj : sg j = SegStart \/ sg j = AccountTrie).
    { destruct d as [|d]; [left; unfold j; rewrite Z.add_0_r; exact Es|right]. apply Hr. lia. }
    destruct (r_seg_trans H e n F HD j) as (l & T & I); [lia|lia|].
    assert (Hn1 : sg (j + 1) = SegStart \/ sg (j + 1) = AccountTrie \/ sg (j + 1) = AccountLeaf0).
    { destruct Hj as [Hj|Hj]; rewrite Hj in T; destruct (pt j); cbn in T; try discriminate T; injection T as <-; cbn in I;
        clear - I; intuition auto. }
    destruct Hn1 as [E|E]; [apply AE_empty; exact E|].
    assert (Hp : pa (j + 1) <> ExtensionOld) by (apply no_ext_old; [lia| |]; destruct E as [E|E]; rewrite E; discriminate).
    assert (Hp' : pa (j + 1) <> PathStart) by (intros X; apply sg_start in X; [|lia]; destruct E as [E|E]; rewrite E in X; discriminate).
    destruct (pa (j + 1)) eqn:P; try congruence.
    - apply AE_leaf; [|exact P]. destruct E as [E|E]; [|exact E]. rewrite E in Hc. discriminate.
    - apply AE_new; [exact E|exact P].
  Qed.

  (** ** the empty-account part *)
  Definition has_empty_part (p : MPTProofType) :=
    match p with NonceChanged | BalanceChanged | CodeSizeExists | CodeHashExists | AccountDoesNotExist | StorageDoesNotExist => true | _ => false end.
  Lemma r_empty i : 1 <= i -> i + 1 < n -> has_empty_part (pt i) = true -> (sg i = SegStart \/ sg i = AccountTrie) ->
    sg (i + 1) = SegStart ->
    adv MU_old_hash i = adv MU_new_hash i /\ adv MU_old_value i = f0 /\ adv MU_new_value i = f0 /\
    exists data, nonex e (adv MU_old_value i) (adv MU_old_hash i) (adv MU_key i) (adv MU_other_key i) data.
  Proof.
    intros Hi Hi' Hp Hsg Hnx. assert (Hin : 1 <= i < n) by lia.
    pose proof (den_proof H e n F HD i Hin) as D. destruct D as [_ D].
    assert (G : forall h, (h = MU_old_hash \/ (h = MU_new_hash)) -> den e i (empty_account_part h) ->
      adv MU_old_hash i = adv MU_new_hash i /\ adv MU_old_value i = f0 /\ adv MU_new_value i = f0 /\
      exists data, nonex e (adv MU_old_value i) (adv MU_old_hash i) (adv MU_key i) (adv MU_other_key i) data).
    { intros h Hh X. destruct (r_empty_part H e n F HD i h Hi Hi' X Hnx) as (A & B & C).
      split; [exact A|]. pose proof (proj1 C) as Z. split; [exact Z|]. split; [congruence|].
      exists (adv (iv 3) i). destruct Hh as [-> | ->]; [exact C|]. rewrite A. exact C. }
    destruct (pt i) eqn:P; try discriminate Hp; cbn [configure_nonce configure_code_size configure_balance configure_keccak_code_hash configure_empty_account] in D.
    - destruct D as [_ D]. apply (den_by_segment H e n F HD i _ Hin) in D. apply (G MU_old_hash); [auto|]. destruct Hsg as [E|E]; rewrite E in D; exact D.
    - apply (den_by_segment H e n F HD i _ Hin) in D. apply (G MU_old_hash); [auto|]. destruct Hsg as [E|E]; rewrite E in D; exact D.
    - apply (den_by_segment H e n F HD i _ Hin) in D. apply (G MU_old_hash); [auto|]. destruct Hsg as [E|E]; rewrite E in D; exact D.
    - apply (den_by_segment H e n F HD i _ Hin) in D. apply (G MU_old_hash); [auto|]. destruct Hsg as [E|E]; rewrite E in D; exact D.
    - destruct D as (_ & _ & _ & D). apply (den_by_segment H e n F HD i _ Hin) in D. apply (G MU_new_hash); [auto|]. destruct Hsg as [E|E]; rewrite E in D; exact D.
    - destruct D as (D1 & D2 & _ & D3 & D4 & _). cbn [den] in D1, D2. rewrite (ev_cur e n F) in D1, D2 by exact Hin.
      apply (proj1 (den_assert_equal e i _ _ _)) in D3. rewrite !(ev_cur e n F) in D3 by exact Hin.
      split; [exact D3|]. split; [exact D1|]. split; [exact D2|]. exists (adv (iv 3) i).
      apply (r_nonex H e n F HD i MU_old_value MU_old_hash (iv 3) Hin). apply D4.
      unfold next_seg, next_matches. rewrite (ev_seg H e n F HD) by (try lia; repeat constructor; cbn; tauto). rewrite Hnx. reflexivity.
  Qed.

  (** ** new-extension rows in the account trie prove that the old trie has nothing under the key *)
  Lemma ext_new_nonex m : forall i, n - i <= Z.of_nat m -> 2 <= i < n -> pa i = ExtensionNew ->
    (sg i = AccountTrie \/ sg i = AccountLeaf0) ->
    exists other data, nonex e f0 (adv MU_old_hash (i - 1)) (adv MU_key (i - 1)) other data /\ adv MU_old_value i = f0.
  Proof.
    induction m as [|m IH]; intros i Hm Hi Hp Hsg; [lia|].
    assert (Hns : sg i <> SegStart) by (destruct Hsg as [E|E]; rewrite E; discriminate).
    assert (Hlt : i + 1 < n) by (apply next_lt; [lia|exact Hns]).
    destruct (r_ext_new H e n F HD i) as (X1 & X2 & X3 & _ & _ & _ & X7); [lia|lia|exact Hp|].
    destruct (r_key H e n F HD i) as [Ek _]; [lia|exact Hns|destruct Hsg as [E|E]; rewrite E; discriminate|].
    destruct Hsg as [E|E].
    - pose proof (r_path_trans H e n F HD i ltac:(lia) Hlt) as T. rewrite Hp in T. cbn in T.
      assert (T' : pa (i + 1) = ExtensionNew \/ pa (i + 1) = PathStart) by (clear - T; intuition congruence).
      destruct T' as [Pn|Pn].
      + destruct (r_seg_trans H e n F HD i ltac:(lia) Hlt) as (l & TS & I). rewrite E in TS.
        assert (Nx : sg (i + 1) = AccountTrie \/ sg (i + 1) = AccountLeaf0).
        { assert (sg (i + 1) <> SegStart) by (intros Y; apply pa_start in Y; [congruence|lia]).
          cbn in X1. destruct X1 as [X1|[X1|[X1|[]]]]; rewrite <- X1 in TS; cbn in TS; injection TS as <-; cbn in I; clear - I H0; intuition congruence. }
        destruct (IH (i + 1)) as (o & dt & N & _); [lia|lia|exact Pn|exact Nx|].
        replace (i + 1 - 1) with i in N by lia. rewrite X3, Ek in N. exists o, dt. auto.
      + assert (Sn : sg (i + 1) = SegStart) by (apply sg_start; [lia|exact Pn]).
        assert (Pe : has_empty_part (pt i) = true).
        { destruct (r_seg_trans H e n F HD i ltac:(lia) Hlt) as (l & TS & I). rewrite E, Sn in *.
          cbn in X1. destruct X1 as [X1|[X1|[X1|[]]]]; rewrite <- X1 in *; try reflexivity.
          cbn in TS. injection TS as <-. cbn in I. intuition discriminate. }
        destruct (r_empty i ltac:(lia) Hlt Pe (or_intror E) Sn) as (_ & _ & _ & dt & N).
        rewrite X2, X3, Ek in N. exists (adv MU_other_key i), dt. auto.
    - specialize (X7 ltac:(rewrite E; reflexivity)). rewrite X2, X3, Ek in X7. eauto.
  Qed.

  (** ** account leaf rows on the common path *)
  Lemma leaf_common i : 2 <= i < n -> pa (i - 1) = Common ->
    In (sg i) [AccountLeaf1; AccountLeaf2; AccountLeaf3] -> pa i = Common.
  Proof.
    intros Hi Hp Hsg.
    assert (Hns : sg i <> SegStart) by (intros E; rewrite E in Hsg; cbn in Hsg; intuition discriminate).
    destruct (pa i) eqn:P; auto; exfalso.
    - apply sg_start in P; [congruence|lia].
    - revert P. apply no_ext_old; [lia| |]; intros E; rewrite E in Hsg; cbn in Hsg; intuition discriminate.
    - destruct (r_ext_new H e n F HD i) as (_ & _ & _ & _ & X & _); [lia|apply next_lt; [lia|exact Hns]|exact P|].
      rewrite Hp in X. cbn in Hsg. destruct Hsg as [E|[E|[E|[]]]]; rewrite <- E in X; cbn in X; intuition discriminate.
  Qed.
  (* a common row with a single possible domain hashes both sides with it *)
  Lemma common_single i d : 1 <= i -> i + 1 < n -> pa i = Common -> seg_domains (sg i) = [d] ->
    (exists b, adv MU_direction i = fb b) ->
    (d = AccountFields \/ (pa (i + 1) <> ExtensionNew /\ pa (i + 1) <> ExtensionOld)) ->
    oldP i (fdom d) /\ newP i (fdom d).
  Proof.
    intros Hi Hi' Hp Hsd (b & Hb) Hd.
    destruct (r_domain H e n F HD i) as (d' & A & B); [lia|]. rewrite Hsd in A. cbn in A. destruct A as [<-|[]].
    pose proof (r_common H e n F HD i Hi Hi' Hp) as C. unfold common_facts in C.
    destruct (pa (i + 1)) eqn:P.
    - rewrite B in C. exact C.
    - rewrite B in C. exact C.
    - destruct Hd as [->|[_ X]]; [|congruence]. destruct C as (_ & C1 & C2). rewrite B in C1.
      destruct (is_leaf0 (sg (i + 1))); destruct C2 as [C2 C3].
      + rewrite B in C3. auto.
      + rewrite (C3 AccountFields AccountFields b B Hb eq_refl) in C2. auto.
    - destruct Hd as [->|[X _]]; [|congruence]. destruct C as (_ & C1 & C2). rewrite B in C1.
      destruct (is_leaf0 (sg (i + 1))); destruct C2 as [C2 C3].
      + rewrite B in C3. auto.
      + rewrite (C3 AccountFields AccountFields b B Hb eq_refl) in C2. auto.
  Qed.

  Definition leaf_dir (p : MPTProofType) (s : SegmentType) : option bool :=
    match s with
    | AccountLeaf0 => match p with AccountDoesNotExist | AccountDestructed => None | _ => Some true end
    | AccountLeaf1 => match p with AccountDoesNotExist | AccountDestructed => None | PoseidonCodeHashExists => Some true | _ => Some false end
    | AccountLeaf2 => match p with NonceChanged | CodeSizeExists | BalanceChanged => Some false
                              | CodeHashExists | StorageChanged | StorageDoesNotExist => Some true | _ => None end
    | AccountLeaf3 => match p with NonceChanged | CodeSizeExists | StorageChanged | StorageDoesNotExist => Some false
                              | BalanceChanged | CodeHashExists => Some true | _ => None end
    | StorageLeaf0 => match p with StorageChanged => Some true | _ => None end
    | _ => None end.
  Lemma r_dir i b : 1 <= i < n -> leaf_dir (pt i) (sg i) = Some b -> adv MU_direction i = fb b.
  Proof.
    intros Hi E. pose proof (den_proof H e n F HD i Hi) as D. destruct D as [_ D].
    assert (B : forall f, den e i (by_segment f) -> den e i (f (sg i))) by (intros f; apply (den_by_segment H e n F HD i f Hi)).
    assert (D1 : den e i direction_is_1 -> true = b -> adv MU_direction i = fb b) by (intros X <-; apply (den_dir1 e n F i Hi X)).
    assert (D0 : den e i direction_is_0 -> false = b -> adv MU_direction i = fb b) by (intros X <-; apply (den_dir0 e n F i Hi X)).
    destruct (pt i) eqn:P;
      cbn [configure_nonce configure_code_size configure_balance configure_keccak_code_hash configure_storage configure_poseidon_code_hash configure_empty_storage] in D;
      [destruct D as [_ D]| | | | | | |destruct D as (_ & _ & _ & _ & _ & D)| ];
      try (apply B in D); destruct (sg i) eqn:Es; cbn [leaf_dir] in E; try discriminate E; injection E as E;
      (apply D1; [clear - D|exact E] || (apply D0; [clear - D|exact E])); 
      try exact D; try exact (proj1 D); try exact (proj2 D); try exact (proj1 (proj2 D)).
  Qed.

  (* hash facts of the account leaf rows j (AccountLeaf0), j+1, .. on the common path *)
  Definition sideP (i : Z) (b : bool) (h h' : Fr) (d : HashDomain) : Prop :=
    PH (if b then adv MU_sibling i else h) (if b then h else adv MU_sibling i) (fdom d) h'.
  Lemma oldP_side i b d : adv MU_direction i = fb b -> oldP i (fdom d) -> sideP i b (adv MU_old_hash i) (adv MU_old_hash (i - 1)) d.
  Proof. intros E X. unfold UpdateRows.oldP in X. rewrite E, lc_fb, rc_fb in X. exact X. Qed.
  Lemma newP_side i b d : adv MU_direction i = fb b -> newP i (fdom d) -> sideP i b (adv MU_new_hash i) (adv MU_new_hash (i - 1)) d.
  Proof. intros E X. unfold UpdateRows.newP in X. rewrite E, lc_fb, rc_fb in X. exact X. Qed.
  Definition both (i : Z) (b : bool) (d : HashDomain) :=
    sideP i b (adv MU_old_hash i) (adv MU_old_hash (i - 1)) d /\ sideP i b (adv MU_new_hash i) (adv MU_new_hash (i - 1)) d.

  Definition four_rows (p : MPTProofType) := match p with AccountDoesNotExist | AccountDestructed | PoseidonCodeHashExists => false | _ => true end.
  Lemma leaf_rows j : 2 <= j < n -> sg j = AccountLeaf0 -> pa j = Common ->
    j + 2 < n /\ both j true DLeaf /\ sg (j + 1) = AccountLeaf1 /\ pa (j + 1) = Common /\ pt (j + 1) = pt j /\
    (pt j = PoseidonCodeHashExists /\ both (j + 1) true AccountFields \/
     four_rows (pt j) = true /\ j + 4 < n /\ exists b2 b3,
       sg (j + 2) = AccountLeaf2 /\ sg (j + 3) = AccountLeaf3 /\ pa (j + 3) = Common /\ pt (j + 3) = pt j /\
       leaf_dir (pt j) AccountLeaf2 = Some b2 /\ leaf_dir (pt j) AccountLeaf3 = Some b3 /\
       both (j + 1) false AccountFields /\ both (j + 2) b2 AccountFields /\ both (j + 3) b3 AccountFields).
  Proof.
    intros Hj S0 P0.
    assert (L1 : j + 1 < n) by (apply next_lt; [lia|rewrite S0; discriminate]).
    destruct (r_seg_trans H e n F HD j ltac:(lia) L1) as (l & T & I). rewrite S0 in T.
    assert (S1 : sg (j + 1) = AccountLeaf1) by (destruct (pt j); cbn in T; try discriminate T; injection T as <-; cbn in I; clear - I; intuition auto).
    assert (L2 : j + 1 + 1 < n) by (apply next_lt; [lia|rewrite S1; discriminate]).
    assert (P1 : pa (j + 1) = Common).
    { apply leaf_common; [lia|replace (j + 1 - 1) with j by lia; exact P0|rewrite S1; cbn; auto]. }
    destruct (nonstart_step (j + 1)) as (T1 & _); [lia|rewrite S1; discriminate|]. replace (j + 1 - 1) with j in T1 by lia.
    assert (D0 : exists b, leaf_dir (pt j) AccountLeaf0 = Some b /\ b = true).
    { destruct (pt j); cbn in T |- *; try discriminate T; eauto. }
    destruct D0 as (? & D0 & ->).
    assert (E0 : adv MU_direction j = fb true) by (apply r_dir; [lia|rewrite S0; exact D0]).
    assert (B0 : both j true DLeaf).
    { destruct (common_single j DLeaf) as [X Y]; [lia|lia|exact P0|rewrite S0; reflexivity|eauto|right; rewrite P1; split; discriminate|].
      split; [apply oldP_side|apply newP_side]; assumption. }
    split; [lia|]. split; [exact B0|]. split; [exact S1|]. split; [exact P1|]. split; [exact T1|].
    destruct (r_seg_trans H e n F HD (j + 1) ltac:(lia) L2) as (l1 & TT & I1). rewrite S1, T1 in TT.
    replace (j + 1 + 1) with (j + 2) in * by lia.
    assert (Gd : forall b, leaf_dir (pt j) AccountLeaf1 = Some b -> both (j + 1) b AccountFields).
    { intros b Db. assert (E1 : adv MU_direction (j + 1) = fb b) by (apply r_dir; [lia|rewrite S1, T1; exact Db]).
      destruct (common_single (j + 1) AccountFields) as [X Y]; [lia|lia|exact P1|rewrite S1; reflexivity|eauto|left; reflexivity|].
      split; [apply oldP_side|apply newP_side]; assumption. }
    destruct (four_rows (pt j)) eqn:FR.
    2:{ left. destruct (pt j); try discriminate; cbn in TT; try discriminate TT. split; [reflexivity|]. apply Gd. reflexivity. }
    right. split; [reflexivity|].
    assert (S2 : sg (j + 2) = AccountLeaf2).
    { destruct (pt j); cbn in FR, TT; try discriminate; injection TT as <-; cbn in I1; clear - I1; intuition auto. }
    assert (L3 : j + 2 + 1 < n) by (apply next_lt; [lia|rewrite S2; discriminate]).
    assert (P2 : pa (j + 2) = Common).
    { apply leaf_common; [lia|replace (j + 2 - 1) with (j + 1) by lia; exact P1|rewrite S2; cbn; auto]. }
    destruct (nonstart_step (j + 2)) as (T2 & _); [lia|rewrite S2; discriminate|]. replace (j + 2 - 1) with (j + 1) in T2 by lia.
    rewrite T1 in T2.
    destruct (r_seg_trans H e n F HD (j + 2) ltac:(lia) L3) as (l2 & TT2 & I2). rewrite S2, T2 in TT2.
    replace (j + 2 + 1) with (j + 3) in * by lia.
    assert (S3 : sg (j + 3) = AccountLeaf3).
    { destruct (pt j); cbn in FR, TT2; try discriminate; injection TT2 as <-; cbn in I2; clear - I2; intuition auto. }
    assert (L4 : j + 3 + 1 < n) by (apply next_lt; [lia|rewrite S3; discriminate]).
    assert (P3 : pa (j + 3) = Common).
    { apply leaf_common; [lia|replace (j + 3 - 1) with (j + 2) by lia; exact P2|rewrite S3; cbn; auto]. }
    destruct (nonstart_step (j + 3)) as (T3 & _); [lia|rewrite S3; discriminate|]. replace (j + 3 - 1) with (j + 2) in T3 by lia.
    rewrite T2 in T3.
    split; [lia|].
    assert (Db : exists b2 b3, leaf_dir (pt j) AccountLeaf2 = Some b2 /\ leaf_dir (pt j) AccountLeaf3 = Some b3)
      by (destruct (pt j); try discriminate FR; cbn; eauto).
    destruct Db as (b2 & b3 & Db2 & Db3). exists b2, b3. rewrite Db2, Db3.
    repeat split; auto; try (apply Gd; destruct (pt j); try discriminate FR; reflexivity).
    all: assert (E2 : adv MU_direction (j + 2) = fb b2) by (apply r_dir; [lia|rewrite S2, T2; exact Db2]).
    all: assert (E3 : adv MU_direction (j + 3) = fb b3) by (apply r_dir; [lia|rewrite S3, T3; exact Db3]).
    all: destruct (common_single (j + 2) AccountFields) as [X2 Y2]; [lia|lia|exact P2|rewrite S2; reflexivity|eauto|left; reflexivity|].
    all: destruct (common_single (j + 3) AccountFields) as [X3 Y3]; [lia|lia|exact P3|rewrite S3; reflexivity|eauto|left; reflexivity|].
    - apply oldP_side; assumption.
    - apply newP_side; assumption.
    - apply oldP_side; assumption.
    - apply newP_side; assumption.
  Qed.
End Account.
