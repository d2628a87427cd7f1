(* How the new state trie of an update differs from the old one. *)
From Coq Require Import ZArith String List Bool Lia.
From Verif Require Import Pocklington Fr Query Builder BuilderProofs Gadgets MptUpdate Bytes GadgetProofs LagrangeProofs Fixed CanonProofs UpdateRows TrieSpec UpdateWalk UpdateAccount UpdateSound UpdateClaims UpdateStorage ChangeSpec TwoTries NewSide.
Import ListNotations.
Open Scope Z_scope.

(* the hash inputs of both tries, of the circuit's Poseidon table and of an empty account *)
Definition inputs2 (H : Fr -> Fr -> Fr -> Fr) (e : env) (t t' : tree account) (x : triple) : Prop :=
  inputs H e t x \/ In x (state_inputs H t') \/ In x (account_inputs H new_account).

Lemma zero_account_ok : account_ok new_account.
Proof.
  unfold account_ok, new_account, word_ok. cbn [nonce code_size balance keccak_code_hash storage tree_all].
  pose proof (small_lt_modulus 0). split; [lia|]. split; [lia|]. split; [apply H; lia|]. split; [lia|exact Logic.I].
Qed.

Section Account.
  Variables (H : Fr -> Fr -> Fr -> Fr) (e : env) (n : Z).
  Hypothesis OK : circuit_ok H e n.
  Let F : fixed_ok e n := co_fixed H e n OK.
  Let HD := HD H e n OK.
  Let HL := HL H e n OK.
  Let Hn := fo_rows e n F.
  Let Hu := fo_usable e n F.
  Let HP := co_poseidon H e n OK.
  Notation adv := (adv e). Notation sg := (sg e). Notation pa := (pa e). Notation pt := (pt e).
  Notation newS := (newS e).

  Variables (t t' : tree account) (i : Z).
  Hypothesis Hi : 1 <= i /\ i + 1 < n.
  Hypothesis Hst : sg i = SegStart.
  Hypothesis Hroot : state_root H t = adv MU_old_hash i.
  Hypothesis Hroot' : state_root H t' = adv MU_new_hash i.
  Hypothesis Hbits : bits_ok n (height t).
  Hypothesis Hbits' : bits_ok n (height t').
  Hypothesis Hacc : tree_all account_ok t.
  Hypothesis Hacc' : tree_all account_ok t'.
  Notation S := (inputs2 H e t t').
  Hypothesis CF : collision_free H S.
  Let K := adv MU_key i.
  Notation known := (known H S (account_hash H) (account_inputs H)).
  Notation th := (thash H (account_hash H)).
  Notation kacc := (kacc H S).

  Lemma HT2 l r d h : poseidon_hit e l r d h -> S (l, r, d).
  Proof. intros X. left. left. exists h. exact X. Qed.
  Lemma known2 : known t /\ known t'.
  Proof. split; intros x Hx; [left; right; exact Hx|right; left; exact Hx]. Qed.
  Lemma knew : kacc new_account. Proof. intros x Hx. right; right. exact Hx. Qed.
  Lemma ainj a a' : account_ok a -> account_ok a' -> kacc a -> kacc a' -> account_hash H a = account_hash H a' -> a = a'.
  Proof. apply account_inj. exact CF. Qed.

  (* a row of the update, with the values of its start row *)
  Definition of_update (j : Z) := i < j < n /\ pt j = pt i /\ adv MU_old_value j = adv MU_old_value i /\ adv MU_new_value j = adv MU_new_value i /\
    adv MU_storage_key_rlc j = adv MU_storage_key_rlc i.
  Inductive account_diff (d : nat) (u u' : tree account) : Prop :=
  | AD_same : u' = u -> get u d K = None -> adv MU_old_value i = f0 -> adv MU_new_value i = f0 -> account_diff d u u'
  | AD_leaf : forall j k a a', of_update j -> sg j = AccountLeaf0 -> pa j = Common -> u = Leaf k a -> u' = Leaf k a' ->
      kacc a -> kacc a' -> account_ok a -> account_ok a' -> account_hash H a = adv MU_old_hash j -> account_hash H a' = adv MU_new_hash j -> account_diff d u u'
  | AD_padded : forall m, single u -> get u d K = None -> adv MU_old_value i = f0 -> adv MU_new_value i = f0 ->
      (pt i = NonceChanged \/ pt i = BalanceChanged) -> u' = chain K d (Datatypes.S m) u u -> account_diff d u u'
  | AD_created : forall m j k a', single u -> get u d K = None -> adv MU_old_value i = f0 -> (m = O -> d = O \/ u = Empty) ->
      of_update j -> sg j = AccountLeaf0 -> pa j = ExtensionNew -> u' = chain K d m u (Leaf k a') ->
      kacc a' -> account_ok a' -> account_hash H a' = adv MU_new_hash j -> account_diff d u u'.

  Lemma nonex_single u v key o data : known u -> nonex e v (th u) key o data -> single u.
  Proof.
    intros Ku [_ [[A B]|(A & B & C)]].
    - rewrite (zero_step H S CF (account_hash H) (account_inputs H) u Ku B). exact Logic.I.
    - destruct (leaf_step H e HP S CF HT2 (account_hash H) (account_inputs H) u _ _ _ Ku eq_refl C) as (w & -> & _). exact Logic.I.
  Qed.

  Theorem account_two : exists d u u', sub t K 0 d = Some u /\ sub t' K 0 d = Some u' /\ t' = repl t K 0 d u' /\ account_diff d u u'.
  Proof.
    destruct (has_shape H e n OK i (proj1 Hi) (proj2 Hi) Hst) as (d & Sh). destruct Sh as [R Lt En Tj Oj Nj Kj].
    destruct known2 as [Kt Kt'].
    assert (Hd0 : is_trie_seg (sg i) = false) by (rewrite Hst; reflexivity).
    destruct (common_two H e n F HD (DCR H e n OK) (DKB H e n OK) HP S CF HT2 (account_hash H) (account_inputs H) account_ok ainj
      AccountTrie i K eq_refl ltac:(lia) Hd0 eq_refl t t' Hbits Hbits' Kt Kt' Hacc Hacc' Hroot Hroot' d) as (u & u' & A & A' & Ku & Ku' & Pu & Pu' & Eu & Eu' & Rep).
    { intros k Hk. apply R. exact Hk. } { intros k Hk. apply R. exact Hk. } { exact Lt. }
    exists d, u, u'. split; [exact A|]. split; [exact A'|]. split; [exact Rep|].
    assert (Kj' : adv MU_key (i + Z.of_nat d) = K).
    { apply (trie_key H e n F HD AccountTrie i K eq_refl ltac:(lia) eq_refl d); [intros k Hk; apply R; exact Hk|lia]. }
    set (j := i + Z.of_nat d) in *.
    assert (Hj : i <= j < n) by (unfold j; lia).
    assert (Next : sg (j + 1) <> SegStart -> of_update (j + 1)).
    { intros Ns. destruct (nonstart_step H e n F HD (j + 1) ltac:(lia) Ns) as (X & Y & Z & W).
      replace (j + 1 - 1) with j in * by lia. repeat split; try lia; congruence. }
    destruct En as [E0|S0 P0|S0 P0].
    - assert (Sj : sg j = SegStart \/ sg j = AccountTrie).
      { unfold j. destruct d as [|d']; [left; rewrite Z.add_0_r; exact Hst|right; apply R; lia]. }
      assert (Hp : has_empty_part (pt j) = true).
      { rewrite Tj. destruct (r_seg_trans H e n F HD j ltac:(lia) Lt) as (l & TS & I). rewrite Tj, E0 in *.
        destruct (pt i); try reflexivity; destruct Sj as [Sj|Sj]; rewrite Sj in TS; cbn in TS; try discriminate TS; injection TS as <-; cbn in I; intuition discriminate. }
      destruct (r_empty H e n F HD j ltac:(lia) Lt Hp Sj E0) as (X & Y & Z & data & N).
      apply AD_same; [| |congruence|congruence].
      + apply (tree_inj H S CF (account_hash H) (account_inputs H) account_ok ainj); auto. congruence.
      + rewrite Kj', <- Eu in N. apply (nonex_get H e HP S CF HT2 (account_hash H) (account_inputs H) u _ _ _ _ _ Ku N).
    - destruct (leaf_rows H e n F HD HL (j + 1) ltac:(lia) S0 P0) as (_ & [Bo Bn] & _).
      unfold sideP in Bo, Bn. replace (j + 1 - 1) with j in * by lia.
      destruct (leaf_step H e HP S CF HT2 (account_hash H) (account_inputs H) u _ _ _ Ku Eu Bo) as (a & -> & Ha).
      destruct (leaf_step H e HP S CF HT2 (account_hash H) (account_inputs H) u' _ _ _ Ku' Eu' Bn) as (a' & -> & Ha').
      apply (AD_leaf d _ _ (j + 1) (adv MU_sibling (j + 1)) a a'); auto.
      + apply Next. rewrite S0. discriminate.
      + intros x Hx. apply Ku. cbn. right. exact Hx.
      + intros x Hx. apply Ku'. cbn. right. exact Hx.
    - assert (Ns : sg (j + 1) <> SegStart) by (destruct S0 as [X|X]; rewrite X; discriminate).
      destruct (ext_new_nonex H e n F HD HL (Z.to_nat n) (j + 1)) as (o & data & N & Z0); [lia|lia|exact P0|exact S0|].
      replace (j + 1 - 1) with j in N by lia. rewrite Kj', <- Eu in N.
      assert (Su : single u) by (apply (nonex_single u _ _ _ _ Ku N)).
      assert (Gu : get u d K = None) by (apply (nonex_get H e HP S CF HT2 (account_hash H) (account_inputs H) u _ _ _ _ _ Ku N)).
      destruct (Next Ns) as (_ & Tn & On & Nn & _).
      assert (V0 : adv MU_old_value i = f0) by congruence.
      destruct (ext_run_max H e n OK AccountTrie j ltac:(discriminate) ltac:(lia) ltac:(lia)) as (m & Rm & Lm & Cm).
      assert (It : in_trie e AccountTrie i (d + m)).
      { intros k Hk. destruct (le_lt_dec k d) as [L|L]; [apply R; lia|].
        destruct (Rm (k - d)%nat ltac:(lia)) as [X _]. unfold j in X. replace (i + Z.of_nat d + Z.of_nat (k - d)) with (i + Z.of_nat k) in X by lia. exact X. }
      assert (Ej : j + Z.of_nat m = i + Z.of_nat (d + m)) by (unfold j; lia).
      assert (Tk : forall k, (k <= m)%nat -> pt (j + Z.of_nat k) = pt i /\ adv MU_old_value (j + Z.of_nat k) = adv MU_old_value i /\ adv MU_new_value (j + Z.of_nat k) = adv MU_new_value i /\
        adv MU_storage_key_rlc (j + Z.of_nat k) = adv MU_storage_key_rlc i).
      { intros k Hk. destruct (pt_const H e n F HD j k ltac:(lia) ltac:(lia)) as (B1 & B2 & B3 & B4); [|rewrite B1, B2, B3, B4; auto].
        intros x Hx. destruct (Rm x ltac:(lia)) as [X _]. rewrite X. discriminate. }
      (* what follows the extension rows *)
      assert (Nx : (sg (j + Z.of_nat m + 1) = AccountLeaf0 /\ pa (j + Z.of_nat m + 1) = ExtensionNew) \/ (sg (j + Z.of_nat m + 1) = SegStart /\ (0 < m)%nat)).
      { destruct m as [|m'].
        - left. rewrite Z.add_0_r in *. destruct S0 as [X|X]; [exfalso; apply Cm; auto|auto].
        - destruct (Rm (Datatypes.S m') ltac:(lia)) as [Sm Pm].
          assert (Dc : sg (j + Z.of_nat (Datatypes.S m') + 1) = SegStart \/ sg (j + Z.of_nat (Datatypes.S m') + 1) <> SegStart)
            by (destruct (sg (j + Z.of_nat (Datatypes.S m') + 1)); (left; reflexivity) || (right; discriminate)).
          destruct Dc as [Dc|Dc]; [right; split; [exact Dc|lia]|]. left.
          assert (Px : pa (j + Z.of_nat (Datatypes.S m') + 1) = ExtensionNew) by (apply (ext_new_next H e n OK); [lia|exact Lm|exact Pm|exact Dc]).
          split; [|exact Px].
          destruct (r_ext_new H e n F HD (j + Z.of_nat (Datatypes.S m'))) as (Tc & _); [lia|lia|exact Pm|].
          destruct (r_seg_trans H e n F HD (j + Z.of_nat (Datatypes.S m')) ltac:(lia) Lm) as (l & TS & I). rewrite Sm in TS.
          assert (X : sg (j + Z.of_nat (Datatypes.S m') + 1) <> AccountTrie) by (intros X; apply Cm; auto).
          clear - Tc TS I X Dc. destruct Tc as [Tc|[Tc|[Tc|[]]]]; rewrite <- Tc in TS; cbn in TS; injection TS as <-; cbn [In] in I; intuition congruence. }
      assert (Ntr : is_trie_seg (sg (i + Z.of_nat (d + m) + 1)) = false) by (rewrite <- Ej; destruct Nx as [[X _]|[X _]]; rewrite X; reflexivity).
      destruct (chain_one H e n F HD (DCR H e n OK) (DKB H e n OK) HP S CF HT2 (account_hash H) (account_inputs H) account_ok ainj
        AccountTrie i K eq_refl ltac:(lia) Hd0 eq_refl (adv MU_new_hash) t' u Hbits' Pu Ku m d u' It ltac:(lia) A' Ku' Pu' Eu') as (v & _ & Kv & Pv & Ev & Ch).
      { intros k Hk. rewrite Eu. apply (ext_rows H e n OK AccountTrie i d m ltac:(lia) eq_refl It Rm ltac:(lia) Ntr k Hk). }
      rewrite <- Ej in Ev.
      destruct Nx as [[Sx Px]|[Sx Mx]].
      + set (q := j + Z.of_nat m + 1) in *.
        destruct (leaf_rows_new H e n OK q ltac:(lia) Sx (or_intror Px)) as (N0 & _). unfold NewSide.newS, sideP in N0.
        replace (q - 1) with (j + Z.of_nat m) in N0 by lia.
        destruct (leaf_step H e HP S CF HT2 (account_hash H) (account_inputs H) v _ _ _ Kv Ev N0) as (a' & -> & Ha').
        destruct (nonstart_step H e n F HD q ltac:(lia)) as (B1 & B2 & B3 & B4); [rewrite Sx; discriminate|].
        replace (q - 1) with (j + Z.of_nat m) in * by lia. destruct (Tk m ltac:(lia)) as (C1 & C2 & C3 & C4).
        apply (AD_created d u u' m q (adv MU_sibling q) a'); auto.
        * intros ->. destruct d as [|d']; [left; reflexivity|right]. destruct (R (Datatypes.S d') ltac:(lia)) as [_ Pd]. fold j in Pd.
          pose proof (r_common H e n F HD j ltac:(lia) Lt Pd) as Cf. unfold common_facts in Cf. rewrite P0 in Cf.
          unfold q in Sx. rewrite Z.add_0_r in Sx. rewrite Sx in Cf. cbn [is_leaf0] in Cf. destruct Cf as (_ & _ & Cf & _).
          apply (zero_step H S CF (account_hash H) (account_inputs H) u Ku). congruence.
        * repeat split; try lia; congruence.
        * intros x Hx. apply Kv. cbn. right. exact Hx.
      + destruct (Rm m ltac:(lia)) as [Sm Pm].
        destruct (r_ext_new H e n F HD (j + Z.of_nat m)) as (Tc & _); [lia|lia|exact Pm|].
        destruct (Tk m ltac:(lia)) as (C1 & C2 & C3 & C4). rewrite C1 in Tc.
        assert (Tc' : pt i = NonceChanged \/ pt i = BalanceChanged).
        { destruct (r_seg_trans H e n F HD (j + Z.of_nat m) ltac:(lia) Lm) as (l & TS & I). rewrite Sm, C1, Sx in *. clear - Tc TS I.
          destruct Tc as [Tc|[Tc|[Tc|[]]]]; rewrite <- Tc in *; auto. cbn in TS. injection TS as <-. cbn in I. intuition discriminate. }
        destruct (r_empty H e n F HD (j + Z.of_nat m) ltac:(lia) Lm ltac:(rewrite C1; destruct Tc' as [X|X]; rewrite X; reflexivity) (or_intror Sm) Sx) as (X & Y & Z & _).
        assert (Evu : v = u).
        { apply (tree_inj H S CF (account_hash H) (account_inputs H) account_ok ainj); auto. rewrite Ev, <- X, Eu.
          apply (ext_old_const H e n OK AccountTrie j m ltac:(lia) ltac:(discriminate) Rm Lm m ltac:(lia)). }
        destruct m as [|m']; [lia|]. apply (AD_padded d u u' m'); auto; congruence.
  Qed.
End Account.
