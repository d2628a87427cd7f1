(* The account-level difference between the old and the new trie of one update. *)
From Coq Require Import ZArith String List Bool Lia.
From Verif Require Import Pocklington Fr Query Builder BuilderProofs Gadgets MptUpdate Bytes GadgetProofs LagrangeProofs Fixed CanonProofs UpdateRows TrieSpec UpdateWalk UpdateAccount UpdateSound UpdateClaims UpdateStorage TableSpec ChangeSpec TwoTries.
Import ListNotations.
Open Scope Z_scope.

(** * Values are determined by their hashes *)
Section Inj.
  Variable H : Fr -> Fr -> Fr -> Fr.
  Variable S : triple -> Prop.
  Hypothesis CF : collision_free H S.
  Lemma inj3 l r d l' r' d' : S (l, r, d) -> S (l', r', d') -> H l r d = H l' r' d' -> l = l' /\ r = r' /\ d = d'.
  Proof. intros A B E. apply (tri l r d l' r' d'). apply CF; assumption. Qed.
  Lemma halves w w' : word_ok w -> word_ok w' -> fz (w / 2 ^ 128) = fz (w' / 2 ^ 128) -> fz (w mod 2 ^ 128) = fz (w' mod 2 ^ 128) -> w = w'.
  Proof.
    intros A B Y1 Y2. unfold word_ok in *. change (2 ^ 256) with (2 ^ 128 * 2 ^ 128) in *.
    pose proof (Z.div_mod w (2 ^ 128) ltac:(lia)). pose proof (Z.div_mod w' (2 ^ 128) ltac:(lia)).
    pose proof (Z.mod_pos_bound w (2 ^ 128) ltac:(lia)). pose proof (Z.mod_pos_bound w' (2 ^ 128) ltac:(lia)).
    assert (0 <= w / 2 ^ 128 < 2 ^ 128) by (split; [apply Z.div_pos; lia|apply Z.div_lt_upper_bound; lia]).
    assert (0 <= w' / 2 ^ 128 < 2 ^ 128) by (split; [apply Z.div_pos; lia|apply Z.div_lt_upper_bound; lia]).
    apply fz_inj in Y1; [|apply small_lt_modulus; lia|apply small_lt_modulus; lia].
    apply fz_inj in Y2; [|apply small_lt_modulus; lia|apply small_lt_modulus; lia]. lia.
  Qed.
  Lemma word_inj w w' : word_ok w -> word_ok w' -> (forall x, In x (word_inputs w) -> S x) -> (forall x, In x (word_inputs w') -> S x) ->
    word_hash H w = word_hash H w' -> w = w'.
  Proof.
    intros A B Kw Kw' E. destruct (inj3 _ _ _ _ _ _ (Kw _ (or_introl eq_refl)) (Kw' _ (or_introl eq_refl)) E) as (Y1 & Y2 & _).
    apply halves; assumption.
  Qed.
  Definition kacc (a : account) := forall x, In x (account_inputs H a) -> S x.
  Lemma kacc_sto a : kacc a -> known H S (word_hash H) word_inputs (storage a).
  Proof. intros Ka x Hx. apply Ka. unfold account_inputs. apply in_or_app. right. apply in_or_app. right. exact Hx. Qed.
  Lemma kacc_word a x : kacc a -> In x (word_inputs (keccak_code_hash a)) -> S x.
  Proof. intros Ka Hx. apply Ka. unfold account_inputs. apply in_or_app. right. apply in_or_app. left. exact Hx. Qed.
  Lemma cx_inj a a' : account_ok a -> account_ok a' -> cx a = cx a' -> nonce a = nonce a' /\ code_size a = code_size a'.
  Proof. intros (A1 & A2 & _) (B1 & B2 & _) E. apply pack_inj; assumption. Qed.
  Lemma cy_inj a a' : account_ok a -> account_ok a' -> cy a = cy a' -> balance a = balance a'.
  Proof. intros (_ & _ & A & _) (_ & _ & B & _) E. apply fz_inj; assumption. Qed.
  Lemma ck_inj a a' : account_ok a -> account_ok a' -> kacc a -> kacc a' -> ck H a = ck H a' -> keccak_code_hash a = keccak_code_hash a'.
  Proof.
    intros (_ & _ & _ & A & _) (_ & _ & _ & B & _) Ka Ka' E. apply word_inj; [exact A|exact B| | |exact E]; intros x Hx; [apply (kacc_word a x Ka Hx)|apply (kacc_word a' x Ka' Hx)].
  Qed.
  Lemma cs_inj a a' : account_ok a -> account_ok a' -> kacc a -> kacc a' -> cs H a = cs H a' -> storage a = storage a'.
  Proof.
    intros (_ & _ & _ & _ & A) (_ & _ & _ & _ & B) Ka Ka' E.
    apply (tree_inj H S CF (word_hash H) word_inputs word_ok); auto; try (apply kacc_sto; assumption). intros v v'. apply word_inj.
  Qed.
  Lemma i1 a : kacc a -> S (cx a, cy a, fdom AccountFields). Proof. intros Ka. apply Ka; cbn; auto. Qed.
  Lemma i2 a : kacc a -> S (cs H a, ck H a, fdom AccountFields). Proof. intros Ka. apply Ka; cbn; auto. Qed.
  Lemma i3 a : kacc a -> S (H (cx a) (cy a) (fdom AccountFields), H (cs H a) (ck H a) (fdom AccountFields), fdom AccountFields).
  Proof. intros Ka. apply Ka; cbn; auto. Qed.
  Lemma i4 a : kacc a -> S (H (H (cx a) (cy a) (fdom AccountFields)) (H (cs H a) (ck H a) (fdom AccountFields)) (fdom AccountFields), poseidon_code_hash a, fdom AccountFields).
  Proof. intros Ka. apply Ka; cbn; auto. Qed.
  Lemma account_is a a' : nonce a = nonce a' -> code_size a = code_size a' -> balance a = balance a' -> keccak_code_hash a = keccak_code_hash a' ->
    poseidon_code_hash a = poseidon_code_hash a' -> storage a = storage a' -> a = a'.
  Proof. destruct a, a'; cbn; intros; subst; reflexivity. Qed.
  Lemma account_inj a a' : account_ok a -> account_ok a' -> kacc a -> kacc a' -> account_hash H a = account_hash H a' -> a = a'.
  Proof.
    intros A B Ka Ka' E. destruct (inj3 _ _ _ _ _ _ (i4 a Ka) (i4 a' Ka') E) as (E1 & Ep & _).
    destruct (inj3 _ _ _ _ _ _ (i3 a Ka) (i3 a' Ka') E1) as (E2 & E3 & _).
    destruct (inj3 _ _ _ _ _ _ (i1 a Ka) (i1 a' Ka') E2) as (X & Y & _).
    destruct (inj3 _ _ _ _ _ _ (i2 a Ka) (i2 a' Ka') E3) as (Z & W & _).
    destruct (cx_inj a a' A B X) as [X1 X2].
    apply account_is; auto; [apply cy_inj; assumption|apply ck_inj; assumption|apply cs_inj; assumption].
  Qed.
End Inj.

Section New.
  Variables (H : Fr -> Fr -> Fr -> Fr) (e : env) (n : Z).
  Hypothesis OK : circuit_ok H e n.
  Let F : fixed_ok e n := co_fixed H e n OK.
  Let HD := HD H e n OK.
  Let HL := HL H e n OK.
  Let Hn := fo_rows e n F.
  Let Hu := fo_usable e n F.
  Let Hs := fo_small e n F.
  Let HP := co_poseidon H e n OK.
  Notation adv := (adv e). Notation sg := (sg e). Notation pa := (pa e). Notation pt := (pt e).
  Notation PH := (PH e). Notation oldP := (oldP e). Notation newP := (newP e).

  (** ** rows below an ExtensionNew row *)
  Lemma ext_new_next i : 2 <= i -> i + 1 < n -> pa i = ExtensionNew -> sg (i + 1) <> SegStart -> pa (i + 1) = ExtensionNew.
  Proof.
    intros Hi Hi' Hp Ns. pose proof (r_path_trans H e n F HD i ltac:(lia) Hi') as T. rewrite Hp in T. cbn in T.
    destruct T as [T|[T|[]]]; [auto|]. exfalso. apply Ns. apply (sg_start H e n F HD); [lia|auto].
  Qed.
  (* a row whose segment has only one domain *)
  Lemma single_dom i d : 1 <= i < n -> seg_domains (sg i) = [d] -> adv MU_domain i = fdom d.
  Proof. intros Hi E. destruct (r_domain H e n F HD i Hi) as (d' & A & B). rewrite E in A. cbn in A. destruct A as [<-|[]]. exact B. Qed.
  Definition newS (i : Z) (b : bool) (d : HashDomain) := sideP e i b (adv MU_new_hash i) (adv MU_new_hash (i - 1)) d.
  Lemma ext_side i b d : 2 <= i -> i + 1 < n -> pa i = ExtensionNew -> seg_domains (sg i) = [d] -> leaf_dir (pt i) (sg i) = Some b -> newS i b d.
  Proof.
    intros Hi Hi' Hp Sd Ld. destruct (r_ext_new H e n F HD i Hi Hi' Hp) as (_ & _ & _ & N & _).
    rewrite (single_dom i d ltac:(lia) Sd) in N. apply newP_side; [|exact N]. apply (r_dir H e n F HD); [lia|exact Ld].
  Qed.
  (* the account leaf rows j, j+1, .. on either path, new side *)
  Lemma leaf_rows_new j : 2 <= j < n -> sg j = AccountLeaf0 -> (pa j = Common \/ pa j = ExtensionNew) ->
    newS j true DLeaf /\
    (pt j = PoseidonCodeHashExists /\ pa j = Common /\ newS (j + 1) true AccountFields /\ sg (j + 1) = AccountLeaf1 /\ pt (j + 1) = pt j /\ j + 2 < n \/
     four_rows (pt j) = true /\ j + 4 < n /\ exists b2 b3,
       sg (j + 1) = AccountLeaf1 /\ sg (j + 2) = AccountLeaf2 /\ sg (j + 3) = AccountLeaf3 /\
       pt (j + 1) = pt j /\ pt (j + 2) = pt j /\ pt (j + 3) = pt j /\
       pa (j + 1) = pa j /\ pa (j + 2) = pa j /\ pa (j + 3) = pa j /\
       leaf_dir (pt j) AccountLeaf2 = Some b2 /\ leaf_dir (pt j) AccountLeaf3 = Some b3 /\
       newS (j + 1) false AccountFields /\ newS (j + 2) b2 AccountFields /\ newS (j + 3) b3 AccountFields).
  Proof.
    intros Hj S0 [P0|P0].
    - destruct (leaf_rows H e n F HD HL j Hj S0 P0) as (L2 & [_ B0] & S1 & P1 & T1 & Alt). split; [exact B0|].
      destruct Alt as [(Tp & [_ B1])|(Fr4 & L4 & b2 & b3 & S2 & S3 & P3 & T3 & D2 & D3 & [_ B1] & [_ B2] & [_ B3])]; [left; auto 8|].
      right. split; [exact Fr4|]. split; [exact L4|]. exists b2, b3.
      assert (T2 : pt (j + 2) = pt j).
      { destruct (nonstart_step H e n F HD (j + 2) ltac:(lia)) as (X & _); [rewrite S2; discriminate|].
        replace (j + 2 - 1) with (j + 1) in X by lia. congruence. }
      assert (P2 : pa (j + 2) = Common).
      { apply (leaf_common H e n F HD HL); [lia|replace (j + 2 - 1) with (j + 1) by lia; exact P1|rewrite S2; cbn; auto]. }
      rewrite P0. exact (conj S1 (conj S2 (conj S3 (conj T1 (conj T2 (conj T3 (conj P1 (conj P2 (conj P3 (conj D2 (conj D3 (conj B1 (conj B2 B3))))))))))))).
    - assert (L1 : j + 1 < n) by (apply (next_lt e n HL); [lia|rewrite S0; discriminate]).
      destruct (r_ext_new H e n F HD j ltac:(lia) L1 P0) as (Tj & _).
      assert (Tc : pt j = NonceChanged \/ pt j = BalanceChanged \/ pt j = StorageChanged) by (clear - Tj; cbn in Tj; intuition congruence).
      assert (Fr4 : four_rows (pt j) = true) by (destruct Tc as [T|[T|T]]; rewrite T; reflexivity).
      assert (St : forall i s s', j <= i -> i + 1 < n -> pa i = ExtensionNew -> sg i = s -> pt i = pt j -> seg_transitions (pt j) s = Some [s'] -> s' <> SegStart ->
        sg (i + 1) = s' /\ pa (i + 1) = ExtensionNew /\ pt (i + 1) = pt j /\ i + 2 < n).
      { intros i s s' H1 H2 Pi Si Ti Tr Ns. destruct (r_seg_trans H e n F HD i ltac:(lia) H2) as (l & TS & I). rewrite Si, Ti, Tr in TS. injection TS as <-.
        destruct I as [I|[]]. rewrite I in Ns. rewrite I.
        destruct (nonstart_step H e n F HD (i + 1) ltac:(lia) Ns) as (X & _). replace (i + 1 - 1) with i in X by lia.
        split; [reflexivity|]. split; [apply ext_new_next; [lia|lia|exact Pi|exact Ns]|]. split; [congruence|].
        replace (i + 2) with (i + 1 + 1) by lia. apply (next_lt e n HL); [lia|exact Ns]. }
      assert (TT : seg_transitions (pt j) AccountLeaf0 = Some [AccountLeaf1] /\ seg_transitions (pt j) AccountLeaf1 = Some [AccountLeaf2] /\ seg_transitions (pt j) AccountLeaf2 = Some [AccountLeaf3])
        by (destruct Tc as [T|[T|T]]; rewrite T; repeat split; reflexivity).
      destruct TT as (TT0 & TT1 & TT2).
      destruct (St j AccountLeaf0 AccountLeaf1) as (S1 & P1 & T1 & L2); auto; try lia; try discriminate.
      destruct (St (j + 1) AccountLeaf1 AccountLeaf2) as (S2 & P2 & T2 & L3); auto; try lia; try discriminate.
      replace (j + 1 + 1) with (j + 2) in * by lia. replace (j + 1 + 2) with (j + 3) in * by lia.
      destruct (St (j + 2) AccountLeaf2 AccountLeaf3) as (S3 & P3 & T3 & L4); auto; try lia; try discriminate.
      replace (j + 2 + 1) with (j + 3) in * by lia. replace (j + 2 + 2) with (j + 4) in * by lia.
      assert (Db : exists b2 b3, leaf_dir (pt j) AccountLeaf2 = Some b2 /\ leaf_dir (pt j) AccountLeaf3 = Some b3)
        by (destruct Tc as [T|[T|T]]; rewrite T; cbn; eauto).
      destruct Db as (b2 & b3 & D2 & D3).
      assert (N0 : newS j true DLeaf).
      { apply ext_side; [lia|lia|exact P0|rewrite S0; reflexivity|rewrite S0; destruct Tc as [T|[T|T]]; rewrite T; reflexivity]. }
      assert (N1 : newS (j + 1) false AccountFields).
      { apply ext_side; [lia|lia|exact P1|rewrite S1; reflexivity|rewrite S1, T1; destruct Tc as [T|[T|T]]; rewrite T; reflexivity]. }
      assert (N2 : newS (j + 2) b2 AccountFields).
      { apply ext_side; [lia|lia|exact P2|rewrite S2; reflexivity|rewrite S2, T2; exact D2]. }
      assert (N3 : newS (j + 3) b3 AccountFields).
      { apply ext_side; [lia|lia|exact P3|rewrite S3; reflexivity|rewrite S3, T3; exact D3]. }
      split; [exact N0|]. right. split; [exact Fr4|]. split; [exact L4|]. exists b2, b3. rewrite P0.
      exact (conj S1 (conj S2 (conj S3 (conj T1 (conj T2 (conj T3 (conj P1 (conj P2 (conj P3 (conj D2 (conj D3 (conj N1 (conj N2 N3))))))))))))).
  Qed.

  (** ** the extension rows of the account trie *)
  Definition ext_run (tr : SegmentType) (i : Z) (m : nat) := forall k, (1 <= k <= m)%nat -> sg (i + Z.of_nat k) = tr /\ pa (i + Z.of_nat k) = ExtensionNew.
  Lemma ext_run_max tr i : tr <> SegStart -> 1 <= i -> i + 1 < n ->
    exists m, ext_run tr i m /\ i + Z.of_nat m + 1 < n /\ ~ (sg (i + Z.of_nat m + 1) = tr /\ pa (i + Z.of_nat m + 1) = ExtensionNew).
  Proof.
    intros Nt Hi Hi'.
    assert (G : forall f m, i + Z.of_nat m + 1 + Z.of_nat f >= n -> ext_run tr i m -> i + Z.of_nat m + 1 < n ->
      exists m, ext_run tr i m /\ i + Z.of_nat m + 1 < n /\ ~ (sg (i + Z.of_nat m + 1) = tr /\ pa (i + Z.of_nat m + 1) = ExtensionNew)).
    { induction f as [|f IH]; intros m Hm Hr Hlt; [lia|].
      assert (Dec : (sg (i + Z.of_nat m + 1) = tr /\ pa (i + Z.of_nat m + 1) = ExtensionNew) \/ ~ (sg (i + Z.of_nat m + 1) = tr /\ pa (i + Z.of_nat m + 1) = ExtensionNew)).
      { destruct (pa (i + Z.of_nat m + 1)); try (right; intros [_ X]; discriminate X).
        destruct tr, (sg (i + Z.of_nat m + 1)); (left; split; reflexivity) || (right; intros [X _]; discriminate X). }
      destruct Dec as [[E1 E2]|Nd]; [|exists m; auto].
      apply (IH (Datatypes.S m)).
      - lia.
      - intros k Hk. destruct (Nat.eq_dec k (Datatypes.S m)) as [->|Ne]; [|apply Hr; lia].
        replace (i + Z.of_nat (Datatypes.S m)) with (i + Z.of_nat m + 1) by lia. auto.
      - replace (i + Z.of_nat (Datatypes.S m) + 1) with ((i + Z.of_nat m + 1) + 1) by lia. apply (next_lt e n HL); [lia|congruence]. }
    apply (G (Z.to_nat n) 0%nat); [lia| |lia]. intros k Hk. lia.
  Qed.
  Lemma ext_old_const tr i m : 1 <= i -> tr <> SegStart -> ext_run tr i m -> i + Z.of_nat m + 1 < n -> forall k, (k <= m)%nat ->
    adv MU_old_hash (i + Z.of_nat k) = adv MU_old_hash i.
  Proof.
    intros Hi Nt Hr Hm. induction k as [|k IH]; intros Hk; [rewrite Z.add_0_r; reflexivity|].
    destruct (Hr (Datatypes.S k) ltac:(lia)) as [Sk Pk].
    destruct (r_ext_new H e n F HD (i + Z.of_nat (Datatypes.S k))) as (_ & _ & E & _); [lia|lia|exact Pk|].
    rewrite E. replace (i + Z.of_nat (Datatypes.S k) - 1) with (i + Z.of_nat k) by lia. apply IH. lia.
  Qed.
  (* hypotheses of chain_one for the new side *)
  Lemma ext_rows tr i0 d m : 1 <= i0 -> is_trie_seg tr = true -> in_trie e tr i0 (d + m) -> ext_run tr (i0 + Z.of_nat d) m ->
    i0 + Z.of_nat (d + m) + 1 < n -> is_trie_seg (sg (i0 + Z.of_nat (d + m) + 1)) = false ->
    forall k, (1 <= k <= m)%nat -> (exists dm, In dm branches /\ side e (adv MU_new_hash) (i0 + Z.of_nat (d + k)) dm) /\
       adv MU_sibling (i0 + Z.of_nat (d + k)) = if (k =? m)%nat then adv MU_old_hash (i0 + Z.of_nat d) else f0.
  Proof.
    intros Hi Tr It Hr Hm Hx k Hk.
    assert (Nt : tr <> SegStart) by (intros ->; discriminate Tr).
    destruct (trie_dom H e n F HD tr i0 Tr Hi _ It ltac:(lia) (d + k)%nat ltac:(lia)) as (dm & Dm & Edm).
    destruct (Hr k Hk) as [Sk Pk]. replace (i0 + Z.of_nat d + Z.of_nat k) with (i0 + Z.of_nat (d + k)) in * by lia.
    destruct (r_ext_new H e n F HD (i0 + Z.of_nat (d + k))) as (_ & _ & _ & N & _ & Sb & _); [lia|lia|exact Pk|].
    rewrite Edm in N. split; [exists dm; split; [exact Dm|exact N]|].
    rewrite Sb by (rewrite Sk; exact Tr). clear Sb.
    destruct (Nat.eqb_spec k m) as [->|Ne].
    - rewrite Hx. replace (i0 + Z.of_nat (d + m)) with (i0 + Z.of_nat d + Z.of_nat m) by lia. apply (ext_old_const tr _ m); auto; lia.
    - destruct (Hr (Datatypes.S k) ltac:(lia)) as [S1 _]. replace (i0 + Z.of_nat (d + k) + 1) with (i0 + Z.of_nat d + Z.of_nat (Datatypes.S k)) by lia.
      rewrite S1, Tr. reflexivity.
  Qed.
End New.
