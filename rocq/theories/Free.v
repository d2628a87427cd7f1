(* Claims of an accepted table that can be replaced by other claims: the new value of an insertion, the old value of a
   deletion, and the address of an update of an existing account. *)
From Coq Require Import ZArith String List Bool Lia.
From Verif Require Import Pocklington Fr Query Builder BuilderProofs Gadgets MptUpdate Bytes GadgetProofs Fixed CanonProofs UpdateRows TrieSpec TableSpec UpdateWalk UpdateAccount UpdateSound UpdateClaims UpdateStorage Assign MptAssign GadgetMain GadgetMain2 CircuitOk UpdateProps Splice SpliceCase Edit Freedom Address.
Import ListNotations.
Open Scope Z_scope.

Definition with_new_value (x : Fr) (s : statement) : statement :=
  Statement (st_address s) (st_slot_rlc s) (st_kind s) (st_new_root s) (st_old_root s) x (st_old_value s).
Definition with_old_value (x : Fr) (s : statement) : statement :=
  Statement (st_address s) (st_slot_rlc s) (st_kind s) (st_new_root s) (st_old_root s) (st_new_value s) x.
Definition with_address (address : Z) (s : statement) : statement :=
  Statement address (st_slot_rlc s) (st_kind s) (st_new_root s) (st_old_root s) (st_new_value s) (st_old_value s).
(* e' is accepted as well, with the same hashes in its Poseidon table; it claims s' where e claims s, and otherwise what e claims *)
Definition also_accepted (H : Fr -> Fr -> Fr -> Fr) (e : env) (n : Z) (s s' : statement) (e' : env) : Prop :=
  circuit_ok H e' n /\ echal e' = echal e /\ (forall root t, trie_of H e n root t -> trie_of H e' n root t) /\
  exposes e' (encode (echal e) s') /\ forall row, exposes e row -> row <> encode (echal e) s -> exposes e' row.

Lemma hits_kept e e2 i m : same_except e e2 i m -> forall l r d h, poseidon_hit e2 l r d h <-> poseidon_hit e l r d h.
Proof.
  intros (EN & EU & EC & EF & EA) l r d h. unfold poseidon_hit. rewrite EU.
  split; intros (t & Ht & A); exists t; (split; [exact Ht|]); revert A; rewrite EF, !EA by (left; reflexivity); auto.
Qed.
Lemma carried H e e2 n i m : same_except e e2 i m -> circuit_ok H e n -> fixed_ok e2 n -> sat e2 (circuit_of (circuit H)) ->
  circuit_ok H e2 n /\ forall root t, trie_of H e n root t -> trie_of H e2 n root t.
Proof.
  intros SE OK F S. split.
  - split; [exact F|exact S| |].
    + intros l r d h X. apply (co_poseidon H e n OK). apply (hits_kept e e2 i m SE). exact X.
    + destruct SE as (_ & _ & _ & _ & EA). rewrite EA by (left; reflexivity). exact (co_anchor H e n OK).
  - intros root t (A & B & C & D & [X Y]). split; [exact A|]. split; [exact B|]. split; [exact C|]. split; [exact D|].
    assert (I : forall x, inputs H e2 t x -> inputs H e t x).
    { intros x [(h & Q)|Q]; [left; exists h; apply (hits_kept e e2 i m SE); exact Q|right; exact Q]. }
    split; [intros x y Hx Hy; apply X; auto|intros x Hx; apply Y; auto].
Qed.
Lemma kept_entries e e2 n i : fixed_ok e n -> fixed_ok e2 n -> (forall k, 1 <= k < n -> k <> i -> table_row e2 k = table_row e k) ->
  forall row, exposes e row -> row <> table_row e i -> exposes e2 row.
Proof.
  intros F F2 K row (k & En & <-) N. apply (proj1 (fix_enabled e n k F)) in En. exists k. split; [apply (proj2 (fix_enabled e2 n k F2)); exact En|]. apply K; [exact En|]. intros ->. apply N. reflexivity.
Qed.

Lemma found_all {V} (P : V -> Prop) (t : tree V) K : forall d k v, tree_all P t -> reached t d K = Some (k, v) -> P v.
Proof. induction t as [|k' v'|l IHl r IHr]; intros d k v A E; cbn in A, E; [discriminate|congruence|]. destruct (kbit K d); [eapply IHr|eapply IHl]; try exact E; apply A. Qed.

Section Values.
  Variables (H : Fr -> Fr -> Fr -> Fr) (e : env) (n : Z).
  Hypothesis OK : circuit_ok H e n.
  Let F := co_fixed H e n OK.
  Let SAT := co_sat H e n OK.
  Let HD := HD0 H e n F SAT.
  (* one row says it all *)
  Lemma replaced i m c0 q x s : starts_and_ends n (Block e i m) -> (forall k, i < k < i + m -> sg e k <> SegStart) -> row_statement H e i s -> table_row e i = encode (echal e) s ->
    (c0 = MU_new_value /\ q = ExtensionNew \/ c0 = MU_old_value /\ q = ExtensionOld) -> pt e i = StorageChanged -> pa e (i + m - 1) = q ->
    exists e', also_accepted H e n s (match c0 with MU_new_value => with_new_value x s | _ => with_old_value x s end) e'.
  Proof.
    intros B In R E D Ty P. destruct (value_free H e n i m F SAT B In c0 q x D Ty P) as (F2 & S2 & T1 & T2). set (e2 := set_column e c0 i m x) in *.
    assert (SE : same_except e e2 i m) by (apply value_same; destruct D as [[-> _]|[-> _]]; reflexivity).
    destruct (carried H e e2 n i m SE OK F2 S2) as [C1 C2]. exists e2. split; [exact C1|]. split; [reflexivity|]. split; [exact C2|]. split.
    - exists i. split; [apply (proj2 (fix_enabled e2 n i F2)); pose proof (se_row _ _ B); pose proof (se_rows _ _ B); pose proof (se_last _ _ B); cbn [b_row b_rows] in *; lia|].
      rewrite T1, E. destruct D as [[-> _]|[-> _]]; reflexivity.
    - rewrite <- E. apply (kept_entries e e2 n i F F2 T2).
  Qed.
  Lemma block_of i : 1 <= i -> i + 1 < n -> sg e i = SegStart -> exists m, starts_and_ends n (Block e i m) /\ forall k, i < k < i + m -> sg e k <> SegStart.
  Proof.
    intros H1 H2 S. destruct (update_complete H e n F SAT i H1 H2 S) as (m & M1 & M2 & M3 & _ & _ & M4 & _). exists m. split; [constructor; cbn [b_row b_rows b_table]; auto; lia|].
    intros k Hk. replace k with (i + (k - i)) by lia. apply M4. lia.
  Qed.
  Lemma last_path i m q k : starts_and_ends n (Block e i m) -> (forall k, i < k < i + m -> sg e k <> SegStart) -> i < k < n -> (forall x, i < x <= k -> sg e x <> SegStart) ->
    q = ExtensionNew \/ q = ExtensionOld -> pa e k = q -> pa e (i + m - 1) = q.
  Proof.
    intros B In Hk Ns Q P. assert (L : k < i + m) by (destruct (Z_lt_le_dec k (i + m)) as [|L]; [assumption|exfalso; apply (Ns (i + m)); [pose proof (se_rows _ _ B); cbn [b_rows] in *; lia|exact (se_next _ _ B)]]).
    apply (stuck H e n i m F SAT B In q k); [destruct Q as [->| ->]; cbn; auto|lia|exact P|destruct Q as [->| ->]; discriminate].
  Qed.
  Lemma decode_at row p : exposes e row -> nth 2 row f0 = fz (kind_number p) -> p <> NonceChanged -> p <> AccountDoesNotExist \/ row <> final_row ->
    exists i s, 1 <= i /\ i + 1 < n /\ row_statement H e i s /\ table_row e i = row /\ row = encode (echal e) s /\ st_kind s = p.
  Proof.
    intros (i & En & E) K N1 N2. pose proof (proj1 (fix_enabled e n i F) En) as Hi. destruct (UpdateProps.table_rows H e n OK i En) as [X|[(_ & X)|(Lt & s & R & X)]].
    - exfalso. apply N1. symmetry. apply kind_inj. rewrite <- K, <- E, X. reflexivity.
    - exfalso. destruct N2 as [N2|N2]; [|congruence]. apply N2. symmetry. apply kind_inj. rewrite <- K, <- E, X. reflexivity.
    - exists i, s. split; [lia|]. split; [exact Lt|]. split; [exact R|]. split; [exact E|]. rewrite E in X. split; [exact X|]. rewrite X in K. apply kind_inj. exact K.
  Qed.
  Theorem inserted_value_free row : exposes e row -> nth 2 row f0 = fz (kind_number StorageChanged) ->
    exists s, row = encode (echal e) s /\ st_kind s = StorageChanged /\ 0 <= st_address s < 2 ^ 160 /\
    forall t a, trie_of H e n (st_old_root s) t -> get t 0 (addr_key H (st_address s)) = Some a -> tree_all (fun w => word_rlc (echal e) w <> f0) (storage a) ->
    st_old_value s = f0 -> st_new_value s <> f0 -> forall x, exists e', also_accepted H e n s (with_new_value x s) e'.
  Proof.
    intros Ex K. destruct (decode_at row StorageChanged Ex K) as (i & s & I1 & I2 & R & Ei & E & Ks); [discriminate|left; discriminate|].
    exists s. split; [exact E|]. split; [exact Ks|]. split; [exact (rs_address _ _ _ _ R)|]. intros t a (T1 & T2 & T3 & T4 & T5) G Z0 Ov Nv x.
    destruct (block_of i I1 I2 (rs_seg _ _ _ _ R)) as (m & B & In). assert (Ty : pt e i = StorageChanged) by (rewrite <- (rs_kind _ _ _ _ R); exact Ks).
    rewrite (rs_old_root _ _ _ _ R) in T1.
    destruct (storage_claim_path H e n OK t i (conj I1 I2) (rs_seg _ _ _ _ R) T1 T3 T4 T2 T5 Ty) as [(A & _)|(k & b & slot & A & _ & _ & Q)].
    { rewrite (rs_key _ _ _ _ R) in A. congruence. }
    rewrite (rs_key _ _ _ _ R) in A. rewrite (get_reached t _ _ _ G) in A. injection A as <- <-. cbv zeta in Q. destruct Q as (q & Q1 & Q2 & [(P & k' & w & w' & X1 & _ & _ & _ & X & _)|[(P & _)|(_ & X)]]).
    - exfalso. rewrite <- (rs_old _ _ _ _ R), Ov in X. pose proof (found_all (fun w => word_rlc (echal e) w <> f0) (storage a) (slot_key H slot) 0 k' w Z0 X1) as Y. cbn beta in Y. congruence.
    - apply (replaced i m MU_new_value ExtensionNew x s B In R); [congruence|left; auto|exact Ty|]. exact (last_path i m ExtensionNew q B In Q1 Q2 (or_introl eq_refl) P).
    - exfalso. rewrite <- (rs_new _ _ _ _ R) in X. contradiction.
  Qed.
  Theorem deleted_value_free row : exposes e row -> nth 2 row f0 = fz (kind_number StorageChanged) ->
    exists s, row = encode (echal e) s /\ st_kind s = StorageChanged /\ 0 <= st_address s < 2 ^ 160 /\
    forall t a, trie_of H e n (st_old_root s) t -> get t 0 (addr_key H (st_address s)) = Some a ->
    st_old_value s <> f0 -> st_new_value s = f0 ->
    (* the new root does not come from overwriting the slot by another word that also reads as 0 *)
    (forall slot w', word_ok w' -> w' <> 0 -> word_rlc (echal e) w' = f0 ->
       state_root H (modify_reached (set_storage (modify_reached (fun _ => w') (storage a) 0 (slot_key H slot))) t 0 (addr_key H (st_address s))) <> st_new_root s) ->
    forall x, exists e', also_accepted H e n s (with_old_value x s) e'.
  Proof.
    intros Ex K. destruct (decode_at row StorageChanged Ex K) as (i & s & I1 & I2 & R & Ei & E & Ks); [discriminate|left; discriminate|].
    exists s. split; [exact E|]. split; [exact Ks|]. split; [exact (rs_address _ _ _ _ R)|]. intros t a (T1 & T2 & T3 & T4 & T5) G Ov Nv Z0 x.
    destruct (block_of i I1 I2 (rs_seg _ _ _ _ R)) as (m & B & In). assert (Ty : pt e i = StorageChanged) by (rewrite <- (rs_kind _ _ _ _ R); exact Ks).
    rewrite (rs_old_root _ _ _ _ R) in T1.
    destruct (storage_claim_path H e n OK t i (conj I1 I2) (rs_seg _ _ _ _ R) T1 T3 T4 T2 T5 Ty) as [(A & _)|(k & b & slot & A & _ & _ & Q)].
    { rewrite (rs_key _ _ _ _ R) in A. congruence. }
    rewrite (rs_key _ _ _ _ R) in A. rewrite (get_reached t _ _ _ G) in A. injection A as <- <-. cbv zeta in Q. destruct Q as (q & Q1 & Q2 & [(P & k' & w & w' & X1 & _ & X2 & X3 & _ & X4 & X5)|[(_ & _ & X)|(P & _)]]).
    - exfalso. rewrite <- (rs_new _ _ _ _ R), Nv in X4. rewrite (rs_key _ _ _ _ R), <- (rs_new_root _ _ _ _ R) in X5. exact (Z0 slot w' X2 X3 (eq_sym X4) X5).
    - exfalso. rewrite <- (rs_old _ _ _ _ R) in X. contradiction.
    - apply (replaced i m MU_old_value ExtensionOld x s B In R); [congruence|right; auto|exact Ty|]. exact (last_path i m ExtensionOld q B In Q1 Q2 (or_intror eq_refl) P).
  Qed.
End Values.

Lemma hit_accepts e i l table : lookup_hit e i l table -> accepts e table (map (eval e i) l).
Proof.
  intros (t & A & B & M). exists t. split; [split; assumption|]. unfold tuple_match in M. clear A B. induction M as [|x y l r E M IH]; [reflexivity|]. cbn [map]. rewrite E. apply (f_equal (cons _)), IH.
Qed.
Lemma sub_leaf {V} (t : tree V) K : forall d d0 d' u u', (d <= d')%nat -> sub t K d0 d = Some u -> sub t K d0 d' = Some u' -> is_node u = false -> d = d'.
Proof.
  revert K. induction t as [|k v|l IHl r IHr]; intros K d d0 d' u u' L A B N.
  - destruct d; [|discriminate A]. destruct d'; [reflexivity|discriminate B].
  - destruct d; [|discriminate A]. destruct d'; [reflexivity|discriminate B].
  - destruct d; [injection A as <-; discriminate N|]. destruct d'; [lia|]. cbn [sub] in A, B. f_equal. destruct (kbit K d0); [exact (IHr K d (Datatypes.S d0) d' u u' ltac:(lia) A B N)|exact (IHl K d (Datatypes.S d0) d' u u' ltac:(lia) A B N)].
Qed.
  Lemma node_above {V} (t : tree V) K d u : sub t K 0 d = Some u -> forall q, (q < d)%nat -> (q < height t)%nat.
  Proof.
    intros Sb q Hq. assert (X : exists l r, sub t K 0 q = Some (Node l r)).
    { revert Sb Hq. generalize 0%nat. revert d u. induction t as [|k v|l IHl r IHr] in q |- *; intros d u d0 Sb Hq; try (destruct d; [lia|discriminate Sb]). destruct q; [exists l, r; reflexivity|]. destruct d; [lia|]. cbn [sub] in Sb |- *. destruct (kbit K d0); [eapply IHr|eapply IHl]; try exact Sb; lia. }
    destruct X as (l & r & X). exact (sub_height q t K 0 l r X).
  Qed.
Section AddressFree.
  Variables (H : Fr -> Fr -> Fr -> Fr) (e : env) (n : Z).
  Hypothesis OK : circuit_ok H e n.
  Let F := co_fixed H e n OK.
  Let SAT := co_sat H e n OK.
  Let HD := HD0 H e n F SAT.
  Let HL := HL0 H e n F SAT.
  Let HP := co_poseidon H e n OK.
  (* the rows of an update of an account that exists *)
  Record account_rows (i a : Z) (d : nat) : Prop := {
    ar_size : Z.of_nat d + 3 <= a; ar_fits : i + a < n;
    ar_rows : forall k, i < k < i + a -> pa e k = Common /\ pt e k = pt e i /\ In (sg e k) [AccountTrie; AccountLeaf0; AccountLeaf1; AccountLeaf2];
    ar_run : forall k, i < k <= i + Z.of_nat d -> sg e k = AccountTrie;
    ar_trie : forall k, i < k < i + a -> sg e k = AccountTrie -> k <= i + Z.of_nat d;
    ar_leaf : sg e (i + a - 1) <> AccountTrie;
    ar_next : sg e (i + a) = SegStart \/ (sg e (i + a) = AccountLeaf3 /\ pa e (i + a) = Common /\ pt e (i + a) = pt e i) }.
  Lemma existing_rows i t d a : 1 <= i -> i + 1 < n -> sg e i = SegStart -> In (pt e i) account_kinds ->
    trie_of H e n (adv e MU_old_hash i) t -> sub t (adv e MU_key i) 0 d = Some (Leaf (adv e MU_key i) a) ->
    exists b, account_rows i b d.
  Proof.
    intros I1 I2 Hst Kd (T1 & T2 & T3 & T4 & T5) Sb. set (K := adv e MU_key i) in *.
    assert (G : get t 0 K = Some a) by (rewrite (sub_get d t K 0 _ Sb); cbn [get]; rewrite feqb_refl; reflexivity).
    destruct (has_shape H e n OK i I1 I2 Hst) as (d' & Sh). destruct Sh as [R Lt En Tj Oj Nj _]. set (j := i + Z.of_nat d') in *.
    destruct En as [E0|S0 P0|S0 P0].
    - exfalso. destruct (r_seg_trans H e n F HD j ltac:(lia) Lt) as (l & TS & I). rewrite Tj, E0 in *.
      assert (Sj : sg e j = SegStart \/ sg e j = AccountTrie) by (unfold j; destruct d' as [|d'']; [left; rewrite Z.add_0_r; exact Hst|right; apply R; lia]).
      destruct (has_empty_part (pt e j)) eqn:Hp.
      + destruct (acc_absent_empty H e n OK t i (conj I1 I2) Hst T1 T3 T5 d' R Lt Hp E0) as (_ & _ & _ & X). fold K in X. congruence.
      + rewrite Tj in Hp. unfold account_kinds in Kd. cbn [In] in Kd. destruct Sj as [Sj|Sj]; rewrite Sj in TS; repeat destruct Kd as [Kd|Kd]; try contradiction; rewrite <- Kd in *; try discriminate Hp; cbn in TS; injection TS as <-; cbn in I; intuition discriminate.
    - destruct (acc_old H e n OK t i (conj I1 I2) Hst T1 T3 T5 d' R Lt) as (u & U1 & U2 & U3); [fold j; rewrite P0; discriminate|].
      destruct (leaf_rows H e n F HD HL (j + 1) ltac:(unfold j in *; lia) S0 P0) as (L2 & [Bo Bn] & S1 & P1 & Tp1 & Alt). fold j K in U1, U3.
      unfold sideP in Bo. replace (j + 1 - 1) with j in Bo by lia.
      destruct (leaf_step H e HP (inputs H e t) T5 (HT H e t) (account_hash H) (account_inputs H) u _ _ _ U2 U3 Bo) as (v & -> & _).
      assert (Ed : d' = d) by (destruct (Nat.le_ge_cases d d') as [L|L]; [symmetry; exact (sub_leaf t K d 0 d' _ _ L Sb U1 eq_refl)|exact (sub_leaf t K d' 0 d _ _ L U1 Sb eq_refl)]). subst d'.
      assert (Tl : pt e (j + 1) = pt e i).
      { destruct (nonstart_step H e n F HD (j + 1) ltac:(unfold j in *; lia)) as (X & _); [rewrite S0; discriminate|]. replace (j + 1 - 1) with j in X by lia. congruence. }
      assert (Trie : forall k, i < k <= j -> sg e k = AccountTrie /\ pa e k = Common /\ pt e k = pt e i).
      { intros k Hk. replace k with (i + Z.of_nat (Z.to_nat (k - i))) by lia. destruct (R (Z.to_nat (k - i)) ltac:(unfold j in *; lia)) as [A B]. split; [exact A|]. split; [exact B|].
        destruct (UpdateAccount.pt_const H e n F HD i (Z.to_nat (k - i)) I1) as (X & _); [unfold j in *; lia|intros q Hq; destruct (R q ltac:(unfold j in *; lia)) as [Y _]; rewrite Y; discriminate|exact X]. }
      assert (T2' : pt e (j + 2) = pt e i).
      { replace (j + 2) with (j + 1 + 1) by lia. congruence. }
      destruct Alt as [(Tp & _)|(Fr & L4 & b2 & b3 & S2 & S3 & P3 & Tp3 & _)].
      + exists (Z.of_nat d + 3). assert (Nx : sg e (j + 3) = SegStart).
        { destruct (r_seg_trans H e n F HD (j + 2) ltac:(unfold j in *; lia) ltac:(lia)) as (l & TS & I). replace (j + 2 + 1) with (j + 3) in I by lia. rewrite T2', <- Tl, Tp in TS. replace (j + 2) with (j + 1 + 1) in TS by lia. rewrite S1 in TS. cbn in TS. injection TS as <-. cbn in I. intuition congruence. }
        split; [lia|unfold j in *; lia| |intros k Hk; apply (Trie k Hk)| | |].
        * intros k Hk. destruct (Z_le_dec k j) as [L|L]; [destruct (Trie k ltac:(lia)) as (A & B & C); rewrite A; cbn; auto 10|].
          assert (Ck : k = j + 1 \/ k = j + 1 + 1) by (unfold j in *; lia). destruct Ck as [->| ->]; [rewrite P0, S0|rewrite P1, S1, Tp1]; cbn; auto 10.
        * intros k Hk Q. destruct (Z_le_dec k j) as [L|L]; [exact L|exfalso]. assert (Ck : k = j + 1 \/ k = j + 1 + 1) by (unfold j in *; lia). destruct Ck as [->| ->]; congruence.
        * replace (i + (Z.of_nat d + 3) - 1) with (j + 1 + 1) by (unfold j; lia). congruence.
        * left. replace (i + (Z.of_nat d + 3)) with (j + 3) by (unfold j; lia). exact Nx.
      + exists (Z.of_nat d + 4). replace (j + 1 + 2) with (j + 3) in * by lia. replace (j + 1 + 3) with (j + 4) in * by lia.
        assert (P2 : pa e (j + 3) = Common) by (apply (leaf_common H e n F HD HL); [unfold j in *; lia|replace (j + 3 - 1) with (j + 1 + 1) by lia; exact P1|rewrite S2; cbn; auto]).
        assert (T3' : pt e (j + 3) = pt e i).
        { destruct (nonstart_step H e n F HD (j + 3) ltac:(unfold j in *; lia)) as (X & _); [rewrite S2; discriminate|]. replace (j + 3 - 1) with (j + 2) in X by lia. congruence. }
        split; [lia|unfold j in *; lia| |intros k Hk; apply (Trie k Hk)| | |].
        * intros k Hk. destruct (Z_le_dec k j) as [L|L]; [destruct (Trie k ltac:(lia)) as (A & B & C); rewrite A; cbn; auto 10|].
          assert (Ck : k = j + 1 \/ k = j + 1 + 1 \/ k = j + 3) by (unfold j in *; lia). destruct Ck as [->|[->| ->]]; [rewrite P0, S0|rewrite P1, S1, Tp1|rewrite P2, S2, T3']; cbn; auto 10.
        * intros k Hk Q. destruct (Z_le_dec k j) as [L|L]; [exact L|exfalso]. assert (Ck : k = j + 1 \/ k = j + 1 + 1 \/ k = j + 3) by (unfold j in *; lia). destruct Ck as [->|[->| ->]]; congruence.
        * replace (i + (Z.of_nat d + 4) - 1) with (j + 3) by (unfold j; lia). congruence.
        * right. replace (i + (Z.of_nat d + 4)) with (j + 4) by (unfold j; lia). rewrite S3, P3, Tp3. auto.
    - exfalso. destruct (acc_absent_new H e n OK t i (conj I1 I2) Hst T1 T3 T5 d' R Lt S0 P0) as (X & _). fold K in X. congruence.
  Qed.
  (* the key bits found by an account absence proof *)
  Lemma absent_bits i t d u : 1 <= i -> i + 1 < n -> sg e i = SegStart -> pt e i = AccountDoesNotExist ->
    trie_of H e n (adv e MU_old_hash i) t -> sub t (adv e MU_key i) 0 d = Some u ->
    forall j, (j < d)%nat -> accepts e key_bit_lookup [adv e MU_key i; fz (Z.of_nat j); fb (kbit (adv e MU_key i) j)].
  Proof.
    intros I1 I2 Hst T (T1 & T2 & T3 & T4 & T5) Sb. set (K := adv e MU_key i) in *.
    destruct (has_shape H e n OK i I1 I2 Hst) as (d' & Sh). destruct Sh as [R Lt En Tj Oj Nj _]. set (j := i + Z.of_nat d') in *.
    destruct (r_seg_trans H e n F HD j ltac:(lia) Lt) as (l & TS & I). rewrite Tj, T in TS.
    assert (Sj : sg e j = SegStart \/ sg e j = AccountTrie) by (unfold j; destruct d' as [|d'']; [left; rewrite Z.add_0_r; exact Hst|right; apply R; lia]).
    assert (Tl : l = [AccountTrie; SegStart]) by (destruct Sj as [Sj|Sj]; rewrite Sj in TS; cbn in TS; congruence). subst l.
    assert (E0 : sg e (j + 1) = SegStart).
    { destruct En as [E0|S0 P0|S0 P0]; [exact E0| |].
      - rewrite S0 in I. cbn in I. intuition discriminate.
      - exfalso. assert (Tn : pt e (j + 1) = pt e i).
        { destruct (nonstart_step H e n F HD (j + 1) ltac:(unfold j in *; lia)) as (X & _); [destruct S0 as [S0|S0]; rewrite S0; discriminate|]. replace (j + 1 - 1) with j in * by lia. rewrite X. auto. }
        assert (Hlt : j + 1 + 1 < n) by (apply (next_lt e n HL); [unfold j in *; lia|destruct S0 as [S0|S0]; rewrite S0; discriminate]).
        destruct (r_ext_new H e n F HD (j + 1)) as (X & _); [unfold j in *; lia|exact Hlt|exact P0|]. rewrite Tn, T in X. cbn in X. intuition discriminate. }
    destruct (acc_old H e n OK t i (conj I1 I2) Hst T1 T3 T5 d' R Lt) as (v & U1 & U2 & U3); [fold j; rewrite (pa_start H e n F HD (j + 1) ltac:(unfold j in *; lia) E0); discriminate|]. fold j K in U1, U3.
    destruct (r_empty H e n F HD j ltac:(unfold j; lia) Lt ltac:(rewrite Tj, T; reflexivity) Sj E0) as (_ & _ & _ & data & N).
    assert (Nv : is_node v = false).
    { rewrite <- U3 in N. destruct N as [_ [[_ B]|(_ & _ & C)]].
      - rewrite (zero_step H (inputs H e t) T5 (account_hash H) (account_inputs H) v U2 B). reflexivity.
      - destruct (leaf_step H e HP (inputs H e t) T5 (HT H e t) (account_hash H) (account_inputs H) v _ _ _ U2 eq_refl C) as (w & -> & _). reflexivity. }
    assert (Ld : (d <= d')%nat) by (destruct (Nat.le_ge_cases d d') as [L|L]; [exact L|rewrite (sub_leaf t K d' 0 d _ _ L U1 Sb Nv); lia]).
    intros q Hq. assert (Rt : in_trie e AccountTrie i d') by (intros k Hk; apply R; exact Hk). assert (Nt : is_trie_seg (sg e i) = false) by (rewrite Hst; reflexivity).
    destruct (r_trie H e n F HD (i + Z.of_nat (Datatypes.S q))) as (Hh & _); [unfold j in *; lia|rewrite (Rt (Datatypes.S q)) by lia; reflexivity|].
    apply hit_accepts in Hh. cbn [map] in Hh. rewrite eval_sub in Hh. rewrite !(ev_cur e n F) in Hh by (unfold j in *; lia). change (eval e (i + Z.of_nat (Datatypes.S q)) qone) with (fz 1) in Hh.
    assert (Rq : in_trie e AccountTrie i (Datatypes.S q)) by (intros k Hk; apply R; lia).
    rewrite (trie_depth H e n F HD AccountTrie i eq_refl I1 Nt (Datatypes.S q) Rq) in Hh by (unfold j in *; lia). rewrite (trie_key H e n F HD AccountTrie i K eq_refl I1 eq_refl (Datatypes.S q) Rq) in Hh by (unfold j in *; lia).
    rewrite <- fz_sub in Hh. replace (Z.of_nat (Datatypes.S q) - 1) with (Z.of_nat q) in Hh by lia.
    pose proof (node_above t K d u Sb q Hq) as Qh.
    rewrite (trie_dir H e n F HD (DCR H e n OK) (DKB H e n OK) AccountTrie i K eq_refl I1 Nt eq_refl (height t) d' T3 Rt) in Hh by (unfold j in *; lia).
    exact Hh.
  Qed.
  Theorem address_free row row2 : exposes e row -> exposes e row2 -> (exists p, In p account_kinds /\ nth 2 row f0 = fz (kind_number p)) -> row <> blank_row ->
    nth 2 row2 f0 = fz (kind_number AccountDoesNotExist) -> row2 <> final_row ->
    exists s s2, row = encode (echal e) s /\ row2 = encode (echal e) s2 /\ In (st_kind s) account_kinds /\ st_kind s2 = AccountDoesNotExist /\
    0 <= st_address s < 2 ^ 160 /\ 0 <= st_address s2 < 2 ^ 160 /\
    forall t t2 d a u2, trie_of H e n (st_old_root s) t -> trie_of H e n (st_old_root s2) t2 ->
    let K := addr_key H (st_address s) in let K2 := addr_key H (st_address s2) in
    sub t K 0 d = Some (Leaf K a) -> sub t2 K2 0 d = Some u2 -> (forall j, (j < d)%nat -> kbit K2 j = kbit K j) ->
    exists e', also_accepted H e n s (with_address (st_address s2) s) e'.
  Proof.
    intros X1 X2 (p & Kp & K1) Nb K2 Nf.
    assert (N2 : row2 <> blank_row) by (intros ->; assert (Q : NonceChanged = AccountDoesNotExist) by (apply kind_inj; exact K2); discriminate Q).
    destruct X1 as (i & En & E). pose proof (proj1 (fix_enabled e n i F) En) as Hi.
    destruct (UpdateProps.table_rows H e n OK i En) as [X|[(_ & X)|(Lt & s & R & X)]]; [congruence| |].
    { exfalso. assert (Q : AccountDoesNotExist = p) by (apply kind_inj; rewrite <- K1, <- E, X; reflexivity). subst p. cbn in Kp. intuition discriminate. }
    destruct X2 as (i2 & En2 & Ei2). pose proof (proj1 (fix_enabled e n i2 F) En2) as A1. destruct (UpdateProps.table_rows H e n OK i2 En2) as [Y|[(_ & Y)|(A2 & s2 & R2 & E2)]]; [congruence|congruence|]. rewrite Ei2 in E2.
    assert (Ks : st_kind s = p) by (apply kind_inj; rewrite <- K1, <- E, X; reflexivity). assert (Ks2 : st_kind s2 = AccountDoesNotExist) by (apply kind_inj; rewrite <- K2, E2; reflexivity).
    exists s, s2. split; [congruence|]. split; [exact E2|]. split; [congruence|]. split; [exact Ks2|]. split; [exact (rs_address _ _ _ _ R)|]. split; [exact (rs_address _ _ _ _ R2)|].
    intros t t2 d a u2 T T2 K K' Sb Sb2 Bt. unfold K, K' in *. clear K K'.
    rewrite <- (rs_key _ _ _ _ R) in *. rewrite <- (rs_key _ _ _ _ R2) in *. rewrite (rs_old_root _ _ _ _ R) in T. rewrite (rs_old_root _ _ _ _ R2) in T2.
    assert (Kd : In (pt e i) account_kinds) by (rewrite <- (rs_kind _ _ _ _ R), Ks; exact Kp).
    destruct (existing_rows i t d a ltac:(lia) Lt (rs_seg _ _ _ _ R) Kd T Sb) as (b & [B1 B2 B3 B0 B4 B5 B6]).
    destruct (r_start H e n F HD i2 ltac:(lia) (rs_seg _ _ _ _ R2)) as (G1 & G2 & G3 & _). apply hit_accepts in G2, G3. cbn [map] in G2, G3. rewrite (ev_cur e n F) in G2, G3 by lia.
    change (eval e i2 (qz 15)) with (fz 15) in G2. change (eval e i2 (qz 3)) with (fz 3) in G3.
    assert (Bits : forall k, i < k < i + b -> sg e k = AccountTrie -> accepts e key_bit_lookup [adv e MU_key i2; (eadv e MU_depth k - f1)%fr; eadv e MU_direction k]).
    { intros k Hk S. pose proof (B4 k Hk S) as Lk. set (q := Z.to_nat (k - i - 1)). assert (Ek : k = i + Z.of_nat (Datatypes.S q)) by (unfold q; lia). assert (Hq : (q < d)%nat) by lia.
      pose proof (absent_bits i2 t2 d u2 (proj1 A1) A2 (rs_seg _ _ _ _ R2) ltac:(rewrite <- (rs_kind _ _ _ _ R2); exact Ks2) T2 Sb2 q Hq) as Y. rewrite Bt in Y by exact Hq.
      assert (Rt : in_trie e AccountTrie i d).
      { intros x Hx. apply B0. lia. }
      assert (Nt : is_trie_seg (sg e i) = false) by (rewrite (rs_seg _ _ _ _ R); reflexivity). assert (Rq : in_trie e AccountTrie i (Datatypes.S q)) by (intros x Hx; apply Rt; lia).
      rewrite Ek. change (eadv e MU_depth) with (adv e MU_depth). change (eadv e MU_direction) with (adv e MU_direction).
      rewrite (trie_depth H e n F HD AccountTrie i eq_refl ltac:(lia) Nt (Datatypes.S q) Rq) by lia.
      destruct T as (_ & _ & T3 & _).
      rewrite (trie_dir H e n F HD (DCR H e n OK) (DKB H e n OK) AccountTrie i (adv e MU_key i) eq_refl ltac:(lia) Nt eq_refl (height t) d T3 Rt ltac:(lia) q Hq (node_above t _ d _ Sb q Hq)).
      change f1 with (fz 1). rewrite <- fz_sub. replace (Z.of_nat (Datatypes.S q) - 1) with (Z.of_nat q) by lia. exact Y. }
    pose proof (address_edited H e n i b (adv e (iv 0) i2) (adv e (iv 1) i2) (adv e MU_key i2) F SAT ltac:(lia) ltac:(lia) B2 (rs_seg _ _ _ _ R) Kd B3 B5 B6 G1 G2 G3 Bits) as [F2 S2].
    set (e2 := set_address e i b (adv e (iv 0) i2) (adv e (iv 1) i2) (adv e MU_key i2)) in *.
    assert (SE : same_except e e2 i b) by (apply address_same; lia).
    destruct (carried H e e2 n i b SE OK F2 S2) as [C1 C2]. exists e2. split; [exact C1|]. split; [reflexivity|]. split; [exact C2|].
    assert (Ha : (adv e (iv 0) i2 * fz (2 ^ 32) + adv e (iv 1) i2)%fr = fz (st_address s2)).
    { pose proof (exposed H e n OK i2 A1) as Q. rewrite (rs_seg _ _ _ _ R2) in Q. cbn [seg_eqb] in Q. apply (f_equal (hd f0)) in Q. cbn [hd] in Q. rewrite <- Q. change (hd f0 (table_row e i2) = fz (st_address s2)). rewrite Ei2, E2. reflexivity. }
    split.
    - exists i. split; [apply (proj2 (fix_enabled e2 n i F2)); exact Hi|]. unfold e2. rewrite (address_entry H e n i b _ _ _ F SAT) by (assumption || lia || exact (rs_seg _ _ _ _ R)). rewrite Ha, X. reflexivity.
    - rewrite <- X. apply (kept_entries e e2 n i F F2). intros k Hk Ne. unfold e2. apply (address_entries H e n i b _ _ _ F SAT); try assumption; lia.
  Qed.
End AddressFree.
