(* What an update proves about the new state trie, and about everything it does not touch. *)
From Coq Require Import ZArith String List Bool Lia.
From Verif Require Import Pocklington Fr Query Builder BuilderProofs Gadgets MptUpdate Bytes GadgetProofs LagrangeProofs Fixed CanonProofs UpdateRows TrieSpec UpdateWalk UpdateAccount UpdateSound UpdateClaims UpdateStorage TableSpec ChangeSpec TwoTries NewSide NewAccount.
Import ListNotations.
Open Scope Z_scope.

(* v encodes the field of a that a claim of kind p is about *)
Definition field_is (c : Fr) (p : MPTProofType) (a : account) (v : Fr) : Prop :=
  match p with
  | NonceChanged => v = fz (nonce a)
  | CodeSizeExists => v = fz (code_size a)
  | BalanceChanged => v = word_rlc c (balance a)
  | CodeHashExists => v = word_rlc c (keccak_code_hash a)
  | PoseidonCodeHashExists => v = poseidon_code_hash a
  | _ => False
  end.

Section Claims.
  Variables (H : Fr -> Fr -> Fr -> Fr) (e : env) (n : Z).
  Hypothesis OK : circuit_ok H e n.
  Let F : fixed_ok e n := co_fixed H e n OK.
  Let HD := HD H e n OK.
  Let HL := HL H e n OK.
  Let Hn := fo_rows e n F.
  Let Hu := fo_usable e n F.
  Let HP := co_poseidon H e n OK.
  Notation adv := (adv e). Notation sg := (sg e). Notation pa := (pa e). Notation pt := (pt e).
  Notation PH := (PH e).

  (** ** leaf rows of a created account *)
  Section Created.
    Variable l : Z.
    Hypothesis Hl : 1 <= l < n.
    Hypothesis Pl : pa l = ExtensionNew.
    Lemma n1_zero : sg l = AccountLeaf1 -> pt l = NonceChanged \/ pt l = BalanceChanged -> adv MU_sibling l = f0.
    Proof.
      intros S1 [T|T]; pose proof (den_proof H e n F HD l Hl) as D; rewrite T in D; destruct D as [_ D].
      - destruct D as [_ D]. apply (den_by_segment H e n F HD l _ Hl) in D. rewrite S1 in D. destruct D as [_ D].
        apply (den_is_path H e n F HD l _ _ Hl) in D; [|exact Pl]. cbn [den] in D. rewrite (ev_cur e n F) in D by exact Hl. exact D.
      - apply (den_by_segment H e n F HD l _ Hl) in D. rewrite S1 in D. destruct D as (_ & _ & D).
        apply (den_is_path H e n F HD l _ _ Hl) in D; [|exact Pl]. cbn [den] in D. rewrite (ev_cur e n F) in D by exact Hl. exact D.
    Qed.
    Lemma n2_zero : sg l = AccountLeaf2 -> pt l = NonceChanged \/ pt l = BalanceChanged ->
      adv MU_sibling l = H (cs H new_account) (ck H new_account) (fdom AccountFields).
    Proof.
      intros S1 T.
      assert (G : adv MU_sibling l = ZERO_STORAGE_ROOT_KECCAK_CODEHASH_HASH H).
      { destruct T as [T|T]; pose proof (den_proof H e n F HD l Hl) as D; rewrite T in D; destruct D as [_ D].
        - destruct D as [_ D]. apply (den_by_segment H e n F HD l _ Hl) in D. rewrite S1 in D. destruct D as [_ D].
          apply (den_is_path H e n F HD l _ _ Hl) in D; [|exact Pl]. apply (proj1 (den_assert_equal e l _ _ _)) in D. rewrite eval_q_of_fr, (ev_cur e n F) in D by exact Hl. exact D.
        - apply (den_by_segment H e n F HD l _ Hl) in D. rewrite S1 in D. destruct D as (_ & D).
          apply (den_is_path H e n F HD l _ _ Hl) in D; [|exact Pl]. apply (proj1 (den_assert_equal e l _ _ _)) in D. rewrite eval_q_of_fr, (ev_cur e n F) in D by exact Hl. exact D. }
      rewrite G. reflexivity.
    Qed.
    Lemma n3_nonce : sg l = AccountLeaf3 -> pt l = NonceChanged ->
      exists w, 0 <= w < 2 ^ 64 /\ adv MU_new_value l = fz w /\ adv MU_new_hash l = fz w /\ adv MU_sibling l = f0.
    Proof.
      intros S3 T. pose proof (den_proof H e n F HD l Hl) as D. rewrite T in D. destruct D as [_ [_ D]].
      apply (den_by_segment H e n F HD l _ Hl) in D. rewrite S3 in D. destruct D as (_ & D1 & _ & D2).
      apply (den_is_path H e n F HD l _ _ Hl) in D2; [|exact Pl]. destruct D2 as (_ & D3 & D4).
      specialize (D1 eq_refl). apply (bytes8 H e n OK l _ Hl) in D1. rewrite (ev_cur e n F) in D1 by exact Hl.
      destruct D1 as (w & R & E). exists w. split; [exact R|]. split; [exact E|].
      cbn [den] in D4. rewrite (ev_cur e n F) in D4 by exact Hl. split; [|exact D4].
      assert (D3' : (eval e l (cur MU_new_hash - cur MU_new_value)%q * finv c64)%fr = f0) by exact D3. clear D3.
      rewrite eval_sub, !(ev_cur e n F) in D3' by exact Hl. apply div64 in D3'. rewrite D3', E. ring.
    Qed.
    Lemma n3_balance : sg l = AccountLeaf3 -> pt l = BalanceChanged ->
      exists w, 0 <= w < 2 ^ 248 /\ adv MU_new_value l = word_rlc (echal e) w /\ adv MU_new_hash l = fz w /\ adv MU_sibling l = f0.
    Proof.
      intros S3 T. pose proof (den_proof H e n F HD l Hl) as D. rewrite T in D. destruct D as [_ D].
      apply (den_by_segment H e n F HD l _ Hl) in D. rewrite S3 in D. destruct D as (_ & _ & D2 & D3 & _).
      apply (den_is_path H e n F HD l _ _ Hl) in D3; [|exact Pl]. cbn [den] in D3. rewrite (ev_cur e n F) in D3 by exact Hl.
      specialize (D2 eq_refl). apply (br_rlc_hit e n F l _ _ _ 30 (BR H e n OK)) in D2; [|lia|reflexivity].
      rewrite !(ev_cur e n F) in D2 by exact Hl. change (256 ^ (30 + 1)) with (2 ^ 248) in *. change (Z.to_nat (30 + 1)) with 31%nat in *.
      destruct D2 as (w & R & E & Q). exists w. unfold word_rlc. change 32%nat with (S 31).
      rewrite (be_bytes_lead 31 w) by (change (256 ^ Z.of_nat 31) with (2 ^ 248); lia). rewrite rlc_lead.
      exact (conj R (conj Q (conj E D3))).
    Qed.
  End Created.

  Variables (t t' : tree account) (i : Z).
  Hypothesis Hi : 1 <= i /\ i + 1 < n.
  Hypothesis Hst : sg i = SegStart.
  Hypothesis Hroot : state_root H t = adv MU_old_hash i.
  Hypothesis Hroot' : state_root H t' = adv MU_new_hash i.
  Hypothesis Hbits : bits_ok n (height t).
  Hypothesis Hbits' : bits_ok n (height t').
  Hypothesis Hacc : tree_all account_ok t.
  Hypothesis Hacc' : tree_all account_ok t'.
  Notation S := (inputs2 H e t t').
  Hypothesis CF : collision_free H S.
  Let K := adv MU_key i.
  Notation kacc := (kacc H S).
  Notation of_update := (of_update e n i).

  Lemma two : exists d u u', sub t K 0 d = Some u /\ sub t' K 0 d = Some u' /\ t' = repl t K 0 d u' /\ account_diff H e n t t' i d u u'.
  Proof. exact (account_two H e n OK t t' i Hi Hst Hroot Hroot' Hbits Hbits' Hacc Hacc' CF). Qed.
  Lemma hj l r d h l' r' d' : PH l r d h -> S (l', r', d') -> H l' r' d' = h -> l = l' /\ r = r' /\ d = d'.
  Proof. apply (hash_inj H e HP S CF (HT2 H e t t')). Qed.

  (* the four leaf rows fix all components of the account on one side *)
  Lemma four_side hc a l b2 b3 : kacc a -> account_hash H a = hc l ->
    sideP e (l + 1) false (hc (l + 1)) (hc l) AccountFields -> sideP e (l + 2) b2 (hc (l + 2)) (hc (l + 1)) AccountFields -> sideP e (l + 3) b3 (hc (l + 3)) (hc (l + 2)) AccountFields ->
    hc (l + 3) = comp H b2 b3 a /\ adv MU_sibling (l + 1) = poseidon_code_hash a /\
    adv MU_sibling (l + 2) = (if b2 then H (cx a) (cy a) (fdom AccountFields) else H (cs H a) (ck H a) (fdom AccountFields)) /\
    adv MU_sibling (l + 3) = comp H b2 (negb b3) a.
  Proof.
    intros Ka E O1 O2 O3. unfold sideP in *.
    destruct (hj _ _ _ _ _ _ _ O1 (i4 H S a Ka) E) as (P1 & P2 & _).
    destruct b2.
    - destruct (hj _ _ _ _ _ _ _ O2 (i3 H S a Ka) (eq_sym P1)) as (Q1 & Q2 & _).
      destruct b3; destruct (hj _ _ _ _ _ _ _ O3 (i2 H S a Ka) (eq_sym Q2)) as (R1 & R2 & _); auto.
    - destruct (hj _ _ _ _ _ _ _ O2 (i3 H S a Ka) (eq_sym P1)) as (Q1 & Q2 & _).
      destruct b3; destruct (hj _ _ _ _ _ _ _ O3 (i1 H S a Ka) (eq_sym Q1)) as (R1 & R2 & _); auto.
  Qed.

  Lemma upd_next j : of_update j -> j + 1 < n -> sg (j + 1) <> SegStart -> of_update (j + 1).
  Proof.
    intros (A & B & C & D & G) Lt Ns. destruct (nonstart_step H e n F HD (j + 1) ltac:(lia) Ns) as (X & Y & Z & W).
    replace (j + 1 - 1) with j in * by lia. repeat split; try lia; congruence.
  Qed.
  (* both accounts of a common leaf *)
  Lemma leaf_pair j a a' : of_update j -> sg j = AccountLeaf0 -> pa j = Common -> kacc a -> kacc a' -> account_ok a -> account_ok a' ->
    account_hash H a = adv MU_old_hash j -> account_hash H a' = adv MU_new_hash j -> field_proof (pt i) = true ->
    field_step (echal e) (pt i) a (adv MU_old_value i) (adv MU_new_value i) a'.
  Proof.
    intros Uj S0 P0 Ka Ka' Oa Oa' Ea Ea' Fp. pose proof Uj as (Hj & Tj & Vj & Wj & _).
    destruct (leaf_rows H e n F HD HL j ltac:(lia) S0 P0) as (L2 & _ & S1 & P1 & T1 & Alt).
    assert (U1 : of_update (j + 1)) by (apply upd_next; [exact Uj|lia|rewrite S1; discriminate]).
    rewrite Tj in *.
    destruct Alt as [(Tp & [Bo Bn])|(Fr4 & L4 & b2 & b3 & S2 & S3 & P3 & T3 & D2 & D3 & B1 & B2 & B3)].
    - destruct (l1_poseidon H e n OK (j + 1)) as (Q1 & Q2); [lia|exact S1|rewrite T1; exact Tp|].
      destruct U1 as (_ & _ & V1 & W1 & _). unfold sideP in Bo, Bn. replace (j + 1 - 1) with j in * by lia.
      rewrite <- Q1, V1 in Bo. rewrite <- Q2, W1 in Bn.
      destruct (hj _ _ _ _ _ _ _ Bo (i4 H S a Ka) Ea) as (X1 & X2 & _).
      destruct (hj _ _ _ _ _ _ _ Bn (i4 H S a' Ka') Ea') as (Y1 & Y2 & _).
      rewrite X1 in Y1. destruct (inj3 H S CF _ _ _ _ _ _ (i3 H S a Ka) (i3 H S a' Ka') Y1) as (Z1 & Z2 & _).
      destruct (inj3 H S CF _ _ _ _ _ _ (i1 H S a Ka) (i1 H S a' Ka') Z1) as (C1 & C2 & _).
      destruct (inj3 H S CF _ _ _ _ _ _ (i2 H S a Ka) (i2 H S a' Ka') Z2) as (C3 & C4 & _).
      destruct (cx_inj a a' Oa Oa' C1) as [N1 N2].
      rewrite Tp. cbn [field_step]. split; [exact X2|].
      apply account_is; cbn; [symmetry; exact N1|symmetry; exact N2|symmetry; apply cy_inj; assumption|symmetry; apply (ck_inj H S CF); assumption|symmetry; exact Y2|symmetry; apply (cs_inj H S CF); assumption].
    - destruct B1 as [O1 N1]. destruct B2 as [O2 N2]. destruct B3 as [O3 N3].
      replace (j + 1 - 1) with j in * by lia. replace (j + 2 - 1) with (j + 1) in * by lia. replace (j + 3 - 1) with (j + 2) in * by lia.
      destruct (four_side (adv MU_old_hash) a j b2 b3 Ka Ea O1 O2 O3) as (X3 & Xp & X2 & Xs).
      destruct (four_side (adv MU_new_hash) a' j b2 b3 Ka' Ea' N1 N2 N3) as (Y3 & Yp & Y2 & Ys).
      rewrite Xp in Yp. rewrite X2 in Y2. rewrite Xs in Ys.
      assert (U3 : of_update (j + 3)).
      { replace (j + 3) with (j + 1 + 1 + 1) by lia. apply upd_next; [apply upd_next; [exact U1|lia|]|lia|].
        - replace (j + 1 + 1) with (j + 2) by lia. rewrite S2. discriminate.
        - replace (j + 1 + 1 + 1) with (j + 3) by lia. rewrite S3. discriminate. }
      destruct U3 as (_ & _ & V3 & W3 & _).
      assert (Hl : 1 <= j + 3 < n) by lia.
      destruct (pt i) eqn:T; try discriminate Fp; try discriminate Fr4; cbn [leaf_dir] in D2, D3; injection D2 as <-; injection D3 as <-; cbn [comp negb] in X3, Y3, Ys, Y2.
      + destruct (inj3 H S CF _ _ _ _ _ _ (i2 H S a Ka) (i2 H S a' Ka') Y2) as (C3 & C4 & _).
        destruct (l3_nonce H e n OK (j + 3) Hl S3 P3 T3) as (ov & nv & c & R1 & R2 & R3 & R4 & R5 & R6 & R7).
        rewrite R6 in X3. rewrite R7 in Y3. destruct Oa as (A1 & A2 & Ar). destruct Oa' as (A1' & A2' & Ar').
        apply pack_inj in X3; try assumption. apply pack_inj in Y3; try assumption. destruct X3 as [X3 X4]. destruct Y3 as [Y3 Y4].
        exists nv. split; [exact R2|]. split; [congruence|]. split; [congruence|].
        apply account_is; cbn; [symmetry; exact Y3|congruence|symmetry; apply cy_inj; try assumption; unfold account_ok; auto| |congruence| ].
        * symmetry; apply (ck_inj H S CF); try assumption; unfold account_ok; auto.
        * symmetry; apply (cs_inj H S CF); try assumption; unfold account_ok; auto.
      + destruct (inj3 H S CF _ _ _ _ _ _ (i2 H S a Ka) (i2 H S a' Ka') Y2) as (C3 & C4 & _).
        destruct (l3_balance H e n OK (j + 3) Hl S3 P3 T3) as (ov & nv & R1 & R2 & R4 & R5 & R6 & R7).
        rewrite R6 in X3. rewrite R7 in Y3. destruct (cx_inj a a' Oa Oa' Ys) as [M1 M2].
        apply fz_inj in X3; [|apply balance_range; exact R1|apply Oa]. apply fz_inj in Y3; [|apply balance_range; exact R2|apply Oa'].
        exists nv. split; [exact R2|]. split; [congruence|]. split; [congruence|].
        apply account_is; cbn; [congruence|congruence|congruence| |congruence| ].
        * symmetry; apply (ck_inj H S CF); assumption.
        * symmetry; apply (cs_inj H S CF); assumption.
      + destruct (inj3 H S CF _ _ _ _ _ _ (i1 H S a Ka) (i1 H S a' Ka') Y2) as (C3 & C4 & _).
        destruct (l3_keccak H e n OK (j + 3) Hl S3 T3) as (ov & nv & R1 & R2 & R4 & R5 & R6 & R7 & _).
        destruct (hj _ _ _ _ _ _ _ R6 (kacc_word H S a _ Ka (or_introl eq_refl)) (eq_sym X3)) as (Q1 & Q2 & _).
        assert (Eo : ov = keccak_code_hash a) by (apply halves; [exact R1|apply Oa|exact Q1|exact Q2]).
        pose proof (den_proof H e n F HD (j + 3) Hl) as D. rewrite T3 in D. destruct D as [_ D].
        apply (den_by_segment H e n F HD (j + 3) _ Hl) in D. rewrite S3 in D. destruct D as (_ & _ & D).
        apply (r_word e n F (j + 3)) in D; [|exact Hl]. apply (word_sound H e n OK (j + 3)) in D; [|exact Hl].
        destruct D as (nv' & G1 & G2 & G3 & G4).
        destruct (hj _ _ _ _ _ _ _ G3 (kacc_word H S a' _ Ka' (or_introl eq_refl)) (eq_sym Y3)) as (Q1' & Q2' & _).
        assert (En : nv' = keccak_code_hash a') by (apply halves; [exact G1|apply Oa'|exact Q1'|exact Q2']).
        destruct (cx_inj a a' Oa Oa' C3) as [M1 M2].
        exists nv'. split; [exact G1|]. split; [congruence|]. split; [congruence|].
        apply account_is; cbn; [congruence|congruence|symmetry; apply cy_inj; assumption|congruence|congruence|symmetry; apply (cs_inj H S CF); assumption].
      + destruct (inj3 H S CF _ _ _ _ _ _ (i2 H S a Ka) (i2 H S a' Ka') Y2) as (C3 & C4 & _).
        destruct (l3_code_size H e n OK (j + 3) Hl S3 T3) as (c & ov & nv & R1 & R2 & R3 & R4 & R5 & R6 & R7).
        rewrite R6 in X3. rewrite R7 in Y3. pose proof Oa as (A1 & A2 & Ar). pose proof Oa' as (A1' & A2' & Ar').
        apply pack_inj in X3; try assumption. apply pack_inj in Y3; try assumption. destruct X3 as [X3 X4]. destruct Y3 as [Y3 Y4].
        exists nv. split; [exact R2|]. split; [congruence|]. split; [congruence|].
        apply account_is; cbn; [congruence|congruence|symmetry; apply cy_inj; assumption| |congruence| ].
        * symmetry; apply (ck_inj H S CF); assumption.
        * symmetry; apply (cs_inj H S CF); assumption.
  Qed.

  (* a created account *)
  Notation created a' := (account_created (echal e) (pt i) a' (adv MU_new_value i)).
  Lemma leaf_created j a' : of_update j -> sg j = AccountLeaf0 -> pa j = ExtensionNew -> kacc a' -> account_ok a' ->
    account_hash H a' = adv MU_new_hash j -> created a' \/ pt i = StorageChanged.
  Proof.
    intros Uj S0 P0 Ka' Oa' Ea'. pose proof Uj as (Hj & Tj & Vj & Wj & _).
    assert (L1 : j + 1 < n) by (apply (next_lt e n HL); [lia|rewrite S0; discriminate]).
    destruct (r_ext_new H e n F HD j ltac:(lia) L1 P0) as (Tc & _). rewrite Tj in Tc.
    destruct (leaf_rows_new H e n OK j ltac:(lia) S0 (or_intror P0)) as (_ & [(Tp & _)|(_ & L4 & b2 & b3 & S1 & S2 & S3 & T1 & T2 & T3 & P1 & P2 & P3 & D2 & D3 & N1 & N2 & N3)]).
    { exfalso. rewrite Tj in Tp. rewrite Tp in Tc. cbn in Tc. intuition discriminate. }
    rewrite Tj in *. rewrite P0 in *.
    assert (Tc' : pt i = StorageChanged \/ (pt i = NonceChanged \/ pt i = BalanceChanged)) by (clear - Tc; cbn in Tc; intuition congruence).
    destruct Tc' as [Tc'|Tc']; [right; exact Tc'|left].
    unfold newS in N1, N2, N3.
    replace (j + 1 - 1) with j in * by lia. replace (j + 2 - 1) with (j + 1) in * by lia. replace (j + 3 - 1) with (j + 2) in * by lia.
    destruct (four_side (adv MU_new_hash) a' j b2 b3 Ka' Ea' N1 N2 N3) as (Y3 & Yp & Y2 & Ys).
    assert (U3 : of_update (j + 3)).
    { replace (j + 3) with (j + 1 + 1 + 1) by lia. apply upd_next; [apply upd_next; [apply upd_next; [exact Uj|lia|rewrite S1; discriminate]|lia|]|lia|].
      - replace (j + 1 + 1) with (j + 2) by lia. rewrite S2. discriminate.
      - replace (j + 1 + 1 + 1) with (j + 3) by lia. rewrite S3. discriminate. }
    destruct U3 as (_ & _ & V3 & W3 & _).
    assert (b2 = false) as -> by (destruct Tc' as [T|T]; rewrite T in D2; cbn in D2; congruence).
    rewrite (n1_zero (j + 1)) in Yp by (try lia; try assumption; rewrite T1; exact Tc').
    rewrite (n2_zero (j + 2)) in Y2 by (try lia; try assumption; rewrite T2; exact Tc').
    pose proof (knew H e t t') as Kn. pose proof zero_account_ok as On.
    destruct (inj3 H S CF _ _ _ _ _ _ (i2 H S new_account Kn) (i2 H S a' Ka') Y2) as (C3 & C4 & _).
    apply (cs_inj H S CF) in C3; try assumption. apply (ck_inj H S CF) in C4; try assumption. cbn in C3, C4.
    assert (Hl : 1 <= j + 3 < n) by lia.
    destruct Tc' as [T|T]; rewrite T in D3, T3; cbn in D3; injection D3 as <-; cbn [comp negb] in Y3, Ys.
    - destruct (n3_nonce (j + 3) Hl P3 S3 T3) as (w & R1 & R2 & R3 & R4). left. split; [exact T|]. exists w. split; [exact R1|]. split; [congruence|].
      rewrite R3 in Y3. rewrite R4 in Ys.
      assert (Eb : balance new_account = balance a') by (apply cy_inj; assumption).
      unfold cx in Y3. destruct Oa' as (A1 & A2 & _). replace w with (w + 0 * 2 ^ 64) in Y3 by lia.
      apply pack_inj in Y3; try assumption; try lia. destruct Y3 as [Y3 Y4].
      cbn in Eb. apply account_is; cbn; congruence.
    - destruct (n3_balance (j + 3) Hl P3 S3 T3) as (w & R1 & R2 & R3 & R4). right. split; [exact T|]. exists w. split; [exact R1|]. split; [congruence|].
      rewrite R3 in Y3. rewrite R4 in Ys.
      assert (En : nonce new_account = nonce a' /\ code_size new_account = code_size a') by (apply cx_inj; assumption). destruct En as [E1 E2]. cbn in E1, E2.
      apply fz_inj in Y3; [|apply balance_range; exact R1|apply Oa'].
      apply account_is; cbn; congruence.
  Qed.

  Lemma single_get (u : tree account) x y k : single u -> get u x k = get u y k.
  Proof. destruct u; cbn; tauto. Qed.
  Lemma repl_reached d (t0 : tree account) k v : sub t' K 0 d = Some t0 -> reached t0 d K = Some (k, v) -> reached t' 0 K = Some (k, v).
  Proof.
    intros A B. assert (G : forall d (t0 u : tree account) d0, sub t0 K d0 d = Some u -> reached t0 d0 K = reached u (d0 + d) K).
    { clear. induction d as [|d IH]; intros t0 u d0 E; cbn in E; [injection E as ->; rewrite Nat.add_0_r; reflexivity|].
      destruct t0 as [|a b|l r]; try discriminate E. cbn [reached]. rewrite (IH _ _ _ E), Nat.add_succ_comm. reflexivity. }
    rewrite (G d t' t0 0%nat A). exact B.
  Qed.
  Lemma chain_reached m u k (a : account) : forall d, reached (chain K d m u (Leaf k a)) d K = Some (k, a).
  Proof.
    induction m as [|m IH]; intros d; [reflexivity|]. cbn [chain]. destruct (kbit K d) eqn:B; cbn [reached]; rewrite B; apply IH.
  Qed.

  (* an existing account: the new trie is the old one with this account's field changed *)
  Theorem existing_account a : field_proof (pt i) = true -> get t 0 K = Some a ->
    exists a', t' = modify (fun _ => a') t 0 K /\ get t' 0 K = Some a' /\ field_step (echal e) (pt i) a (adv MU_old_value i) (adv MU_new_value i) a'.
  Proof.
    intros Fp G. destruct two as (d & u & u' & A & A' & Rep & Df). rewrite (sub_get d t K 0 u A) in G. cbn [Nat.add] in G.
    destruct Df as [E G0 _ _|j k b b' Uj S0 P0 -> -> Kb Kb' Ob Ob' Eb Eb'|m Su G0 _ _ _ E|m j k b' Su G0 _ _ Uj S0 P0 E Kb' Ob' Eb']; try change (get u d K = None) in G0; try change (u' = chain K d (Datatypes.S m) u u) in E; try change (u' = chain K d m u (Leaf k b')) in E.
    - congruence.
    - cbn in G. destruct (feqb_spec K k) as [<-|]; [|discriminate G]. injection G as ->.
      exists b'. split; [|split].
      + rewrite Rep. rewrite (sub_modify (fun _ => b') d t K 0 _ A). cbn [modify]. rewrite feqb_refl. reflexivity.
      + rewrite (sub_get d t' K 0 _ A'). cbn. rewrite feqb_refl. reflexivity.
      + apply (leaf_pair j); assumption.
    - congruence.
    - congruence.
  Qed.
  Theorem new_value_of a' : field_proof (pt i) = true -> get t' 0 K = Some a' -> field_is (echal e) (pt i) a' (adv MU_new_value i).
  Proof.
    intros Fp G. destruct two as (d & u & u' & A & A' & Rep & Df). rewrite (sub_get d t' K 0 u' A') in G. cbn [Nat.add] in G.
    destruct Df as [E G0 _ _|j k b b' Uj S0 P0 -> -> Kb Kb' Ob Ob' Eb Eb'|m Su G0 _ _ _ E|m j k b' Su G0 _ _ Uj S0 P0 E Kb' Ob' Eb']; try change (get u d K = None) in G0; try change (u' = chain K d (Datatypes.S m) u u) in E; try change (u' = chain K d m u (Leaf k b')) in E.
    - congruence.
    - cbn in G. destruct (feqb_spec K k) as [<-|]; [|discriminate G]. injection G as ->.
      pose proof (leaf_pair j b a' Uj S0 P0 Kb Kb' Ob Ob' Eb Eb' Fp) as X.
      destruct (pt i); try discriminate Fp; cbn [field_step field_is] in X |- *; try (destruct X as (w & _ & _ & X & ->); exact X). destruct X as (_ & ->). reflexivity.
    - exfalso. rewrite E, chain_get, (single_get u _ d K Su), G0 in G. discriminate G.
    - rewrite E, chain_get in G. cbn in G. destruct (feqb_spec K k) as [<-|]; [|discriminate G]. injection G as ->.
      destruct (leaf_created j a' Uj S0 P0 Kb' Ob' Eb') as [[(T & w & _ & X & ->)|(T & w & _ & X & ->)]|T]; rewrite T in *; try discriminate Fp; exact X.
  Qed.
  Theorem created_account a' : pt i <> StorageChanged -> get t 0 K = None -> get t' 0 K = Some a' -> adv MU_old_value i = f0 /\ created a'.
  Proof.
    intros Nst G G'. destruct two as (d & u & u' & A & A' & Rep & Df).
    rewrite (sub_get d t K 0 u A) in G. rewrite (sub_get d t' K 0 u' A') in G'. cbn [Nat.add] in G, G'.
    destruct Df as [E G0 _ _|j k b b' Uj S0 P0 -> -> Kb Kb' Ob Ob' Eb Eb'|m Su G0 _ _ _ E|m j k b' Su G0 V0 _ Uj S0 P0 E Kb' Ob' Eb']; try change (get u d K = None) in G0; try change (u' = chain K d (Datatypes.S m) u u) in E; try change (u' = chain K d m u (Leaf k b')) in E.
    - congruence.
    - exfalso. cbn in G, G'. destruct (feqb K k); discriminate.
    - exfalso. rewrite E, chain_get, (single_get u _ d K Su), G0 in G'. discriminate G'.
    - rewrite E, chain_get in G'. cbn in G'. destruct (feqb_spec K k) as [<-|]; [|discriminate G']. injection G' as ->.
      split; [exact V0|]. destruct (leaf_created j a' Uj S0 P0 Kb' Ob' Eb') as [X|X]; [exact X|contradiction].
  Qed.
  Theorem still_absent : pt i <> StorageChanged -> get t' 0 K = None ->
    (get t 0 K = None /\ adv MU_old_value i = f0 /\ adv MU_new_value i = f0) \/ exists k b, reached t' 0 K = Some (k, b) /\ k <> K.
  Proof.
    intros Nst G. destruct two as (d & u & u' & A & A' & Rep & Df).
    rewrite (sub_get d t' K 0 u' A') in G. rewrite (sub_get d t K 0 u A). cbn [Nat.add] in *.
    destruct Df as [E G0 V0 V1|j k b b' Uj S0 P0 -> -> Kb Kb' Ob Ob' Eb Eb'|m Su G0 V0 V1 _ E|m j k b' Su G0 V0 _ Uj S0 P0 E Kb' Ob' Eb']; try change (get u d K = None) in G0; try change (u' = chain K d (Datatypes.S m) u u) in E; try change (u' = chain K d m u (Leaf k b')) in E.
    - auto.
    - right. exists k, b'. split; [apply (repl_reached d _ _ _ A'); reflexivity|]. intros ->. cbn in G. rewrite feqb_refl in G. discriminate G.
    - auto.
    - right. exists k, b'. rewrite E in *. split; [apply (repl_reached d _ _ _ A'); apply chain_reached|]. intros ->. rewrite chain_get in G. cbn in G. rewrite feqb_refl in G. discriminate G.
  Qed.

  (* every other account is as before *)
  Theorem others_kept : placed t' [] -> (forall o b, t = Leaf o b -> o = K) ->
    forall k', k' <> K -> (exists a, get t 0 K = Some a) \/ (exists a', get t' 0 K = Some a') \/ (forall b, reached t' 0 K <> Some (k', b)) ->
    get t' 0 k' = get t 0 k'.
  Proof.
    intros Pl Sl k' Nk Ex. destruct two as (d & u & u' & A & A' & Rep & Df). rewrite Rep at 1.
    pose proof (sub_placed d t' K 0 u' [] A' Pl) as Pu. cbn [app] in Pu.
    assert (Lk : List.length (kbits K 0 d) = d) by (unfold kbits; rewrite map_length, seq_length; reflexivity).
    rewrite (sub_get d t K 0 u A), (sub_get d t' K 0 u' A') in Ex. cbn [Nat.add] in Ex.
    apply (repl_get d t K 0 u u' k' A). cbn [Nat.add].
    destruct Df as [E G0 V0 V1|j k b b' Uj S0 P0 -> -> Kb Kb' Ob Ob' Eb Eb'|m Su G0 V0 V1 _ E|m j k b' Su G0 V0 Hm Uj S0 P0 E Kb' Ob' Eb'];
      try change (get u d K = None) in G0; try change (u' = chain K d (Datatypes.S m) u u) in E; try change (u' = chain K d m u (Leaf k b')) in E.
    - congruence.
    - assert (N : k' <> k).
      { destruct Ex as [(x & Ex)|[(x & Ex)|Nr]].
        - cbn in Ex. destruct (feqb_spec K k); [congruence|discriminate Ex].
        - cbn in Ex. destruct (feqb_spec K k); [congruence|discriminate Ex].
        - intros ->; apply (Nr b'); apply (repl_reached d _ _ _ A'); reflexivity. }
      cbn. destruct (feqb_spec k' k); [contradiction|reflexivity].
    - rewrite E in *. apply (chain_other K u u m k' d Su Su (or_intror eq_refl)).
      intros o b ->. apply (chain_bits K o b (Leaf o b) m d (kbits K 0 d) Lk Pu).
    - rewrite E in *.
      assert (N : k' <> k).
      { destruct Ex as [(x & Ex)|[(x & Ex)|Nr]].
        - congruence.
        - rewrite chain_get in Ex. cbn in Ex. destruct (feqb_spec K k); [congruence|discriminate Ex].
        - intros ->; apply (Nr b'); apply (repl_reached d _ _ _ A'); apply chain_reached. }
      assert (Gv : forall x, get (Leaf k b') x k' = None) by (intros x; cbn; destruct (feqb_spec k' k); [contradiction|reflexivity]).
      destruct m as [|m].
      + cbn [chain]. rewrite Gv. destruct u as [|o b|]; [reflexivity| |destruct Su].
        destruct (Hm eq_refl) as [-> |X]; [|discriminate X]. cbn in A. injection A as At. cbn in G0.
        rewrite (Sl o b At) in G0. rewrite feqb_refl in G0. discriminate G0.
      + apply (chain_other K u (Leaf k b') m k' d Su Logic.I (or_introl Gv)).
        intros o b ->. apply (chain_bits K o b (Leaf k b') m d (kbits K 0 d) Lk Pu).
  Qed.
End Claims.
